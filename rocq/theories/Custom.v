(** The firmware built from any list of keymaps.

    The build generates asdf_keymap_setup.c from a list of keymaps
    (keymap_list.cmake; src/CMakeLists.txt 3-38; asdf_keymap_setup.c.in 52-56,
    74-87),
    each entry giving a setup function and its index, and a user adds a keyboard
    by writing one more setup function (ARCHITECTURE-keymaps.org).  Asdf.v
    models the list shipped with the firmware.  Here [kbs] gives, for each
    index in the list, the calls its setup function makes, and every function
    of asdf.c and asdf_keymaps.c that may end in a keyboard change takes it as
    parameter.  [c_run_shipped]
    shows that the shipped list gives the functions of Asdf.v. *)
From Coq Require Import List NArith ZArith Arith Bool Lia.
From Verif Require Import Base Lib Buffer Repeat Devices Modifiers Hook KeymapData Asdf.
Import ListNotations.
Local Open Scope outcome_scope.

Section Firmware.

Variable kbs : N -> option (list setup_cmd).

(** asdf_keymaps.c 160-173; asdf_keymap_valid and asdf_keymap_setup
    (asdf_keymap_setup.c.in 52-56, 74-87) look the index up. *)
Definition c_switch (index : N) (s : kb) : outcome kb :=
  match kbs index with
  | Some cs =>
      s1 <- keymaps_reset (emit_kb EvArchInit (set_cur index s)) ;;
      setup_run cs s1
  | None => Ok s
  end.

(** asdf_keymaps.c 190-196. *)
Definition c_select (index : N) (s : kb) : outcome kb :=
  if (index =? k_cur s)%N then Ok s else c_switch index s.

(** asdf_keymaps.c 232-375. *)
Definition c_select_set (n : N) (s : kb) : outcome kb :=
  c_select (u8 (N.lor (k_cur s) (N.shiftl 1 n))) s.
Definition c_select_clear (n : N) (s : kb) : outcome kb :=
  c_select (u8 (N.ldiff (k_cur s) (N.shiftl 1 n))) s.

(** asdf.c 219-341: only the map selection actions depend on the list. *)
Definition c_activate_action (c : N) (s : kb) : outcome kb :=
  match decode c with AMapsel n => c_select_set n s | _ => activate_action c s end.

(** asdf.c 361-403. *)
Definition c_deactivate_action (c : N) (s : kb) : outcome kb :=
  match decode c with AMapsel n => c_select_clear n s | _ => deactivate_action c s end.

(** asdf.c 421-435. *)
Definition c_activate_key (c : N) (s : kb) : outcome kb :=
  if (ASDF_ACTION <? c)%N then c_activate_action c s
  else
    s1 <- put_code c s ;;
    if (k_last s1 =? c)%N then Ok s1
    else on_rep repeat_reset_count (set_last c s1).

(** asdf.c 453-464. *)
Definition c_deactivate_key (c : N) (s : kb) : outcome kb :=
  if (ASDF_ACTION <? c)%N then c_deactivate_action c s
  else if (k_last s =? c)%N then Ok (set_last 0xA0 s) else Ok s.

(** asdf.c 488-508. *)
Definition c_handle_change (row col : nat) (pressed : bool) (s : kb) : outcome kb :=
  c <- cnt_get row col s ;;
  let c1 := u8 (c + 255) in
  s1 <- cnt_set row col c1 s ;;
  if (c1 =? 0)%N then
    s2 <- cnt_set row col DEBOUNCE s1 ;;
    st <- lget UScanOob (k_stable s2) row ;;
    if pressed then
      l <- lset UScanOob (k_stable s2) row (N.lor st (N.shiftl 1 (N.of_nat col))) ;;
      let s3 := set_stable l s2 in
      code <- lookup_keycode row col s3 ;; c_activate_key code s3
    else
      l <- lset UScanOob (k_stable s2) row (N.ldiff st (N.shiftl 1 (N.of_nat col))) ;;
      let s3 := set_stable l s2 in
      code <- lookup_keycode row col s3 ;; c_deactivate_key code s3
  else Ok s1.

(** asdf.c 531-540. *)
Definition c_handle_held (row col : nat) (s : kb) : outcome kb :=
  code <- lookup_keycode row col s ;;
  if (code =? k_last s)%N then
    let '(timeout, r) := repeat_tick (k_rep s) in
    let s1 := set_rep r s in
    if (timeout : bool) then c_activate_key (k_last s1) s1 else Ok s1
  else Ok s.

(** asdf.c 575-585. *)
Fixpoint c_cols_loop (fuel : nat) (row col : nat) (state changed : N) (s : kb) : outcome kb :=
  match fuel with
  | O => Bad UDiverge
  | S f =>
    nc <- num_cols s ;;
    if col <? nc then
      s1 <- (if N.odd changed then c_handle_change row col (N.odd state) s
             else if N.odd state then c_handle_held row col s
             else Ok s) ;;
      c_cols_loop f row (S col) (N.div2 state) (N.div2 changed) s1
    else Ok s
  end.

(** asdf.c 569-586. *)
Fixpoint c_rows_loop (fuel : nat) (rd : nat -> N) (row : nat) (s : kb) : outcome kb :=
  match fuel with
  | O => Bad UDiverge
  | S f =>
    nr <- num_rows s ;;
    if row <? nr then
      let state := u8 (rd row) in
      st <- lget UScanOob (k_stable s) row ;;
      s1 <- c_cols_loop 256 row 0 state (N.lxor state st) s ;;
      c_rows_loop f rd (S row) s1
    else Ok s
  end.

(** asdf.c 564-587. *)
Definition c_keyscan (rd : nat -> N) (s : kb) : outcome kb :=
  f <- hook_get HOOK_ROW_SCANNER (k_hook s) ;;
  match f with
  | HReadRow =>
      s1 <- hook_execute HOOK_EACH_SCAN s ;;
      c_rows_loop 256 rd 0 s1
  | _ => Bad UHookType
  end.

(** asdf.c 642-663, asdf_keymaps.c 212-215. *)
Definition c_init (s : kb) : outcome kb :=
  let s1 := set_last 0xA0 s in
  let s2 := set_buf (buffer_init (k_buf s1)) s1 in
  s3 <- on_rep repeat_init s2 ;;
  s4 <- c_switch 0 s3 ;;
  '(hk, b1) <- buffer_new 16 (k_buf s4) ;;
  '(hm, b2) <- buffer_new 128 b1 ;;
  Ok (set_cnt (repeat DEBOUNCE 128) (set_stable (repeat 0%N 16)
        (set_handles hk hm (set_buf b2 s4)))).

(** main.c 61-80. *)
Definition c_tick (rd : nat -> N) (s : kb) : outcome kb :=
  '(code, s1) <- next_code s ;;
  s2 <- (if (code <? INVALID)%N then output code s1 else Ok s1) ;;
  c_keyscan rd s2.

(** main.c 66-79: one pass per element. *)
Fixpoint c_ticks (rds : list (nat -> N)) (s : kb) : outcome kb :=
  match rds with
  | [] => Ok s
  | rd :: t => s1 <- c_tick rd s ;; c_ticks t s1
  end.

(** main.c 61-80: power-on followed by one tick per element of [rds]. *)
Definition c_run (rds : list (nat -> N)) : outcome kb := s <- c_init kb_zero ;; c_ticks rds s.

End Firmware.

(** The list shipped with the firmware (keymap_list.cmake, as in [setup_of]). *)
Definition shipped (index : N) : option (list setup_cmd) :=
  if (index <? 6)%N then Some (setup_of index) else None.

Lemma bind_ext : forall A B (x : outcome A) (f g : A -> outcome B),
  (forall a, f a = g a) -> bind x f = bind x g.
Proof. intros. destruct x; cbn; auto. Qed.

Lemma s_switch : forall i s, c_switch shipped i s = keymaps_switch i s.
Proof.
  intros i s. unfold c_switch, keymaps_switch, shipped, keymap_valid. destruct (i <? 6)%N; reflexivity.
Qed.

Lemma s_select : forall i s, c_select shipped i s = keymaps_select i s.
Proof. intros. unfold c_select, keymaps_select. rewrite s_switch. reflexivity. Qed.
Lemma s_act : forall c s, c_activate_action shipped c s = activate_action c s.
Proof.
  intros. unfold c_activate_action. destruct (decode c) eqn:D; auto.
  unfold activate_action. rewrite D. apply s_select.
Qed.
Lemma s_deact : forall c s, c_deactivate_action shipped c s = deactivate_action c s.
Proof.
  intros. unfold c_deactivate_action. destruct (decode c) eqn:D; auto.
  unfold deactivate_action. rewrite D. apply s_select.
Qed.
Lemma s_on : forall c s, c_activate_key shipped c s = activate_key c s.
Proof. intros. unfold c_activate_key, activate_key. rewrite s_act. reflexivity. Qed.
Lemma s_off : forall c s, c_deactivate_key shipped c s = deactivate_key c s.
Proof. intros. unfold c_deactivate_key, deactivate_key. rewrite s_deact. reflexivity. Qed.
Lemma s_change : forall r c p s, c_handle_change shipped r c p s = handle_change r c p s.
Proof.
  intros. unfold c_handle_change, handle_change. cbv zeta.
  apply bind_ext; intros x. apply bind_ext; intros s1. destruct (u8 (x + 255) =? 0)%N; auto.
  apply bind_ext; intros s2. apply bind_ext; intros st.
  destruct p; apply bind_ext; intros l; apply bind_ext; intros code; [apply s_on | apply s_off].
Qed.
Lemma s_held : forall r c s, c_handle_held shipped r c s = handle_held r c s.
Proof.
  intros. unfold c_handle_held, handle_held. apply bind_ext; intros code.
  destruct (code =? k_last s)%N; auto. destruct (repeat_tick (k_rep s)) as [[] q]; auto. apply s_on.
Qed.
Lemma s_cols : forall f r c x y s, c_cols_loop shipped f r c x y s = cols_loop f r c x y s.
Proof.
  induction f as [|f IH]; intros; [reflexivity|cbn [c_cols_loop cols_loop]].
  apply bind_ext; intros nc. destruct (c <? nc); auto.
  rewrite s_change, s_held. apply bind_ext; intros s1. apply IH.
Qed.
Lemma s_rows : forall f rd r s, c_rows_loop shipped f rd r s = rows_loop f rd r s.
Proof.
  induction f as [|f IH]; intros; [reflexivity|]. cbn [c_rows_loop rows_loop].
  apply bind_ext; intros nr. destruct (r <? nr); [|reflexivity]. cbv zeta.
  apply bind_ext; intros st. rewrite s_cols. apply bind_ext; intros s1. apply IH.
Qed.
Lemma s_tick : forall rd s, c_tick shipped rd s = tick rd s.
Proof.
  intros. unfold c_tick, tick. apply bind_ext; intros [code s1]. apply bind_ext; intros s2.
  unfold c_keyscan, keyscan. apply bind_ext; intros f. destruct f; [reflexivity..| |reflexivity|reflexivity].
  apply bind_ext; intros s3. apply s_rows.
Qed.
Lemma s_ticks : forall rds s, c_ticks shipped rds s = ticks rds s.
Proof.
  induction rds as [|rd rds IH]; intros; [reflexivity|cbn [c_ticks ticks]].
  rewrite s_tick. apply bind_ext; intros s1. apply IH.
Qed.

Lemma s_init : forall s, c_init shipped s = init s.
Proof.
  intros. unfold c_init, init, keymaps_init. cbv zeta. apply bind_ext; intros s3.
  rewrite s_switch. reflexivity.
Qed.

(** Built from the shipped list, the firmware is the one of Asdf.v. *)
Theorem c_run_shipped : forall rds, c_run shipped rds = run rds.
Proof.
  intros. unfold c_run, run, boot. rewrite s_init. apply bind_ext; intros s. apply s_ticks.
Qed.
