(** Keymap registration and selection: C16, C18-C23, C50, C53. *)
From Coq Require Import List NArith ZArith Arith Bool Lia.
From Coq Require Import ZifyBool ZifyNat ZifyN.
From Verif Require Import Base Lib Buffer BufferSpec BufferProofs Repeat Devices DevSpec DevProofs PropDevices
     Modifiers Hook KeymapData Asdf KeySpec KeyRef Obs.
Import ListNotations.
Local Open Scope outcome_scope.

(** ** Selecting a keyboard from an arbitrary state *)

(** CAPS LOCK after the selection. *)
Definition caps_after (i : N) (m : mods) : N :=
  if toggles_caps i then N.lxor (m_caps m) 1 else m_caps m.
(** Outputs driven by the selection, and recorded levels afterwards. *)
Definition driven_by (i : N) (m : mods) : (nat -> N) * list event :=
  if toggles_caps i then
    spec_action (if (caps_after i m =? 0)%N then V_SET_LO else V_SET_HI) (own (wiring i) VCAPS_LED) (lev (wiring i))
  else (lev (wiring i), []).

Lemma switch_full : forall i s, (i < 6)%N -> length (k_maps s) = 4 ->
  exists d, RD (mkVspec (own (wiring i)) (fn (wiring i)) (fst (driven_by i (k_mod s)))) d /\
    log d = (if (i =? 4)%N then [EvStrobeNeg] else []) ++ rev (snd (driven_by i (k_mod s))) ++
            EvArchInit :: log (k_dev s) /\
    keymaps_switch i s =
      Ok (set_md (mkMods (m_shift (k_mod s)) (caps_after i (k_mod s)) (m_ctrl (k_mod s)), d)
           (set_cur i (with_tables (maps_of i) (hooks_of i) d 40 s))).
Proof.
  intros i s Hi HM. destruct (switch_tables i s Hi HM) as [d (A&B&C)]. rewrite C. clear C.
  unfold caps_after, driven_by, caps_after.
  destruct (toggles_caps i) eqn:T.
  - set (x := N.lxor (m_caps (k_mod s)) 1).
    destruct (action_refines (if (x =? 0)%N then V_SET_LO else V_SET_HI) (wiring i) d VCAPS_LED A
                ltac:(apply Nat.ltb_lt; reflexivity)) as [d1 (A1&B1&C1)].
    set (s1 := set_cur i (with_tables (maps_of i) (hooks_before i) d 40 s)).
    assert (E : on_md capslock_activate s1 = Ok (set_md (mkMods (m_shift (k_mod s)) x (m_ctrl (k_mod s)), d1) s1)).
    { unfold on_md, capslock_activate, set_caps_state. cbn [fst]. change (k_mod s1) with (k_mod s).
      change (k_dev s1) with d. change CAPS_LOCKED_ST with 1%N. fold x. rewrite A1. reflexivity. }
    assert (X : i = 4%N \/ (i = 2%N \/ i = 5%N)) by (kcases i; cbn in T; try discriminate; auto).
    destruct X as [X|X].
    + subst i. cbn [setup_tail setup_run setup_step]. rewrite E. cbn [bind].
      exists (emit EvStrobeNeg d1). split; [apply RD_emit; exact B1|]. split.
      * change (log (emit EvStrobeNeg d1)) with (EvStrobeNeg :: log d1). rewrite C1, B. reflexivity.
      * match goal with |- context [hook_assign _ _ ?h] => change h with (hooks_before 4) end.
        rewrite hook4_ok. reflexivity.
    + exists d1. split; [exact B1|]. split.
      * rewrite C1, B. destruct X; subst i; reflexivity.
      * destruct X; subst i; cbn [setup_tail setup_run setup_step]; rewrite E; reflexivity.
  - exists d. split; [destruct (wiring i); exact A|]. split.
    + rewrite B. kcases i; cbn in T; try discriminate; reflexivity.
    + replace (mkMods _ _ _) with (k_mod s) by (destruct (k_mod s); reflexivity).
      kcases i; cbn in T; try discriminate; reflexivity.
Qed.

(** ** C16 *)

(** Selecting a keyboard, from any state: the only outputs driven are those of
    the CAPS LOCK LED, and every keyboard declares initial values for further
    outputs, which are therefore not driven. *)
Theorem C16_initial_values_reach_pins_refuted : forall i s, (i < 6)%N -> length (k_maps s) = 4 ->
  exists s' new v p f x, keymaps_switch i s = Ok s' /\ log (k_dev s') = new ++ log (k_dev s) /\
    In (SAssign v p f x) (setup_of i) /\ forall y, ~ In (EvOut p y) new.
Proof.
  intros i s Hi HM. destruct (switch_full i s Hi HM) as [d (A&B&C)].
  eexists. exists ((if (i =? 4)%N then [EvStrobeNeg] else []) ++ rev (snd (driven_by i (k_mod s))) ++ [EvArchInit]).
  exists VOUT1, OUT3_OPEN_HI, V_PULSE_SHORT, 1%N.
  split; [exact C|]. split; [transitivity (log d); [reflexivity|]; rewrite B, <- !app_assoc; reflexivity|].
  split; [kcases i; cbn; auto 12|].
  intros y H. rewrite !in_app_iff in H. destruct H as [H|[H|H]].
  - destruct (i =? 4)%N; cbn in H; intuition discriminate.
  - apply in_rev in H. unfold driven_by in H. destruct (toggles_caps i) eqn:T; [|destruct H].
    kcases i; cbn in T; try discriminate; destruct (caps_after _ _ =? 0)%N; vm_compute in H; intuition discriminate.
  - cbn in H. intuition discriminate.
Qed.
Print Assumptions C16_initial_values_reach_pins_refuted.

(** At power-on the classic keymap's outputs are not driven at all. *)
Example C16_boot : obs events boot = Some [EvArchInit].
Proof. vm_compute. reflexivity. Qed.

(** What does hold: the declared value is recorded as the level of the output
    (so the first toggle or pulse starts from it), except that the CAPS LOCK LED
    shows the CAPS LOCK state on the keyboards that set it.
    Missing: the output is not driven to the recorded level. *)
Theorem C16_initial_values_partial : forall i s v p f x, (i < 6)%N -> length (k_maps s) = 4 ->
  In (SAssign v p f x) (setup_of i) ->
  exists s', keymaps_switch i s = Ok s' /\
    (exists l, device_list (k_dev s') v l /\ In p l) /\
    recorded (k_dev s') p =
      Some (if toggles_caps i && (v =? VCAPS_LED)
            then (if caps_on s' then 1%N else 0%N) else x).
Proof.
  intros i s v p f x Hi HM HIn. destruct (switch_full i s Hi HM) as [d (A&B&C)].
  eexists. split; [exact C|].
  assert (RDV : forall v p, v < 12 -> p < 13 -> exists e q, nth_error (vtab d) v = Some e /\
     chain (ptab d) (v_phys e) (own (wiring i) v) /\ nth_error (ptab d) p = Some q /\
     p_shadow q = fst (driven_by i (k_mod s)) p).
  { intros v' p' Hv Hp. destruct A as [A1 A2 A3 A4 A5]. destruct (A4 v' Hv) as [e (E1&E2&E3)].
    rewrite <- A1 in Hp. destruct (nth_error_ex _ _ _ Hp) as [q Q]. exists e, q.
    split; auto. split; auto. split; auto. apply A5 in Q. exact Q. }
  assert (FACT : v < 12 /\ p < 13 /\ In p (own (wiring i) v) /\
     fst (driven_by i (k_mod s)) p =
       (if toggles_caps i && (v =? VCAPS_LED) then (if negb (caps_after i (k_mod s) =? 0)%N then 1%N else 0%N) else x)).
  { unfold driven_by. kcases i; cbn in HIn;
      repeat (destruct HIn as [HIn|HIn]; [try discriminate HIn; inv HIn|]);
      try contradiction; cbn [toggles_caps];
      (split; [apply Nat.ltb_lt; reflexivity|]); (split; [apply Nat.ltb_lt; reflexivity|]);
      (split; [vm_compute; auto|]); try reflexivity;
      destruct (caps_after _ _ =? 0)%N; reflexivity. }
  destruct FACT as (F1&F2&F3&F4). destruct (RDV v p F1 F2) as [e [q (E1&E2&E3&E4)]].
  split.
  - exists (own (wiring i) v). split; auto. exists e. split; auto.
  - unfold recorded. change (k_dev (set_md (mkMods (m_shift (k_mod s)) (caps_after i (k_mod s)) (m_ctrl (k_mod s)), d)
      (set_cur i (with_tables (maps_of i) (hooks_of i) d 40 s)))) with d.
    rewrite E3. cbn [option_map]. rewrite E4, F4. reflexivity.
Qed.
Print Assumptions C16_initial_values_partial.

(** Power-on storage is a legitimate previous state. *)
Example C16_hypotheses : length (k_maps kb_zero) = 4 /\
  In (SAssign VOUT2 OUT1_OPEN_LO V_PULSE_LONG 0) (setup_of 2).
Proof. split; [reflexivity|]. cbn. auto 12. Qed.

(** ** C18 *)

(** A call of asdf_keymaps_add_map. *)
Definition add_call : Type := option (list N) * nat * nat * nat.
Fixpoint add_run (cs : list add_call) (s : kb) : outcome kb :=
  match cs with
  | [] => Ok s
  | (m, mi, r, c) :: t => s1 <- add_map m mi r c s ;; add_run t s1
  end.

(** The map registered for modifier [i] after the calls: the last valid call
    for it, else what was there. *)
Definition registered (cs : list add_call) (i : nat) (old : kmap) : kmap :=
  fold_left (fun acc '(m, mi, r, c) =>
     if (mi =? i) && (r <=? 16) && (c <=? 8) then mkKmap m r c else acc) cs old.

Theorem C18_add_map_bounds_checked : forall cs s, length (k_maps s) = 4 ->
  exists s', add_run cs s = Ok s' /\ length (k_maps s') = 4 /\
    (forall i old, nth_error (k_maps s) i = Some old ->
       nth_error (k_maps s') i = Some (registered cs i old)) /\
    set_maps (k_maps s) s' = s.
Proof.
  induction cs as [|[[[m mi] r] c] cs IH]; intros s HM.
  - exists s. split; [reflexivity|]. split; auto. split; auto. destruct s; reflexivity.
  - cbn [add_run]. unfold add_map. change num_modifiers with 4. change max_rows with 16. change max_cols with 8.
    destruct ((mi <? 4) && (r <=? 16) && (c <=? 8)) eqn:E.
    + rewrite lset_ok by lia. cbn [bind].
      destruct (IH (set_maps (upd (k_maps s) mi (mkKmap m r c)) s)) as [s' (A&B&C&D)].
      { cbn. rewrite upd_length. auto. }
      exists s'. split; auto. split; auto. split.
      * intros i old Ho. cbn [registered fold_left].
        destruct (Nat.eqb_spec mi i).
        -- subst i. replace (true && (r <=? 16) && (c <=? 8)) with true by lia.
           apply C. cbn. apply nth_error_upd_same. lia.
        -- cbn [andb]. apply C. cbn. rewrite nth_error_upd_other; auto.
      * destruct s'; cbn in *. destruct s; cbn in *. inv D. reflexivity.
    + cbn [bind]. destruct (IH s HM) as [s' (A&B&C&D)]. exists s'. split; auto. split; auto. split; auto.
      intros i old Ho. cbn [registered fold_left].
      assert (i < 4) by (rewrite <- HM; eapply nth_error_Some_lt; eauto).
      replace ((mi =? i) && (r <=? 16) && (c <=? 8)) with false by lia. apply C; auto.
Qed.
Print Assumptions C18_add_map_bounds_checked.

(** A mixture of valid and invalid calls. *)
Example C18_example :
  obs (fun s => map (fun m => (km_rows m, km_cols m)) (k_maps s))
    (add_run [(Some [1%N], 0, 16, 8); (None, 4, 1, 1); (None, 1, 17, 8); (None, 2, 3, 9);
              (Some [2%N], 0, 200, 200); (Some [3%N], 2, 13, 8)] kb_zero)
  = Some [(16, 8); (0, 0); (13, 8); (0, 0)].
Proof. vm_compute. reflexivity. Qed.

(** ** C19 *)

(** On keyboards 0-3 every lookup reads the entry of the registered matrix, for
    every key and every modifier state. *)
Theorem C19_lookup_in_bounds_partial : forall rds s mi r c,
  run rds = Ok s -> (k_cur s < 4)%N -> mi < 4 -> r < 9 -> c < 8 ->
  r * 8 + c < length (table (k_cur s) mi) /\ get_code r c mi s = Ok (code_at (k_cur s) mi r c).
Proof.
  intros rds s mi r c H Hk Hmi Hr Hc. destruct (reach _ _ H) as [a [_ RL]].
  unfold get_code. rewrite (rl_maps _ _ RL), <- (rl_cur _ _ RL).
  split; [rewrite table_length by auto; lia|].
  rewrite (proj2 (lget_ok _ _ _ _ _) (maps_nth (k_cur s) (N.to_nat (k_cur s)) ltac:(lia))).
  cbn [bind km_cols km_rows]. rewrite rows_9 by auto. cbn [Nat.eqb negb andb].
  rewrite (proj2 (lget_ok _ _ _ _ _) (maps_nth (k_cur s) _ Hmi)). cbn [bind km_matrix].
  apply lget_ok. apply nth_error_nth'. rewrite table_length by auto. lia.
Qed.
Print Assumptions C19_lookup_in_bounds_partial.

Example C19_example :
  obs (fun s => (k_cur s, get_code 5 3 MOD_SHIFT s)) (run (hold 10 [(8, 0)])) = Some (1%N, Ok 13%N).
Proof. vm_compute. reflexivity. Qed.

(** Keyboards 4 and 5 can be selected, and then every lookup of a key is out of
    bounds: asdf_keymaps_get_code indexes the table of the four modifier maps
    with the keyboard number. *)
Theorem C19_lookup_in_bounds_refuted :
  (forall rds s r c, run rds = Ok s -> (4 <= k_cur s)%N -> lookup_keycode r c s = Bad UKeymapsOob) /\
  exists rds s, run rds = Ok s /\ k_cur s = 4%N.
Proof.
  split.
  - intros rds s r c H Hk. destruct (reach _ _ H) as [a [_ RL]].
    unfold lookup_keycode, get_code. rewrite (rl_mod _ _ RL), map_now_ok. cbn [bind].
    rewrite (rl_maps _ _ RL). unfold lget.
    replace (nth_error (maps_of (a_cur a)) (N.to_nat (k_cur s))) with (@None kmap); auto.
    symmetry. apply nth_error_None. rewrite maps_len. lia.
  - exists (hold 10 [(8, 2)]).
    assert (X : obs k_cur (run (hold 10 [(8, 2)])) = Some 4%N) by (vm_compute; reflexivity).
    destruct (run (hold 10 [(8, 2)])) as [s|]; [|discriminate]. exists s. split; auto. inv X. auto.
Qed.
Print Assumptions C19_lookup_in_bounds_refuted.

(** Selecting keyboard 4 and holding the switch one scan longer is already an
    out-of-bounds access. *)
Example C19_bad : run (hold 11 [(8, 2)]) = Bad UKeymapsOob.
Proof. vm_compute. reflexivity. Qed.

(** ** C20, C21: keymap selection events *)
Inductive sel := SelOn (n : N) | SelOff (n : N).
Definition sel_ok (e : sel) : Prop := match e with SelOn n | SelOff n => (n < 4)%N end.
Definition sel_step (e : sel) (s : kb) : outcome kb :=
  match e with SelOn n => map_select_set n s | SelOff n => map_select_clear n s end.
Fixpoint sel_run (es : list sel) (s : kb) : outcome kb :=
  match es with [] => Ok s | e :: t => s1 <- sel_step e s ;; sel_run t s1 end.

(** Position of the switches: bit n = switch n. *)
Definition turn (e : sel) (p : N) : N :=
  match e with SelOn n => N.setbit p n | SelOff n => N.clearbit p n end.
Definition position (es : list sel) (p0 : N) : N := fold_left (fun p e => turn e p) es p0.

Lemma sel_step_select : forall e s, sel_ok e -> (k_cur s < 6)%N ->
  sel_step e s = keymaps_select (turn e (k_cur s)) s.
Proof.
  intros e s He Hk. destruct e; cbn in *; unfold map_select_set, map_select_clear;
    destruct (set_bit_ok (k_cur s) n Hk He) as [E1 E2]; rewrite ?E1, ?E2; auto.
Qed.

Lemma select_step : forall i s, length (k_maps s) = 4 ->
  exists s', keymaps_select i s = Ok s' /\ length (k_maps s') = 4 /\
    k_cur s' = (if (i <? 6)%N then i else k_cur s) /\
    ((i <? 6)%N = false -> s' = s).
Proof.
  intros i s HM. unfold keymaps_select. destruct (N.eqb_spec i (k_cur s)).
  - exists s. split; auto. split; auto. split; auto. destruct (i <? 6)%N; auto.
  - destruct (N.ltb_spec i 6).
    + destruct (switch_full i s H HM) as [d (_&_&E)]. eexists. split; [exact E|].
      split; [reflexivity|]. split; [reflexivity|]. discriminate.
    + exists s. unfold keymaps_switch, keymap_valid. replace (i <? 6)%N with false by lia. auto.
Qed.

Theorem C20_selected_keyboard_valid : forall es s, Forall sel_ok es ->
  length (k_maps s) = 4 -> (k_cur s < 6)%N ->
  exists s', sel_run es s = Ok s' /\ (k_cur s' < 6)%N.
Proof.
  induction es as [|e es IH]; intros s HF HM HK.
  - exists s. auto.
  - inv HF. cbn [sel_run]. rewrite sel_step_select by auto.
    destruct (select_step (turn e (k_cur s)) s HM) as [s1 (A&B&C&_)]. rewrite A. cbn [bind].
    apply IH; auto. rewrite C. destruct (N.ltb_spec (turn e (k_cur s)) 6); auto.
Qed.
Print Assumptions C20_selected_keyboard_valid.

(** An invalid selection changes nothing at all. *)
Theorem C20_invalid_selection_ignored : forall i s, (6 <= i)%N -> keymaps_select i s = Ok s.
Proof.
  intros i s H. unfold keymaps_select, keymaps_switch, keymap_valid.
  destruct (i =? k_cur s)%N; auto. replace (i <? 6)%N with false by lia. auto.
Qed.
Print Assumptions C20_invalid_selection_ignored.

(** In the running firmware, whatever is read from the matrix. *)
Theorem C20_running_keyboard_valid : forall rds s, run rds = Ok s -> (k_cur s < 6)%N.
Proof.
  intros rds s H. destruct (reach _ _ H) as [a [_ RL]]. rewrite (rl_cur _ _ RL). apply (rl_lt _ _ RL).
Qed.
Print Assumptions C20_running_keyboard_valid.

Example C20_example :
  obs k_cur (bind boot (sel_run [SelOn 2; SelOn 1; SelOn 0; SelOn 3])) = Some 5%N.
Proof. vm_compute. reflexivity. Qed.

(** The selected keyboard follows the switches as long as every position on the
    way is valid.  Missing: positions reached through an invalid one. *)
Theorem C21_keymap_follows_switches_partial : forall es s, Forall sel_ok es ->
  length (k_maps s) = 4 -> (k_cur s < 6)%N ->
  (forall n, (position (firstn n es) (k_cur s) < 6)%N) ->
  exists s', sel_run es s = Ok s' /\ k_cur s' = position es (k_cur s).
Proof.
  induction es as [|e es IH]; intros s HF HM HK HV.
  - exists s. auto.
  - inv HF. cbn [sel_run]. rewrite sel_step_select by auto.
    destruct (select_step (turn e (k_cur s)) s HM) as [s1 (A&B&C&_)]. rewrite A. cbn [bind].
    assert (V1 : (turn e (k_cur s) < 6)%N) by (specialize (HV 1); exact HV).
    replace (turn e (k_cur s) <? 6)%N with true in C by lia.
    destruct (IH s1) as [s2 (E&F)]; auto.
    + rewrite C. auto.
    + intros n. specialize (HV (S n)). cbn in HV. rewrite C. exact HV.
    + exists s2. split; auto. rewrite F, C. reflexivity.
Qed.
Print Assumptions C21_keymap_follows_switches_partial.

Example C21_example : forall n, (position (firstn n [SelOn 2; SelOn 0; SelOff 2; SelOn 1; SelOff 0]%N) 0 < 6)%N.
Proof. intros n. do 6 (destruct n as [|n]; [reflexivity|]). reflexivity. Qed.

(** Moving the switches from 4 to 3 via 7 and 6 or 5 ends with the wrong
    keyboard. *)
Theorem C21_keymap_follows_switches_refuted : exists es s0 s,
  boot = Ok s0 /\ Forall sel_ok es /\ sel_run es s0 = Ok s /\
  position es (k_cur s0) = 3%N /\ k_cur s <> 3%N.
Proof.
  exists [SelOn 2; SelOn 0; SelOn 1; SelOff 2]%N.
  assert (X : obs (fun s => (position [SelOn 2; SelOn 0; SelOn 1; SelOff 2]%N (k_cur s),
                    obs k_cur (sel_run [SelOn 2; SelOn 0; SelOn 1; SelOff 2]%N s))) boot = Some (3%N, Some 1%N))
    by (vm_compute; reflexivity).
  apply obs_some in X. destruct X as [s0 [E0 X]]. exists s0.
  pose proof (f_equal fst X) as X1. pose proof (f_equal snd X) as X2. cbn [fst snd] in X1, X2.
  apply obs_some in X2. destruct X2 as [s [E1 X2]]. exists s.
  split; auto. split; [repeat constructor|]. split; auto. split; auto. rewrite X2. discriminate.
Qed.
Print Assumptions C21_keymap_follows_switches_refuted.

(** ** C22 *)

(** Selecting keyboard [i] leaves exactly the tables of that keyboard: keycode
    maps, message hooks, message delay, output assignments; and leaves the
    scanner, the queues, repeat, SHIFT and CTRL alone. *)
Theorem C22_selection_installs_keymap : forall i s, (i < 6)%N -> length (k_maps s) = 4 ->
  exists s', keymaps_switch i s = Ok s' /\ k_cur s' = i /\
    (forall m, m < 4 -> nth_error (k_maps s') m = Some (mkKmap (Some (table i m)) (nrows i) 8)) /\
    length (k_maps s') = 4 /\
    (forall n, 1 <= n <= 11 -> nth_error (k_hook s') (4 + n) =
       Some (match message i n with Some m => HPrint m | None => HNull end)) /\
    firstn 5 (k_hook s') = [HNull; HKeyscan; HReadRow; HSend; HNull] /\ length (k_hook s') = 16 /\
    k_delay s' = 40%N /\
    (forall v, v < 12 -> device_list (k_dev s') v (own (wiring i) v) /\
       option_map v_fn (nth_error (vtab (k_dev s')) v) = Some (fn (wiring i) v)) /\
    k_stable s' = k_stable s /\ k_cnt s' = k_cnt s /\ k_last s' = k_last s /\ k_buf s' = k_buf s /\
    k_hkey s' = k_hkey s /\ k_hmsg s' = k_hmsg s /\ k_rep s' = k_rep s /\
    m_shift (k_mod s') = m_shift (k_mod s) /\ m_ctrl (k_mod s') = m_ctrl (k_mod s).
Proof.
  intros i s Hi HM. destruct (switch_full i s Hi HM) as [d (A&B&C)].
  eexists. split; [exact C|]. split; [reflexivity|].
  split; [intros; apply maps_nth; auto|]. split; [reflexivity|].
  split.
  { intros n Hn. cbn [k_hook set_md set_cur with_tables set_delay set_dev set_hook].
    do 12 (destruct n as [|n]; [try lia; reflexivity|]). lia. }
  split; [reflexivity|]. split; [reflexivity|]. split; [reflexivity|].
  split.
  { intros v Hv. destruct A as [A1 A2 A3 A4 A5]. destruct (A4 v Hv) as [e (E1&E2&E3)].
    split; [exists e; auto|].
    match goal with |- context [vtab ?x] => change x with d end. rewrite E1. cbn. f_equal. exact E3. }
  repeat (split; [reflexivity|]). reflexivity.
Qed.
Print Assumptions C22_selection_installs_keymap.

(** Functions on the output tables do not look at the event log. *)
Definition same_tables (x y : outcome devs) : Prop :=
  match x, y with
  | Ok d, Ok e => ptab d = ptab e /\ vtab d = vtab e
  | Bad u, Bad w => u = w
  | _, _ => False
  end.
Definition blind (f : devs -> outcome devs) : Prop :=
  forall d e, ptab d = ptab e -> vtab d = vtab e -> same_tables (f d) (f e).

Lemma blind_set : forall o v, blind (physical_set o v).
Proof.
  intros o v d e H1 H2. unfold physical_set. rewrite H1.
  destruct (lget UDevOob (ptab e) o); cbn [bind same_tables emit ptab vtab log]; auto.
  rewrite H1. destruct (lset _ _ _ _); cbn; auto.
Qed.
Lemma blind_toggle : forall o, blind (physical_toggle o).
Proof.
  intros o d e H1 H2. unfold physical_toggle. rewrite H1.
  destruct (lget UDevOob (ptab e) o); cbn [bind]; [|reflexivity]. apply blind_set; auto.
Qed.
Lemma blind_map : forall f, (forall o, blind (f o)) -> forall n o, blind (map_function n f o).
Proof.
  intros f H. induction n as [|n IH]; intros o d e H1 H2; cbn [map_function]; [reflexivity|].
  destruct (o =? NO_OUT); [cbn; auto|].
  specialize (H o d e H1 H2). destruct (f o d) as [d1|], (f o e) as [e1|]; cbn in H; try contradiction;
    cbn [bind same_tables]; auto.
  destruct H as [P Q]. unfold next_device. rewrite P.
  destruct (lget UDevOob (ptab e1) o); cbn [bind same_tables]; auto. apply IH; auto.
Qed.
Lemma blind_action : forall v f, blind (virtual_action v f).
Proof.
  intros v f d e H1 H2. unfold virtual_action. rewrite H2.
  destruct (lget UDevOob (vtab e) v) as [x|]; cbn [bind]; [|reflexivity].
  assert (PP : forall ev l, same_tables (d1 <- vmap physical_toggle l d ;; vmap physical_toggle l (emit ev d1))
                                    (d1 <- vmap physical_toggle l e ;; vmap physical_toggle l (emit ev d1))).
  { intros ev l. pose proof (blind_map physical_toggle blind_toggle 14 l d e H1 H2) as X.
    unfold vmap. destruct (map_function 14 physical_toggle l d), (map_function 14 physical_toggle l e);
      cbn in X; try contradiction; cbn [bind same_tables]; auto.
    destruct X. apply (blind_map physical_toggle blind_toggle 14 l); auto. }
  destruct f; auto; try (apply blind_map; auto; intros; try apply blind_toggle; apply blind_set).
  cbn. auto.
Qed.
Lemma avail_blind : forall d e, ptab d = ptab e -> forall n dev cur nxt,
  avail_loop n dev cur nxt d = avail_loop n dev cur nxt e.
Proof.
  intros d e H. induction n as [|n IH]; intros; cbn [avail_loop]; auto.
  destruct (negb (nxt =? NO_OUT) && negb (nxt =? dev)); auto.
  unfold next_device. rewrite H. destruct (lget UDevOob (ptab e) nxt); cbn; auto.
Qed.
Lemma blind_assign : forall v p f i, blind (virtual_assign v p f i).
Proof.
  intros v p f i d e H1 H2. unfold virtual_assign. destruct (valid_virtual v); [|cbn; auto].
  rewrite H2. destruct (lget UDevOob (vtab e) v) as [x|]; cbn [bind]; [|reflexivity].
  unfold physical_allocate, device_is_available, next_device. rewrite H1.
  destruct (lget UDevOob (ptab e) NO_OUT) as [n0|]; cbn [bind]; [|reflexivity].
  rewrite (avail_blind d e H1). destruct (avail_loop 14 p NO_OUT (p_next n0) e) as [pr|]; cbn [bind]; [|reflexivity].
  destruct (valid_physical p && negb (num_phys =? pr)); cbn [bind]; [|cbn; auto].
  destruct (lget UDevOob (ptab e) p); cbn [bind]; [|reflexivity].
  destruct (lget UDevOob (ptab e) pr); cbn [bind]; [|reflexivity].
  destruct (lset UDevOob (ptab e) pr _) as [pt1|]; cbn [bind]; [|reflexivity].
  destruct (lset UDevOob pt1 p _) as [pt2|]; cbn [bind]; [|reflexivity].
  cbn [vtab]. rewrite H2. destruct (lset UDevOob (vtab e) v _); cbn [bind same_tables]; auto.
Qed.

Definition similar (x y : kb) : Prop :=
  k_hook x = k_hook y /\ k_maps x = k_maps y /\ k_cur x = k_cur y /\
  vtab (k_dev x) = vtab (k_dev y) /\ ptab (k_dev x) = ptab (k_dev y) /\ m_caps (k_mod x) = m_caps (k_mod y).

Lemma setup_similar : forall cs x y x' , similar x y -> setup_run cs x = Ok x' ->
  exists y', setup_run cs y = Ok y' /\ similar x' y'.
Proof.
  induction cs as [|c cs IH]; intros x y x' S E; cbn [setup_run] in *.
  - inv E. eauto.
  - apply bind_ok in E. destruct E as [x1 [E1 E2]].
    assert (Y : exists y1, setup_step c y = Ok y1 /\ similar x1 y1).
    { destruct S as (S2&S3&S4&S5&S6&S7). destruct c; cbn [setup_step] in *.
      - unfold add_map in *. destruct (_ && _).
        + apply bind_ok in E1. destruct E1 as [l [L1 L2]]. inv L2. rewrite S3 in L1. rewrite L1. cbn.
          eexists; split; [reflexivity|]. unfold similar; cbn. auto 10.
        + inv E1. eexists; split; [reflexivity|]. unfold similar. auto 10.
      - apply bind_ok in E1. destruct E1 as [h [L1 L2]]. inv L2. rewrite S2 in L1. rewrite L1. cbn.
        eexists; split; [reflexivity|]. unfold similar; cbn. auto 10.
      - unfold on_dev in *. pose proof (blind_assign vo po fn init (k_dev x) (k_dev y) S6 S5) as B.
        destruct (virtual_assign vo po fn init (k_dev x)) as [d|]; [|discriminate]. cbn in E1. inv E1.
        destruct (virtual_assign vo po fn init (k_dev y)) as [e|]; [|contradiction]. destruct B as [B1 B2].
        cbn. eexists; split; [reflexivity|]. unfold similar; cbn. auto 10.
      - inv E1. eexists; split; [reflexivity|]. unfold similar, set_print_delay; cbn. auto 10.
      - unfold on_md, capslock_activate, set_caps_state in *. cbn [fst] in *. rewrite <- S7.
        match goal with H : context [virtual_action VCAPS_LED ?f _] |- _ =>
          pose proof (blind_action VCAPS_LED f (k_dev x) (k_dev y) S6 S5) as B end.
        match goal with H : context [virtual_action VCAPS_LED ?f _] |- _ =>
          destruct (virtual_action VCAPS_LED f (k_dev x)) as [d|]; [|discriminate];
          destruct (virtual_action VCAPS_LED f (k_dev y)) as [e|]; [|contradiction] end.
        destruct B as [B1 B2]. cbn in *. inv E1. eexists; split; [reflexivity|]. unfold similar; cbn. auto 10.
      - inv E1. eexists; split; [reflexivity|]. unfold similar; cbn. auto 10. }
    destruct Y as [y1 [Y1 Y2]]. rewrite Y1. cbn [bind]. eapply IH; eauto.
Qed.

(** From any two previous states with the same CAPS LOCK state, selecting the
    same keyboard yields identical tables.  Equality of CAPS LOCK is needed only
    because the selection may drive the CAPS LOCK LED. *)
Theorem C22_selection_history_independent : forall i s1 s2, (i < 6)%N ->
  length (k_maps s1) = 4 -> length (k_maps s2) = 4 -> m_caps (k_mod s1) = m_caps (k_mod s2) ->
  exists t1 t2, keymaps_switch i s1 = Ok t1 /\ keymaps_switch i s2 = Ok t2 /\
    k_maps t1 = k_maps t2 /\ k_hook t1 = k_hook t2 /\ k_delay t1 = k_delay t2 /\ k_cur t1 = k_cur t2 /\
    vtab (k_dev t1) = vtab (k_dev t2) /\ ptab (k_dev t1) = ptab (k_dev t2).
Proof.
  intros i s1 s2 Hi M1 M2 HC.
  destruct (switch_full i s1 Hi M1) as [d1 (_&_&E1)]. destruct (switch_full i s2 Hi M2) as [d2 (_&_&E2)].
  pose proof E1 as F1. pose proof E2 as F2.
  unfold keymaps_switch, keymap_valid in F1, F2. rewrite (proj2 (N.ltb_lt _ _) Hi) in F1, F2.
  rewrite reset_ok in F1 by (cbn; auto). rewrite reset_ok in F2 by (cbn; auto). cbn [bind] in F1, F2.
  match type of F1 with setup_run _ ?x = _ => set (x1 := x) in * end.
  match type of F2 with setup_run _ ?x = _ => set (x2 := x) in * end.
  assert (S : similar x1 x2) by (unfold similar; cbn; auto 10).
  destruct (setup_similar _ _ _ _ S F1) as [t2' [G2 S2]]. rewrite F2 in G2.
  eexists. eexists. split; [exact E1|]. split; [exact E2|].
  injection G2 as G2. rewrite <- G2 in S2.
  destruct S2 as (A2&A3&A4&A5&A6&A7). auto 10.
Qed.
Print Assumptions C22_selection_history_independent.

(** ** C23 *)

(** CAPS LOCK is toggled, not set: with CAPS LOCK on before, it is off after. *)
Theorem C23_caps_on_after_selection_refuted : forall i s, i = 2%N \/ i = 4%N \/ i = 5%N ->
  length (k_maps s) = 4 -> m_caps (k_mod s) = 1%N ->
  exists s', keymaps_switch i s = Ok s' /\ caps_on s' = false.
Proof.
  intros i s Hi HM HC. destruct (switch_full i s ltac:(lia) HM) as [d (_&_&E)].
  eexists. split; [exact E|]. unfold caps_on. cbn [k_mod set_md fst m_caps]. unfold caps_after. rewrite HC.
  destruct Hi as [-> |[-> | ->]]; reflexivity.
Qed.
Print Assumptions C23_caps_on_after_selection_refuted.

(** The refuted situation occurs: CAPS LOCK on the classic keymap, then the
    Apple II keymap is selected. *)
Example C23_reachable :
  obs (fun s => (k_cur s, caps_on s)) (run (hold 10 [(5, 2)])) = Some (0%N, true) /\
  obs (fun s => (k_cur s, caps_on s)) (run (hold 10 [(5, 2)] ++ hold 10 [(8, 1)])) = Some (2%N, false).
Proof. vm_compute. auto. Qed.

(** Missing: only from CAPS LOCK off. *)
Theorem C23_caps_on_after_selection_partial : forall i s, i = 2%N \/ i = 4%N \/ i = 5%N ->
  length (k_maps s) = 4 -> m_caps (k_mod s) = 0%N ->
  exists s', keymaps_switch i s = Ok s' /\ caps_on s' = true.
Proof.
  intros i s Hi HM HC. destruct (switch_full i s ltac:(lia) HM) as [d (_&_&E)].
  eexists. split; [exact E|]. unfold caps_on. cbn [k_mod set_md fst m_caps]. unfold caps_after. rewrite HC.
  destruct Hi as [-> |[-> | ->]]; reflexivity.
Qed.
Print Assumptions C23_caps_on_after_selection_partial.
Example C23_from_boot :
  obs (fun s => (k_cur s, caps_on s)) (run (hold 10 [(8, 1)])) = Some (2%N, true).
Proof. vm_compute. reflexivity. Qed.

(** ** C50 *)

(** ACTION_FN_11 is the last function action of the enumeration (0xC1), it is in
    every keymap's DIP row, and activating it does nothing even when a function
    is installed in ASDF_HOOK_USER_11. *)
Theorem C50_function_keys_run_hooks_refuted : exists n s,
  1 <= n <= 11 /\ nth_error (k_hook s) (4 + n) = Some (HPrint [72%N]) /\
  decode (0xB6 + N.of_nat n) = AFn n /\
  (forall kbd m, (kbd < 4)%N -> m < 4 -> In (0xB6 + N.of_nat n)%N (table kbd m)) /\
  activate_action (0xB6 + N.of_nat n) s = Ok s /\ print [72%N] s <> Ok s.
Proof.
  assert (X : exists s0, boot = Ok s0).
  { destruct boot_sim as [s0 [E _]]. eauto. }
  destruct X as [s0 E0].
  exists 11, (set_hook (upd (k_hook s0) 15 (HPrint [72%N])) s0).
  split; [lia|]. split.
  { destruct boot_sim as [s1 [E1 R1]]. rewrite E0 in E1. inv E1. cbn [k_hook set_hook].
    rewrite (rl_hook _ _ R1). reflexivity. }
  split; [reflexivity|]. split.
  { intros kbd m Hk Hm. assert (K : In kbd [0;1;2;3]%N) by (cbn; lia).
    assert (M : In m [0;1;2;3]) by (cbn; lia).
    assert (F : forallb (fun k => forallb (fun m => existsb (N.eqb (0xB6 + N.of_nat 11)) (table k m)) [0;1;2;3])
                  [0;1;2;3]%N = true) by reflexivity.
    rewrite forallb_forall in F. specialize (F _ K). rewrite forallb_forall in F. specialize (F _ M).
    apply existsb_exists in F. destruct F as [x [Hx Ex]]. apply N.eqb_eq in Ex. subst x. auto. }
  split; [reflexivity|].
  destruct boot_sim as [s1 [E1 R1]]. rewrite E0 in E1. inv E1.
  assert (Q : key_queue s1 = [] /\ msg_queue s1 = []).
  { rewrite (key_queue_ok _ _ R1), (msg_queue_ok _ _ R1). auto. }
  cbn [print]. unfold putc. cbn [N.eqb Pos.eqb bind]. cbn [k_hmsg k_buf set_hook].
  rewrite (rl_hmsg _ _ R1).
  destruct (put_msg 72%N _ _ _ (rl_buf _ _ R1)) as [b [P1 P2]]. rewrite P1. cbn [bind].
  intros C. assert (C1 : b = k_buf s1).
  { apply (f_equal (fun o => match o with Ok s => k_buf s | Bad _ => b end)) in C. exact C. }
  subst b. pose proof (waiting_ok _ _ 1 _ P2 eq_refl) as W.
  destruct Q as [_ Q]. unfold msg_queue in Q. rewrite (rl_hmsg _ _ R1) in Q. cbn [Z.of_nat Pos.of_succ_nat] in W.
  rewrite Q in W. discriminate W.
Qed.
Print Assumptions C50_function_keys_run_hooks_refuted.

(** Missing: function action 11. *)
Theorem C50_function_keys_run_hooks_partial : forall n s, 1 <= n <= 10 -> length (k_hook s) = 16 ->
  activate_action (0xB6 + N.of_nat n) s =
    match nth_error (k_hook s) (4 + n) with
    | Some HNull => Ok s
    | Some (HPrint m) => print m s
    | _ => Bad UHookType
    end.
Proof.
  intros n s Hn HL.
  assert (X : activate_action (0xB6 + N.of_nat n) s = hook_execute (4 + n) s).
  { do 11 (destruct n as [|n]; [try lia; reflexivity|]). lia. }
  rewrite X. unfold hook_execute, hook_valid_id. change num_hooks with 16. change HOOK_NULL with 0.
  replace ((0 <? 4 + n) && (4 + n <? 16)) with true by lia. unfold lget.
  destruct (nth_error (k_hook s) (4 + n)) as [h|]; [destruct h|]; reflexivity.
Qed.
Print Assumptions C50_function_keys_run_hooks_partial.

(** ** C53 *)

(** The message registered for ASDF_HOOK_USER_9 by the Apple II caps keymap
    cannot be triggered: no key of that keyboard has function action 9. *)
Theorem C53_registered_messages_triggerable_refuted :
  message 3 9 = Some msg_applesoft_test /\
  forall m code, m < 4 -> In code (table 3 m) -> decode code <> AFn 9.
Proof.
  split; [reflexivity|]. intros m code Hm Hc.
  assert (F : forallb (fun m => forallb (fun code => match decode code with AFn 9 => false | _ => true end) (table 3 m))
                [0;1;2;3] = true) by (vm_compute; reflexivity).
  rewrite forallb_forall in F. specialize (F m ltac:(cbn; lia)). rewrite forallb_forall in F.
  specialize (F _ Hc). intros D. rewrite D in F. discriminate.
Qed.
Print Assumptions C53_registered_messages_triggerable_refuted.

(** Every other registered message of keyboards 0-3 is on some key. *)
Theorem C53_registered_messages_triggerable_partial : forall kbd n m, (kbd < 4)%N ->
  message kbd n = Some m -> kbd <> 3%N \/ n <> 9 ->
  exists r c, r < 9 /\ c < 8 /\ decode (code_at kbd 3 r c) = AFn n.
Proof.
  intros kbd n m Hk HM Hx.
  assert (K : kbd = 0%N \/ kbd = 1%N \/ kbd = 2%N \/ kbd = 3%N) by lia.
  destruct K as [->|[-> |[-> | ->]]]; cbn in HM;
    do 11 try (destruct n as [|n]); try discriminate HM; try (exfalso; lia).
  - exists 6, 6. repeat split; lia.
  - exists 6, 5. repeat split; lia.
  - exists 6, 6. repeat split; lia.
  - exists 6, 5. repeat split; lia.
  - exists 7, 5. repeat split; lia.
  - exists 6, 5. repeat split; lia.
  - exists 6, 5. repeat split; lia.
Qed.
Print Assumptions C53_registered_messages_triggerable_partial.
