(** Properties C09, C10: modifiers; C17: hooks. *)
From Coq Require Import List NArith Arith Bool Lia.
From Coq Require Import ZifyBool ZifyNat ZifyN.
From Verif Require Import Base Lib Devices DevSpec DevProofs Modifiers Hook.
Import ListNotations.
Local Open Scope outcome_scope.

(** Modifier events and the functions of asdf_modifiers.c they call. *)
Inductive mev := ShiftDown | ShiftUp | LockOn | LockToggle | CapsPress | CtrlDown | CtrlUp.

Definition mev_step (e : mev) (x : md) : outcome md :=
  match e with
  | ShiftDown => shift_activate x
  | ShiftUp => shift_deactivate x
  | LockOn => shiftlock_on_activate x
  | LockToggle => shiftlock_toggle_activate x
  | CapsPress => capslock_activate x
  | CtrlDown => ctrl_activate x
  | CtrlUp => ctrl_deactivate x
  end.

Fixpoint mev_run (h : list mev) (x : md) : outcome md :=
  match h with
  | [] => Ok x
  | e :: t => x1 <- mev_step e x ;; mev_run t x1
  end.

(** ** Specification over histories (oldest event first) *)

(** Result of the last event of the history on which [f] is defined. *)
Definition latest (f : mev -> option bool) (h : list mev) : bool :=
  fold_left (fun b e => match f e with Some x => x | None => b end) h false.

Definition ctrl_held : list mev -> bool :=
  latest (fun e => match e with CtrlDown => Some true | CtrlUp => Some false | _ => None end).
Definition shift_held : list mev -> bool :=
  latest (fun e => match e with ShiftDown => Some true | ShiftUp => Some false | _ => None end).
(** CAPS LOCK is on after an odd number of presses. *)
Definition caps_on (h : list mev) : bool :=
  Nat.odd (length (filter (fun e => match e with CapsPress => true | _ => false end) h)).
(** SHIFT LOCK: cancelled by any SHIFT event, set by LockOn, inverted by
    LockToggle. *)
Definition locked (h : list mev) : bool :=
  fold_left (fun b e => match e with
                        | ShiftDown | ShiftUp => false
                        | LockOn => true | LockToggle => negb b | _ => b end) h false.

(** The map in force. *)
Definition map_in_force (h : list mev) : nat :=
  if ctrl_held h then MOD_CTRL
  else if shift_held h || locked h then MOD_SHIFT
  else if caps_on h then MOD_CAPS
  else MOD_PLAIN.

Definition bN (b : bool) : N := if b then 1%N else 0%N.

(** State representation. *)
Definition mrep (h : list mev) (m : mods) : Prop :=
  m_ctrl m = bN (ctrl_held h) /\ m_caps m = bN (caps_on h) /\
  m_shift m = (bN (shift_held h) + 2 * bN (locked h))%N.

Lemma led_ok : forall v f s d, RD s d -> v < 12 ->
  exists d' s', virtual_action v f d = Ok d' /\ RD s' d'.
Proof.
  intros. destruct (action_refines f s d v H H0) as [d' (A&B&C)]. eauto.
Qed.

Lemma mev_step_ok : forall e h m s d, mrep h m -> RD s d ->
  exists m' d' s', mev_step e (m, d) = Ok (m', d') /\ mrep (h ++ [e]) m' /\ RD s' d'.
Proof.
  intros e h [sh ca ct] s d (H1&H2&H3) HR. cbn [m_shift m_caps m_ctrl] in *.
  assert (HL : forall f, latest f (h ++ [e]) = match f e with Some x => x | None => latest f h end).
  { intros. unfold latest. rewrite fold_left_app. auto. }
  assert (HK : locked (h ++ [e]) = match e with
     | ShiftDown | ShiftUp => false | LockOn => true | LockToggle => negb (locked h) | _ => locked h end).
  { unfold locked. rewrite fold_left_app. auto. }
  assert (HC : caps_on (h ++ [e]) = match e with CapsPress => negb (caps_on h) | _ => caps_on h end).
  { unfold caps_on. rewrite filter_app, app_length. destruct e; cbn; rewrite ?Nat.add_0_r; auto.
    rewrite Nat.add_1_r. rewrite Nat.odd_succ, <- Nat.negb_odd. auto. }
  unfold mrep, ctrl_held, shift_held in *. rewrite !HL, HK, HC.
  destruct e; cbn [mev_step]; unfold shift_activate, shift_deactivate, shiftlock_on_activate,
    shiftlock_toggle_activate, capslock_activate, ctrl_activate, ctrl_deactivate,
    set_shift_state, set_caps_state; cbn [fst m_shift m_caps m_ctrl].
  - destruct (led_ok VSHIFT_LED (if (N.land SHIFT_ON_ST SHIFT_LOCKED_ST =? 0)%N then V_SET_LO else V_SET_HI) s d HR)
      as (d'&s'&E&R); [apply Nat.ltb_lt; reflexivity|]. rewrite E. cbn [bind]. do 3 eexists. split; [reflexivity|]. cbn. eauto 10.
  - destruct (led_ok VSHIFT_LED (if (N.land SHIFT_OFF_ST SHIFT_LOCKED_ST =? 0)%N then V_SET_LO else V_SET_HI) s d HR)
      as (d'&s'&E&R); [apply Nat.ltb_lt; reflexivity|]. rewrite E. cbn [bind]. do 3 eexists. split; [reflexivity|]. cbn. eauto 10.
  - destruct (led_ok VSHIFT_LED (if (N.land (N.lor sh SHIFT_LOCKED_ST) SHIFT_LOCKED_ST =? 0)%N then V_SET_LO else V_SET_HI) s d HR)
      as (d'&s'&E&R); [apply Nat.ltb_lt; reflexivity|]. rewrite E. cbn [bind]. do 3 eexists. split; [reflexivity|]. cbn.
    split; [|eauto]. split; [auto|]. split; [auto|]. rewrite H3.
    clear H1. match goal with |- context [latest ?f h] => destruct (latest f h), (locked h); reflexivity end.
  - destruct (led_ok VSHIFT_LED (if (N.land (N.lxor sh SHIFT_LOCKED_ST) SHIFT_LOCKED_ST =? 0)%N then V_SET_LO else V_SET_HI) s d HR)
      as (d'&s'&E&R); [apply Nat.ltb_lt; reflexivity|]. rewrite E. cbn [bind]. do 3 eexists. split; [reflexivity|]. cbn.
    split; [|eauto]. split; [auto|]. split; [auto|]. rewrite H3.
    clear H1. match goal with |- context [latest ?f h] => destruct (latest f h), (locked h); reflexivity end.
  - destruct (led_ok VCAPS_LED (if (N.lxor ca CAPS_LOCKED_ST =? 0)%N then V_SET_LO else V_SET_HI) s d HR)
      as (d'&s'&E&R); [apply Nat.ltb_lt; reflexivity|]. rewrite E. cbn [bind]. do 3 eexists. split; [reflexivity|]. cbn.
    split; [|eauto]. split; [auto|]. split; [|auto]. rewrite H2. destruct (caps_on h); reflexivity.
  - do 3 eexists. split; [reflexivity|]. cbn. eauto.
  - do 3 eexists. split; [reflexivity|]. cbn. eauto.
Qed.

Lemma mev_run_ok : forall e h m s d, mrep h m -> RD s d ->
  exists m' d' s', mev_run e (m, d) = Ok (m', d') /\ mrep (h ++ e) m' /\ RD s' d'.
Proof.
  induction e; intros h m s d HM HR.
  - exists m, d, s. rewrite app_nil_r. auto.
  - destruct (mev_step_ok a h m s d HM HR) as (m1&d1&s1&E&M1&R1).
    destruct (IHe _ _ _ _ M1 R1) as (m2&d2&s2&E2&M2&R2).
    exists m2, d2, s2. cbn [mev_run]. rewrite E. cbn [bind]. rewrite <- app_assoc in M2. auto.
Qed.

Lemma index_spec : forall h m, mrep h m -> modifier_index m = Ok (map_in_force h).
Proof.
  intros h m (H1&H2&H3). unfold modifier_index, map_in_force. rewrite H1, H2, H3.
  destruct (ctrl_held h), (caps_on h), (shift_held h), (locked h); reflexivity.
Qed.

(** The modifier state and map after a history, starting with no modifier
    active and any device assignments (made by operations [ops]). *)
Definition after (ops : list vop) (h : list mev) : outcome mods :=
  d <- vop_run ops (virtual_init devs_zero) ;;
  '(m, _) <- mev_run h (mods_zero, d) ;; Ok m.
Definition map_after (ops : list vop) (h : list mev) : outcome nat :=
  m <- after ops h ;; modifier_index m.

Lemma after_ok : forall ops h, Forall vop_ok ops -> exists m, after ops h = Ok m /\ mrep h m.
Proof.
  intros. destruct (vrun_refines ops _ _ (RD_init devs_zero) H) as [d (A&B&C)].
  assert (M0 : mrep [] mods_zero) by (repeat split).
  destruct (mev_run_ok h [] mods_zero _ d M0 B) as (m&d'&s'&E&M&R).
  exists m. unfold after. rewrite A. cbn [bind]. rewrite E. cbn [bind]. auto.
Qed.

(** C09. *)
Theorem C09_modifier_precedence : forall ops h, Forall vop_ok ops ->
  map_after ops h = Ok (map_in_force h).
Proof.
  intros. destruct (after_ok ops h H) as [m [E M]]. unfold map_after. rewrite E. cbn [bind].
  apply index_spec; auto.
Qed.
Print Assumptions C09_modifier_precedence.

Example C09_example :
  map (map_after [VAssign VCAPS_LED LED1 V_NOFUNC 0])
    [ []; [CapsPress]; [CapsPress; ShiftDown]; [CapsPress; ShiftDown; CtrlDown; ShiftUp];
      [CtrlDown; CtrlUp; LockOn]; [CapsPress; CtrlDown; CapsPress; CtrlUp] ]
  = [ Ok MOD_PLAIN; Ok MOD_CAPS; Ok MOD_SHIFT; Ok MOD_CTRL; Ok MOD_SHIFT; Ok MOD_PLAIN ].
Proof. vm_compute. reflexivity. Qed.

(** C10.  Three clauses, each over all histories [h] and any further events
    [mid] of the stated kind. *)
Definition is_shift (e : mev) : bool := match e with ShiftDown | ShiftUp => true | _ => false end.
Definition is_lock (e : mev) : bool := match e with LockOn | LockToggle => true | _ => false end.
Definition is_toggle (e : mev) : bool := match e with LockToggle => true | _ => false end.

Definition lock_fold (b : bool) (h : list mev) : bool :=
  fold_left (fun b e => match e with
                        | ShiftDown | ShiftUp => false
                        | LockOn => true | LockToggle => negb b | _ => b end) h b.

Lemma locked_app : forall h t, locked (h ++ t) = lock_fold (locked h) t.
Proof. intros. unfold locked, lock_fold. apply fold_left_app. Qed.

Lemma held_app_noshift : forall h t, forallb (fun e => negb (is_shift e)) t = true ->
  shift_held (h ++ t) = shift_held h.
Proof.
  intros h t. unfold shift_held, latest. rewrite fold_left_app. generalize (fold_left
    (fun b e => match match e with ShiftDown => Some true | ShiftUp => Some false | _ => None end with
      | Some x => x | None => b end) h false).
  induction t; intros b H; cbn in *; auto. apply andb_true_iff in H. destruct H.
  destruct a; cbn in *; try discriminate; auto.
Qed.

(** The lock stays on until the next SHIFT event (or lock toggle). *)
Theorem C10_lock_persists : forall ops h mid, Forall vop_ok ops ->
  forallb (fun e => negb (is_shift e) && negb (is_toggle e)) mid = true ->
  ctrl_held (h ++ LockOn :: mid) = false ->
  map_after ops (h ++ LockOn :: mid) = Ok MOD_SHIFT.
Proof.
  intros. rewrite C09_modifier_precedence by auto. f_equal. unfold map_in_force. rewrite H1.
  replace (locked (h ++ LockOn :: mid)) with true; [rewrite orb_true_r; auto|].
  rewrite locked_app. cbn. symmetry. clear - H0. induction mid; auto. cbn in *.
  apply andb_true_iff in H0. destruct H0. destruct a; cbn in *; try discriminate; auto.
Qed.
Print Assumptions C10_lock_persists.

(** Any SHIFT event cancels the lock: after a release of SHIFT (and, through
    the press, any use of the key) the shift map is not in force until the next
    SHIFT or lock event. *)
Theorem C10_shift_cancels_lock : forall ops h e mid, Forall vop_ok ops ->
  is_shift e = true ->
  forallb (fun e => negb (is_shift e) && negb (is_lock e)) mid = true ->
  shift_held (h ++ e :: mid) = false ->
  map_after ops (h ++ e :: mid) <> Ok MOD_SHIFT.
Proof.
  intros. rewrite C09_modifier_precedence by auto. unfold map_in_force. rewrite H2.
  replace (locked (h ++ e :: mid)) with false.
  - destruct (ctrl_held (h ++ e :: mid)); [discriminate|]. cbn.
    destruct (caps_on (h ++ e :: mid)); discriminate.
  - rewrite locked_app. destruct e; try discriminate; cbn; symmetry;
      clear - H1; induction mid; auto; cbn in *; apply andb_true_iff in H1; destruct H1;
      destruct a; cbn in *; try discriminate; auto.
Qed.
Print Assumptions C10_shift_cancels_lock.

(** A press of SHIFT also cancels the lock: once it is released, with nothing
    lock-related in between, the shift map is off. *)
Theorem C10_press_release_unlocks : forall ops h mid1 mid2, Forall vop_ok ops ->
  forallb (fun e => negb (is_shift e) && negb (is_lock e)) mid2 = true ->
  map_after ops (h ++ ShiftDown :: mid1 ++ ShiftUp :: mid2) <> Ok MOD_SHIFT.
Proof.
  intros. replace (h ++ ShiftDown :: mid1 ++ ShiftUp :: mid2)
    with ((h ++ ShiftDown :: mid1) ++ ShiftUp :: mid2) by (rewrite <- app_assoc; auto).
  apply C10_shift_cancels_lock; auto.
  change (ShiftUp :: mid2) with ([ShiftUp] ++ mid2). rewrite app_assoc, held_app_noshift.
  - unfold shift_held, latest. rewrite fold_left_app. auto.
  - clear - H0. induction mid2; auto. cbn in *. apply andb_true_iff in H0. destruct H0.
    apply andb_true_iff in H. destruct H. rewrite H. auto.
Qed.
Print Assumptions C10_press_release_unlocks.

(** Two toggles with no SHIFT event and no lock-on between them cancel out. *)
Theorem C10_toggle_is_involution : forall ops h mid, Forall vop_ok ops ->
  forallb (fun e => negb (is_shift e) && negb (match e with LockOn => true | _ => false end)) mid = true ->
  exists m, after ops (h ++ LockToggle :: mid ++ [LockToggle]) = Ok m /\ after ops (h ++ mid) = Ok m.
Proof.
  intros. destruct (after_ok ops (h ++ LockToggle :: mid ++ [LockToggle]) H) as [m [E M]].
  destruct (after_ok ops (h ++ mid) H) as [m' [E' M']].
  exists m. split; auto. rewrite E'. f_equal.
  assert (L : forall f, f LockToggle = None ->
    latest f (h ++ LockToggle :: mid ++ [LockToggle]) = latest f (h ++ mid)).
  { intros f Hf. unfold latest. rewrite !fold_left_app. cbn [fold_left]. rewrite fold_left_app.
    cbn [fold_left]. rewrite Hf. auto. }
  assert (LK : locked (h ++ LockToggle :: mid ++ [LockToggle]) = locked (h ++ mid)).
  { rewrite !locked_app. generalize (locked h). intros b. unfold lock_fold. cbn [fold_left].
    rewrite fold_left_app. cbn [fold_left]. revert b. clear - H0. induction mid; intros b; cbn in *.
    - apply negb_involutive.
    - apply andb_true_iff in H0. destruct H0. specialize (IHmid H0).
      destruct a; cbn in *; try discriminate; auto. }
  assert (LC : caps_on (h ++ LockToggle :: mid ++ [LockToggle]) = caps_on (h ++ mid)).
  { unfold caps_on. rewrite !filter_app. cbn [filter]. rewrite filter_app. cbn [filter].
    rewrite app_nil_r. auto. }
  destruct M as (A1&A2&A3). destruct M' as (B1&B2&B3). unfold ctrl_held, shift_held in *.
  rewrite L in A1, A3 by reflexivity. rewrite LK in A3. rewrite LC in A2.
  destruct m, m'; cbn in *; congruence.
Qed.
Print Assumptions C10_toggle_is_involution.

Example C10_example :
  map (map_after [])
    [ [LockOn; CapsPress; CtrlDown; CtrlUp]; [LockOn; ShiftDown]; [LockOn; ShiftDown; ShiftUp];
      [LockToggle; CapsPress; LockToggle]; [ShiftDown; LockToggle; ShiftUp] ]
  = [ Ok MOD_SHIFT; Ok MOD_SHIFT; Ok MOD_PLAIN; Ok MOD_CAPS; Ok MOD_PLAIN ].
Proof. vm_compute. reflexivity. Qed.

(** ** C17: hooks *)

Fixpoint assigns (l : list (nat * hookfn)) (h : hooks) : outcome hooks :=
  match l with
  | [] => Ok h
  | (id, f) :: t => h1 <- hook_assign id f h ;; assigns t h1
  end.

(** Documented defaults; ids 1..15 are valid, every other id reads as the null
    function. *)
Definition default_hook (id : nat) : hookfn :=
  match id with 1 => HKeyscan | 2 => HReadRow | 3 => HSend | _ => HNull end.
Definition valid_id (id : nat) : bool := (1 <=? id) && (id <=? 15).

(** Latest assignment to [id]; newest last. *)
Definition expected_hook (l : list (nat * hookfn)) (id : nat) : hookfn :=
  if valid_id id then
    match find (fun p => fst p =? id) (rev l) with Some (_, f) => f | None => default_hook id end
  else HNull.

Lemma assigns_spec : forall l h, length h = 16 ->
  exists h', assigns l h = Ok h' /\ length h' = 16 /\
    forall id, valid_id id = true -> nth_error h' id =
      match find (fun p => fst p =? id) (rev l) with Some (_, f) => Some f | None => nth_error h id end.
Proof.
  induction l as [|[i f] l IH]; intros h HL.
  - exists h. auto.
  - cbn [assigns]. unfold hook_assign.
    replace (hook_valid_id i) with (valid_id i) by (unfold hook_valid_id, valid_id, HOOK_NULL, num_hooks; lia).
    assert (HF : forall id, find (fun p => fst p =? id) (rev l ++ [(i, f)]) =
       match find (fun p => fst p =? id) (rev l) with Some x => Some x
       | None => if i =? id then Some (i, f) else None end).
    { intros id. clear. induction (rev l) as [|a r IHr]; [auto|]. cbn. destruct (fst a =? id); auto. }
    destruct (valid_id i) eqn:EV.
    + rewrite lset_ok by (unfold valid_id in EV; lia). cbn [bind].
      destruct (IH (upd h i f)) as (h'&E&L&S); [rewrite upd_length; auto|].
      exists h'. split; [auto|]. split; [auto|]. intros id Hid. rewrite (S id Hid). cbn [rev]. rewrite HF.
      destruct (find (fun p => fst p =? id) (rev l)) as [[? ?]|]; auto.
      rewrite nth_error_upd. destruct (Nat.eqb_spec i id); cbn [andb]; auto.
      destruct (Nat.ltb_spec i (length h)); auto. unfold valid_id in EV; lia.
    + cbn [bind]. destruct (IH h HL) as (h'&E&L&S).
      exists h'. split; [auto|]. split; [auto|]. intros id Hid. rewrite (S id Hid). cbn [rev]. rewrite HF.
      destruct (find (fun p => fst p =? id) (rev l)) as [[? ?]|]; auto.
      destruct (Nat.eqb_spec i id); auto. subst. congruence.
Qed.

Theorem C17_last_assignment_wins : forall l,
  exists h, assigns l hook_init = Ok h /\ forall id, hook_get id h = Ok (expected_hook l id).
Proof.
  intros. destruct (assigns_spec l hook_init eq_refl) as (h'&E&L&S). exists h'. split; auto.
  intros id. unfold hook_get, expected_hook.
  replace (hook_valid_id id) with (valid_id id) by (unfold hook_valid_id, valid_id, HOOK_NULL, num_hooks; lia).
  destruct (valid_id id) eqn:EV; auto. unfold lget. rewrite (S id EV).
  destruct (find (fun p => fst p =? id) (rev l)) as [[? ?]|]; auto.
  assert (id < 16) by (unfold valid_id in EV; lia).
  do 16 (destruct id as [|id]; [reflexivity || discriminate|]). lia.
Qed.
Print Assumptions C17_last_assignment_wins.

Example C17_example :
  let l := [(7, HPrint [65%N]); (99, HPrint [66%N]); (0, HPrint [67%N]); (7, HPrint [68%N]); (3, HNull)] in
  map (expected_hook l) [7; 99; 0; 3; 2; 1; 5] =
  [HPrint [68%N]; HNull; HNull; HNull; HReadRow; HKeyscan; HNull].
Proof. reflexivity. Qed.
