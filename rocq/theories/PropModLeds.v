(** What the modifier functions do to the LEDs: C62. *)
From Coq Require Import List NArith Arith Bool Lia.
From Coq Require Import ZifyBool ZifyNat ZifyN.
From Verif Require Import Base Lib Devices DevSpec DevProofs Modifiers PropModifiers.
Import ListNotations.
Local Open Scope outcome_scope.

(** Event [e] after history [h]: any SHIFT or SHIFT LOCK event shows the lock on
    the devices of the SHIFT LED, a CAPS LOCK press shows CAPS LOCK on those of
    the CAPS LED, the CTRL key shows nothing. *)
Definition shows (s : vspec) (h : list mev) (e : mev) : list event :=
  match e with
  | ShiftDown | ShiftUp | LockOn | LockToggle => map (fun p => EvOut p (bN (locked (h ++ [e])))) (own s VSHIFT_LED)
  | CapsPress => map (fun p => EvOut p (bN (caps_on (h ++ [e])))) (own s VCAPS_LED)
  | CtrlDown | CtrlUp => []
  end.
Fixpoint shows_all (s : vspec) (h t : list mev) : list event :=
  match t with [] => [] | e :: t => shows s h e ++ shows_all s (h ++ [e]) t end.

(** ** Proof *)
Lemma drive_const : forall x l lv, snd (drive (fun _ => x) l lv) = map (fun p => EvOut p x) l.
Proof.
  induction l as [|p l IH]; intros lv; auto. cbn [drive map]. specialize (IH (set_at lv p x)).
  destruct (drive (fun _ : N => x) l (set_at lv p x)). cbn [snd] in *. rewrite IH. auto.
Qed.
Lemma set_shows : forall (b : bool) v s d, RD s d -> v < 12 ->
  exists d' s', virtual_action v (if b then V_SET_LO else V_SET_HI) d = Ok d' /\ RD s' d' /\ own s' = own s /\
    log d' = rev (map (fun p => EvOut p (bN (negb b))) (own s v)) ++ log d.
Proof.
  intros b v s d HR Hv. destruct (action_refines (if b then V_SET_LO else V_SET_HI) s d v HR Hv) as [d' (A&B&C)].
  exists d'. eexists. split; [exact A|]. split; [exact B|]. split; [reflexivity|]. rewrite C. do 2 f_equal.
  destruct b; apply drive_const.
Qed.

Lemma step_shows : forall e h m s d, mrep h m -> RD s d ->
  exists m' d' s', mev_step e (m, d) = Ok (m', d') /\ mrep (h ++ [e]) m' /\ RD s' d' /\ own s' = own s /\
    log d' = rev (shows s h e) ++ log d.
Proof.
  intros e h m s d HM HR. destruct (mev_step_ok e h m s d HM HR) as (m'&d'&s'&E&M&_).
  assert (X : exists s', RD s' d' /\ own s' = own s /\ log d' = rev (shows s h e) ++ log d).
  { assert (HS : forall new, set_shift_state new (m, d) = Ok (m', d') ->
        new = (bN (shift_held (h ++ [e])) + 2 * bN (locked (h ++ [e])))%N ->
        exists s', RD s' d' /\ own s' = own s /\ log d' = rev (map (fun p => EvOut p (bN (locked (h ++ [e])))) (own s VSHIFT_LED)) ++ log d).
    { intros new ES EN. unfold set_shift_state in ES.
      destruct (set_shows (N.land new SHIFT_LOCKED_ST =? 0)%N VSHIFT_LED s d HR) as (d1&s1&V&R1&O1&L1); [apply Nat.ltb_lt; reflexivity|].
      rewrite V in ES. cbn [bind] in ES. inv ES. exists s1. split; auto. split; auto. rewrite L1. do 3 f_equal.
      destruct (shift_held (h ++ [e])), (locked (h ++ [e])); reflexivity. }
    destruct M as (M1&M2&M3).
    destruct e; cbn [mev_step] in E; cbn [shows];
      try (unfold shift_activate, shift_deactivate, shiftlock_on_activate, shiftlock_toggle_activate in E;
           apply (HS _ E); rewrite <- M3; unfold set_shift_state in E;
           destruct (virtual_action _ _ _); [|discriminate]; cbn [bind] in E; inv E; reflexivity).
    - unfold capslock_activate, set_caps_state in E.
      destruct (set_shows (N.lxor (m_caps (fst (m, d))) CAPS_LOCKED_ST =? 0)%N VCAPS_LED s d HR) as (d1&s1&V&R1&O1&L1); [apply Nat.ltb_lt; reflexivity|].
      rewrite V in E. cbn [bind] in E. inv E. cbn [m_caps fst] in M2, L1. exists s1. split; auto. split; auto. rewrite L1, M2. do 3 f_equal.
      destruct (caps_on (h ++ [CapsPress])); reflexivity.
    - unfold ctrl_activate in E. inv E. exists s. auto.
    - unfold ctrl_deactivate in E. inv E. exists s. auto. }
  destruct X as (s1&R1&O1&L1). exists m', d', s1. auto.
Qed.
Lemma shows_own : forall s s' t h, own s' = own s -> shows_all s' h t = shows_all s h t.
Proof. intros s s' t. induction t as [|x t IH]; intros h O; auto. cbn [shows_all]. rewrite IH by exact O. f_equal. unfold shows. rewrite O. auto. Qed.
Lemma run_shows : forall t h m s d, mrep h m -> RD s d ->
  exists m' d', mev_run t (m, d) = Ok (m', d') /\ log d' = rev (shows_all s h t) ++ log d.
Proof.
  induction t as [|e t IH]; intros h m s d HM HR; [exists m, d; auto|].
  destruct (step_shows e h m s d HM HR) as (m1&d1&s1&E&M1&R1&O1&L1).
  destruct (IH _ _ _ _ M1 R1) as (m2&d2&E2&L2). exists m2, d2. cbn [mev_run]. rewrite E. cbn [bind]. split; auto.
  rewrite L2, L1. cbn [shows_all]. rewrite rev_app_distr, <- app_assoc. do 2 f_equal.
  apply shows_own; exact O1.
Qed.

(** Whatever devices are assigned by [ops] and whatever modifier events happen:
    the outputs driven, in order, are exactly those. *)
Theorem C62_modifier_leds : forall ops h, Forall vop_ok ops ->
  exists d m' d', vop_run ops (virtual_init devs_zero) = Ok d /\ mev_run h (mods_zero, d) = Ok (m', d') /\
    log d' = rev (shows_all (fst (vspec_run ops spec_zero)) [] h) ++ log d.
Proof.
  intros ops h HO. destruct (vrun_refines ops _ _ (RD_init devs_zero) HO) as [d (A&B&C)].
  assert (M0 : mrep [] mods_zero) by (repeat split).
  destruct (run_shows h [] mods_zero _ d M0 B) as (m'&d'&E&L). exists d, m', d'. auto.
Qed.
Print Assumptions C62_modifier_leds.

(** Hence a SHIFT LED shows the SHIFT LOCK, and a CAPS LED the CAPS LOCK, as soon
    as it has been driven at all. *)
Definition last_value (p : nat) (evs : list event) : option N :=
  fold_left (fun o e => match e with EvOut q v => if q =? p then Some v else o | _ => o end) evs None.
Definition touches_shift (e : mev) : bool := is_shift e || is_lock e.
Definition touches_caps (e : mev) : bool := match e with CapsPress => true | _ => false end.

Lemma last_app : forall p l1 l2, last_value p (l1 ++ l2) = match last_value p l2 with Some v => Some v | None => last_value p l1 end.
Proof.
  intros p l1 l2. unfold last_value. rewrite fold_left_app.
  assert (X : forall l o, fold_left (fun o e => match e with EvOut q v => if q =? p then Some v else o | _ => o end) l o =
    match fold_left (fun o e => match e with EvOut q v => if q =? p then Some v else o | _ => o end) l None with Some v => Some v | None => o end).
  { induction l as [|e l IH]; intros o; auto. cbn [fold_left]. rewrite IH. rewrite (IH (match e with EvOut q v => _ | _ => None end)).
    destruct (fold_left _ l None); auto. destruct e; auto. destruct (d =? p); auto. }
  apply X.
Qed.
Lemma last_map : forall p x l, last_value p (map (fun q => EvOut q x) l) = if existsb (Nat.eqb p) l then Some x else None.
Proof.
  induction l as [|q l IH]; auto. change (map (fun q => EvOut q x) (q :: l)) with ([EvOut q x] ++ map (fun q => EvOut q x) l).
  rewrite last_app, IH. cbn [existsb]. destruct (existsb (Nat.eqb p) l); [rewrite orb_true_r; auto|]. rewrite orb_false_r.
  unfold last_value. cbn. rewrite Nat.eqb_sym. reflexivity.
Qed.
Lemma shows_snoc : forall t s h e, shows_all s h (t ++ [e]) = shows_all s h t ++ shows s (h ++ t) e.
Proof.
  induction t as [|x t IH]; intros s h e; cbn [app shows_all]; [rewrite !app_nil_r; auto|].
  rewrite IH, <- !app_assoc. reflexivity.
Qed.

Theorem C62_led_shows_lock : forall s h p, 
  (existsb (Nat.eqb p) (own s VCAPS_LED) = false -> existsb (Nat.eqb p) (own s VSHIFT_LED) = true ->
   last_value p (shows_all s [] h) = if existsb touches_shift h then Some (bN (locked h)) else None) /\
  (existsb (Nat.eqb p) (own s VSHIFT_LED) = false -> existsb (Nat.eqb p) (own s VCAPS_LED) = true ->
   last_value p (shows_all s [] h) = if existsb touches_caps h then Some (bN (caps_on h)) else None) /\
  (existsb (Nat.eqb p) (own s VSHIFT_LED) = false -> existsb (Nat.eqb p) (own s VCAPS_LED) = false ->
   last_value p (shows_all s [] h) = None).
Proof.
  intros s h p. induction h as [|e h IH] using rev_ind; [auto|]. rewrite shows_snoc, last_app, !existsb_app. cbn [app existsb].
  destruct IH as (I1&I2&I3).
  assert (LK : touches_shift e = false -> locked (h ++ [e]) = locked h) by (unfold locked; rewrite fold_left_app; destruct e; cbn; auto; discriminate).
  assert (CP : touches_caps e = false -> caps_on (h ++ [e]) = caps_on h).
  { unfold caps_on. rewrite filter_app, app_length. destruct e; cbn; rewrite ?Nat.add_0_r; auto; discriminate. }
  repeat split; intros H1 H2.
  - specialize (I1 H1 H2). rewrite I1.
    destruct e; cbn [shows]; rewrite ?last_map, ?H1, ?H2; cbn [touches_shift is_shift is_lock orb]; rewrite ?orb_true_r, ?orb_false_r; auto;
      rewrite ?LK by reflexivity; auto.
  - specialize (I2 H1 H2). rewrite I2.
    destruct e; cbn [shows]; rewrite ?last_map, ?H1, ?H2; cbn [touches_caps]; rewrite ?orb_true_r, ?orb_false_r; auto;
      rewrite ?CP by reflexivity; auto.
  - specialize (I3 H1 H2). rewrite I3. destruct e; cbn [shows]; rewrite ?last_map, ?H1, ?H2; auto.
Qed.
Print Assumptions C62_led_shows_lock.

(** The Sol-20 wiring: CAPS LED on LED1, SHIFT LED on LED3. *)
Example C62_example :
  let ops := [VAssign VCAPS_LED LED1 V_NOFUNC 0; VAssign VSHIFT_LED LED3 V_NOFUNC 0] in
  let s := fst (vspec_run ops spec_zero) in
  Forall vop_ok ops /\
  shows_all s [] [LockToggle; CapsPress; CtrlDown; ShiftDown] = [EvOut LED3 1; EvOut LED1 1; EvOut LED3 0] /\
  existsb (Nat.eqb LED3) (own s VSHIFT_LED) = true /\ existsb (Nat.eqb LED3) (own s VCAPS_LED) = false.
Proof. cbn zeta. split; [repeat constructor|]. vm_compute. auto. Qed.
