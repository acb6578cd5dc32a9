(** Properties C11-C15: virtual and physical outputs. *)
From Coq Require Import List NArith Arith Bool Lia Permutation.
From Coq Require Import ZifyBool ZifyNat ZifyN.
From Verif Require Import Base Lib Devices DevSpec DevProofs.
Import ListNotations.

(** ** Vocabulary *)

(** The owner of a physical device according to the history of operations: the
    first assignment request that names it together with a valid virtual
    output.  (Virtual outputs 1..11, physical devices 1..12.) *)
Definition owner (ops : list vop) (p : nat) : option nat :=
  match find (fun o => match o with
                       | VAssign v q _ _ => is_virtual v && is_physical q && (q =? p)
                       | _ => false end) ops with
  | Some (VAssign v _ _ _) => Some v
  | _ => None
  end.

(** The device list of a virtual output as the firmware walks it. *)
Definition device_list (d : devs) (v : nat) (l : list nat) : Prop :=
  exists e, nth_error (vtab d) v = Some e /\ chain (ptab d) (v_phys e) l.

(** Recorded level of a device. *)
Definition recorded (d : devs) (p : nat) : option N := option_map p_shadow (nth_error (ptab d) p).

(** Value most recently driven onto a device ([log] has the newest event
    first). *)
Fixpoint last_driven (l : list event) (p : nat) : option N :=
  match l with
  | [] => None
  | EvOut q v :: t => if q =? p then Some v else last_driven t p
  | _ :: t => last_driven t p
  end.

(** Levels 0 and 1 only. *)
Definition binary_levels (o : vop) : Prop :=
  match o with VAssign _ _ _ i => i = 0%N \/ i = 1%N | _ => True end.

(** ** Lemmas about the specification *)

Lemma drive_nodup : forall g l lv, NoDup l ->
  snd (drive g l lv) = map (fun p => EvOut p (g (lv p))) l /\
  (forall p, fst (drive g l lv) p = if existsb (Nat.eqb p) l then g (lv p) else lv p).
Proof.
  induction l; intros lv ND; cbn [drive].
  - auto.
  - inv ND. destruct (IHl (set_at lv a (g (lv a))) H2) as [A B].
    destruct (drive g l (set_at lv a (g (lv a)))) as [lv2 ev]. cbn [fst snd] in *. split.
    + cbn. f_equal. rewrite A. apply map_ext_in. intros p Hp. f_equal. f_equal. unfold set_at.
      destruct (Nat.eqb_spec p a); auto. subst; tauto.
    + intros p. rewrite B. cbn [existsb]. unfold set_at.
      destruct (Nat.eqb_spec p a); cbn [orb]; auto. subst.
      replace (existsb (Nat.eqb a) l) with false; auto. symmetry.
      destruct (existsb (Nat.eqb a) l) eqn:E; auto. apply existsb_exists in E.
      destruct E as [x [Hx E]]. apply Nat.eqb_eq in E. subst; tauto.
Qed.

Lemma existsb_in : forall p l, existsb (Nat.eqb p) l = true <-> In p l.
Proof.
  intros. rewrite existsb_exists. split.
  - intros [x [H E]]. apply Nat.eqb_eq in E. subst; auto.
  - intros. exists p. split; auto. apply Nat.eqb_refl.
Qed.

Lemma own_run_app : forall ops o s,
  fst (vspec_run (ops ++ [o]) s) = fst (vspec_step o (fst (vspec_run ops s))).
Proof.
  induction ops; intros; cbn [app vspec_run].
  - cbn [fst]. destruct (vspec_step o s); auto.
  - destruct (vspec_step a s). specialize (IHops o v).
    destruct (vspec_run (ops ++ [o]) v), (vspec_run ops v). cbn [fst] in *. auto.
Qed.

Lemma step_own_other : forall o s, (forall v p f i, o <> VAssign v p f i) ->
  own (fst (vspec_step o s)) = own s.
Proof.
  intros. destruct o; cbn [vspec_step].
  - exfalso; eapply H; eauto.
  - destruct (spec_action f (own s v) (lev s)); auto.
  - destruct (spec_action (fn s v) (own s v) (lev s)); auto.
  - auto.
Qed.

Lemma owner_app : forall ops o p, owner (ops ++ [o]) p =
  match owner ops p with
  | Some v => Some v
  | None => match o with
            | VAssign v q _ _ => if is_virtual v && is_physical q && (q =? p) then Some v else None
            | _ => None end
  end.
Proof.
  intros. unfold owner. induction ops.
  - cbn. destruct o; auto. destruct (is_virtual v && is_physical p0 && (p0 =? p)); auto.
  - cbn [app find]. destruct a as [v q f i| | |]; auto.
    destruct (is_virtual v && is_physical q && (q =? p)); auto.
Qed.

Lemma owner_spec : forall ops v p, v < 12 ->
  In p (own (fst (vspec_run ops spec_zero)) v) <-> owner ops p = Some v.
Proof.
  intros ops. induction ops as [|o ops IH] using rev_ind; intros v p Hv.
  - cbn. split; [tauto|discriminate].
  - rewrite own_run_app, owner_app. set (s := fst (vspec_run ops spec_zero)) in *.
    destruct o as [v' q f i| | |].
    2-4: rewrite step_own_other by (intros; discriminate); rewrite IH by auto;
         destruct (owner ops p); split; congruence.
    cbn [vspec_step fst].
    destruct (is_virtual v' && is_physical q) eqn:EV; cbn [andb].
    2: { rewrite IH by auto. destruct (owner ops p); split; congruence. }
    assert (EO : forall x, is_free s x = true <-> owner ops x = None).
    { intros x. split.
      - intros HF. destruct (owner ops x) as [w|] eqn:EW; auto. exfalso.
        assert (w < 12).
        { unfold owner in EW. destruct (find _ ops) as [[v0 q0 f0 i0| | |]|] eqn:EF; inv EW.
          apply find_some in EF. destruct EF as [_ EF].
          unfold is_virtual in EF. lia. }
        apply IH in EW; auto. apply is_free_iff in HF. apply HF. unfold ownl. apply in_concat.
        exists (own s w). split; auto. apply in_map, in_seq. lia.
      - intros HN. apply is_free_iff. intros HI. unfold ownl in HI. apply in_concat in HI.
        destruct HI as [l [H1 H2]]. apply in_map_iff in H1. destruct H1 as [w [<- Hw]].
        apply in_seq in Hw. apply IH in H2; [congruence|lia]. }
    destruct (is_free s q) eqn:EF; cbn [andb].
    + cbn [own]. unfold set_at. destruct (Nat.eqb_spec v v').
      * subst v'. cbn [In]. rewrite IH by auto. destruct (Nat.eqb_spec q p).
        -- subst. rewrite (proj1 (EO p) EF). split; auto.
        -- destruct (owner ops p); split; intros H; try congruence; auto; destruct H; congruence.
      * rewrite IH by auto. destruct (Nat.eqb_spec q p).
        -- subst. rewrite (proj1 (EO p) EF). split; congruence.
        -- destruct (owner ops p); split; congruence.
    + rewrite IH by auto. destruct (Nat.eqb_spec q p).
      * subst. destruct (owner ops p) eqn:E; [split; congruence|]. exfalso.
        apply EO in E. congruence.
      * destruct (owner ops p); split; congruence.
Qed.

Lemma lev_binary : forall ops s, (forall p, lev s p = 0%N \/ lev s p = 1%N) ->
  Forall binary_levels ops -> forall p, lev (fst (vspec_run ops s)) p = 0%N \/ lev (fst (vspec_run ops s)) p = 1%N.
Proof.
  assert (HD : forall g l lv, (forall n, g n = 0%N \/ g n = 1%N) ->
     (forall p, lv p = 0%N \/ lv p = 1%N) -> forall p, fst (drive g l lv) p = 0%N \/ fst (drive g l lv) p = 1%N).
  { induction l; intros lv Hg HL p; cbn [drive]; auto.
    specialize (IHl (set_at lv a (g (lv a))) Hg).
    destruct (drive g l (set_at lv a (g (lv a)))). cbn [fst] in *. apply IHl.
    intros q. unfold set_at. destruct (q =? a); auto. }
  assert (HO : forall n, opposite n = 0%N \/ opposite n = 1%N).
  { intros. unfold opposite. destruct (n =? 0)%N; auto. }
  assert (HA : forall f l lv, (forall p, lv p = 0%N \/ lv p = 1%N) ->
     forall p, fst (spec_action f l lv) p = 0%N \/ fst (spec_action f l lv) p = 1%N).
  { intros f l lv HL. destruct f; cbn [spec_action]; auto.
    - destruct (drive opposite l lv) as [l1 e1] eqn:E1. destruct (drive opposite l l1) as [l2 e2] eqn:E2.
      cbn [fst]. change l2 with (fst (l2, e2)). rewrite <- E2. apply HD; auto.
      change l1 with (fst (l1, e1)). rewrite <- E1. apply HD; auto.
    - destruct (drive opposite l lv) as [l1 e1] eqn:E1. destruct (drive opposite l l1) as [l2 e2] eqn:E2.
      cbn [fst]. change l2 with (fst (l2, e2)). rewrite <- E2. apply HD; auto.
      change l1 with (fst (l1, e1)). rewrite <- E1. apply HD; auto. }
  induction ops; intros s HS HB; cbn [vspec_run]; auto. inv HB.
  assert (forall p, lev (fst (vspec_step a s)) p = 0%N \/ lev (fst (vspec_step a s)) p = 1%N).
  { intros p. destruct a; cbn [vspec_step].
    - cbn. destruct (_ && _); auto. cbn. unfold set_at. destruct (p =? p0); auto.
    - specialize (HA f (own s v) _ HS p). destruct (spec_action f (own s v) (lev s)); auto.
    - specialize (HA (fn s v) (own s v) _ HS p). destruct (spec_action (fn s v) (own s v) (lev s)); auto.
    - auto. }
  destruct (vspec_step a s) as [s1 e1]. cbn [fst] in *. specialize (IHops s1 H H2).
  destruct (vspec_run ops s1). auto.
Qed.

Lemma recorded_lev : forall s d p, RD s d -> p < 13 -> recorded d p = Some (lev s p).
Proof.
  intros. unfold recorded. destruct (nth_error_ex _ (ptab d) p) as [q Hq].
  { rewrite (rd_plen _ _ H); auto. }
  rewrite Hq. cbn. f_equal. apply (rd_lev _ _ H); auto.
Qed.

(** ** C11 *)

(** Whatever is requested, each virtual output's list is acyclic and complete
    (it is walked to its end and has no repetitions) and contains exactly the
    devices the history assigns to it; so each device is in at most one list,
    and a request takes effect iff both identifiers are valid and no earlier
    valid request named the device. *)
Theorem C11_ownership_follows_first_valid_request : forall d0 ops,
  Forall vop_ok ops ->
  exists d, vop_run ops (virtual_init d0) = Ok d /\
    forall v, v < 12 -> exists l, device_list d v l /\ NoDup l /\
      (forall p, In p l <-> owner ops p = Some v).
Proof.
  intros. destruct (vrun_refines ops _ _ (RD_init d0) H) as [d (A&B&C)]. exists d. split; auto.
  intros v Hv. destruct (rd_virt _ _ B v Hv) as [e (E1&E2&E3)].
  exists (own (fst (vspec_run ops spec_zero)) v). split; [exists e; auto|]. split.
  - eapply own_facts; eauto.
  - intros. apply owner_spec; auto.
Qed.
Print Assumptions C11_ownership_follows_first_valid_request.

(** Consequence: no device is in two lists. *)
Theorem C11_at_most_one_owner : forall d0 ops d v w lv lw p,
  Forall vop_ok ops -> vop_run ops (virtual_init d0) = Ok d ->
  v < 12 -> w < 12 -> device_list d v lv -> device_list d w lw -> In p lv -> In p lw -> v = w.
Proof.
  assert (HU : forall pt l1 l2 s, chain pt s l1 -> chain pt s l2 -> l1 = l2).
  { induction l1; destruct l2; cbn; intros s H1 H2; auto.
    - destruct H2 as (?&?&_). congruence.
    - destruct H1 as (?&?&_). congruence.
    - destruct H1 as (->&_&p&P1&C1). destruct H2 as (->&_&q&Q1&C2). f_equal.
      rewrite P1 in Q1. inv Q1. eauto. }
  intros. destruct (vrun_refines ops _ _ (RD_init d0) H) as [d' (A&B&C)].
  assert (d' = d) by congruence. subst d'.
  destruct H3 as [e1 [E1 L1]]. destruct H4 as [e2 [E2 L2]].
  destruct (rd_virt _ _ B v H1) as [e1' (F1&G1&_)]. destruct (rd_virt _ _ B w H2) as [e2' (F2&G2&_)].
  rewrite E1 in F1. inv F1. rewrite E2 in F2. inv F2.
  rewrite (HU _ _ _ _ L1 G1) in H5. rewrite (HU _ _ _ _ L2 G2) in H6.
  eapply own_unique; eauto.
Qed.
Print Assumptions C11_at_most_one_owner.

(** Requests: valid, conflicting, invalid virtual, invalid physical, second
    device for the same output. *)
Definition sample_ops : list vop :=
  [VAssign 7 10 V_NOFUNC 1; VAssign 8 10 V_TOGGLE 0; VAssign 12 4 V_TOGGLE 0;
   VAssign 3 13 V_TOGGLE 0; VAssign 3 0 V_TOGGLE 1; VAssign 0 5 V_TOGGLE 1;
   VAssign 7 12 V_TOGGLE 0; VAction 7 V_SET_HI; VActivate 7; VSync].

Example C11_example :
  Forall vop_ok sample_ops /\
  map (owner sample_ops) [10; 12; 4; 13; 0; 5] = [Some 7; Some 7; None; None; None; None] /\
  exists d, vop_run sample_ops (virtual_init devs_zero) = Ok d /\ device_list d 7 [12; 10] /\
            device_list d 8 [].
Proof.
  split; [repeat constructor|]. split; [vm_compute; auto|].
  eexists. split; [vm_compute; reflexivity|]. split.
  - eexists. split; [reflexivity|]. cbn. repeat split; try lia.
    eexists; repeat split; try lia. eexists; repeat split; auto.
  - eexists. split; reflexivity.
Qed.

(** ** C12 *)
Theorem C12_no_divergence_no_bad_index : forall d0 ops u,
  Forall vop_ok ops -> vop_run ops (virtual_init d0) <> Bad u.
Proof.
  intros. destruct (vrun_refines ops _ _ (RD_init d0) H) as [d (A&B&C)]. rewrite A. discriminate.
Qed.
Print Assumptions C12_no_divergence_no_bad_index.

Example C12_example : Forall vop_ok sample_ops /\ length sample_ops = 10.
Proof. split; [repeat constructor|reflexivity]. Qed.

(** ** C13 *)
Definition drives (v : nat) (f : vfun) (d : devs) (evs : list event) : Prop :=
  exists d1, virtual_action v f d = Ok d1 /\ log d1 = rev evs ++ log d.

(** After any history, set-high / set-low / toggle drive each device owned by
    the output exactly once, with 1 / 0 / the opposite of its recorded level,
    and nothing else. *)
Theorem C13_action_drives_exactly_its_devices : forall d0 ops v,
  Forall vop_ok ops -> v < 12 ->
  exists d l lvl, vop_run ops (virtual_init d0) = Ok d /\
    NoDup l /\ (forall p, In p l <-> owner ops p = Some v) /\
    (forall p, In p l -> recorded d p = Some (lvl p)) /\
    drives v V_SET_HI d (map (fun p => EvOut p 1) l) /\
    drives v V_SET_LO d (map (fun p => EvOut p 0) l) /\
    drives v V_TOGGLE d (map (fun p => EvOut p (if (lvl p =? 0)%N then 1 else 0)%N) l) /\
    drives v V_NOFUNC d [].
Proof.
  intros. destruct (vrun_refines ops _ _ (RD_init d0) H) as [d (A&B&C)].
  set (s := fst (vspec_run ops spec_zero)) in *.
  pose proof (own_facts _ _ _ B H0) as (ND&FA&LN).
  exists d, (own s v), (lev s). split; [auto|]. split; [auto|]. split.
  { intros. apply owner_spec; auto. }
  split.
  { intros p Hp. apply recorded_lev; auto. rewrite Forall_forall in FA. specialize (FA p Hp). lia. }
  assert (HH : forall f, drives v f d (snd (spec_action f (own s v) (lev s)))).
  { intros f. destruct (action_refines f s d v B H0) as [d1 (X&Y&Z)]. exists d1; auto. }
  pose proof (HH V_SET_HI) as H1. pose proof (HH V_SET_LO) as H2. pose proof (HH V_TOGGLE) as H3.
  pose proof (HH V_NOFUNC) as H4. cbn [spec_action] in *.
  rewrite (proj1 (drive_nodup _ _ _ ND)) in H1. rewrite (proj1 (drive_nodup _ _ _ ND)) in H2.
  rewrite (proj1 (drive_nodup _ _ _ ND)) in H3. auto.
Qed.
Print Assumptions C13_action_drives_exactly_its_devices.

(** Activation applies the function of the latest accepted assignment to the
    output ([a] accepted, none accepted in [b]). *)
Definition accepted (before : list vop) (v p : nat) : Prop :=
  is_virtual v = true /\ is_physical p = true /\ owner before p = None.

Lemma accepted_free : forall ops p, is_free (fst (vspec_run ops spec_zero)) p = true <-> owner ops p = None.
Proof.
  intros ops p. rewrite is_free_iff. unfold ownl. split.
  - intros HF. destruct (owner ops p) as [w|] eqn:EW; auto. exfalso. apply HF.
    assert (w < 12).
    { unfold owner in EW. destruct (find _ ops) as [[v0 q0 f0 i0| | |]|] eqn:EF; inv EW.
      apply find_some in EF. destruct EF as [_ EF]. unfold is_virtual in EF. lia. }
    apply owner_spec in EW; auto. apply in_concat. eexists. split; [|exact EW].
    apply in_map, in_seq. lia.
  - intros HN HI. apply in_concat in HI. destruct HI as [l [H1 H2]]. apply in_map_iff in H1.
    destruct H1 as [w [<- Hw]]. apply in_seq in Hw. apply owner_spec in H2; [congruence|lia].
Qed.

Theorem C13_activate_uses_latest_function : forall d0 a v p f i b d,
  let ops := a ++ VAssign v p f i :: b in
  Forall vop_ok ops -> accepted a v p ->
  (forall b1 q g j b2, b = b1 ++ VAssign v q g j :: b2 ->
     ~ accepted (a ++ VAssign v p f i :: b1) v q) ->
  vop_run ops (virtual_init d0) = Ok d ->
  virtual_activate v d = virtual_action v f d.
Proof.
  intros d0 a v p f i b d ops HO HA HB HR.
  destruct (vrun_refines ops _ _ (RD_init d0) HO) as [d' (A&B&C)].
  assert (d' = d) by congruence. subst d'.
  assert (Hv : v < 12) by (destruct HA as [H _]; unfold is_virtual in H; lia).
  destruct (rd_virt _ _ B v Hv) as [e (E1&E2&E3)].
  unfold virtual_activate. rewrite (proj2 (lget_ok _ _ _ _ _) E1). cbn [bind]. rewrite E3.
  f_equal. clear - HA HB. subst ops. induction b as [|o b IH] using rev_ind.
  - rewrite own_run_app. cbn [vspec_step fst]. destruct HA as (V&P&O).
    rewrite V, P, (proj2 (accepted_free a p) O). cbn. unfold set_at. rewrite Nat.eqb_refl. auto.
  - replace (a ++ VAssign v p f i :: b ++ [o]) with ((a ++ VAssign v p f i :: b) ++ [o])
      by (rewrite <- app_assoc; auto).
    rewrite own_run_app.
    assert (IH' : fn (fst (vspec_run (a ++ VAssign v p f i :: b) spec_zero)) v = f).
    { apply IH. intros. subst b. apply (HB b1 q g j (b2 ++ [o])). rewrite <- app_assoc. auto. }
    set (s := fst (vspec_run (a ++ VAssign v p f i :: b) spec_zero)) in *.
    destruct o as [w q g j|w g|w|]; cbn [vspec_step fst].
    + destruct (is_virtual w && is_physical q && is_free s q) eqn:EA; auto.
      apply andb_true_iff in EA. destruct EA as [EA EF]. apply andb_true_iff in EA.
      destruct EA as [EV EP]. cbn. unfold set_at. destruct (Nat.eqb_spec v w); auto. subst w.
      exfalso. apply (HB b q g j []); auto. split; [auto|]. split; [auto|].
      apply accepted_free. auto.
    + destruct (spec_action g (own s w) (lev s)); auto.
    + destruct (spec_action (fn s w) (own s w) (lev s)); auto.
    + auto.
Qed.
Print Assumptions C13_activate_uses_latest_function.

Example C13_activate_example : accepted (firstn 6 sample_ops) 7 12.
Proof. repeat split. Qed.

(** Newest [n] log entries after [ops] and one action. *)
Definition newest (n : nat) (ops : list vop) (v : nat) (f : vfun) : list event :=
  match vop_run (ops ++ [VAction v f]) (virtual_init devs_zero) with
  | Ok d => firstn n (log d) | Bad _ => [] end.

Example C13_example : newest 2 sample_ops 7 V_SET_HI = [EvOut 10 1; EvOut 12 1].
Proof. vm_compute. reflexivity. Qed.

(** ** C14 *)
Theorem C14_pulse_restores_levels : forall d0 ops v,
  Forall vop_ok ops -> Forall binary_levels ops -> v < 12 ->
  exists d l lvl, vop_run ops (virtual_init d0) = Ok d /\
    NoDup l /\ (forall p, In p l <-> owner ops p = Some v) /\
    (forall p, In p l -> recorded d p = Some (lvl p) /\ (lvl p < 2)%N) /\
    forall f delay, f = V_PULSE_SHORT /\ delay = EvPulseShort \/ f = V_PULSE_LONG /\ delay = EvPulseLong ->
    exists d1, virtual_action v f d = Ok d1 /\
      log d1 = rev (map (fun p => EvOut p (1 - lvl p)%N) l ++ delay :: map (fun p => EvOut p (lvl p)) l)
               ++ log d /\
      (forall p, recorded d1 p = recorded d p).
Proof.
  intros d0 ops v H HB H0. destruct (vrun_refines ops _ _ (RD_init d0) H) as [d (A&B&C)].
  pose proof (lev_binary ops spec_zero (fun _ => or_intror eq_refl) HB) as LB.
  set (s := fst (vspec_run ops spec_zero)) in *.
  pose proof (own_facts _ _ _ B H0) as (ND&FA&LN).
  exists d, (own s v), (lev s). split; [auto|]. split; [auto|]. split.
  { intros. apply owner_spec; auto. }
  split.
  { intros p Hp. split.
    - apply recorded_lev; auto. rewrite Forall_forall in FA. specialize (FA p Hp). lia.
    - destruct (LB p); lia. }
  assert (HO : forall p, opposite (lev s p) = (1 - lev s p)%N).
  { intros p. destruct (LB p) as [-> | ->]; auto. }
  assert (HOO : forall p, opposite (opposite (lev s p)) = lev s p).
  { intros p. destruct (LB p) as [-> | ->]; auto. }
  intros f delay Hf.
  destruct (action_refines f s d v B H0) as [d1 (X&Y&Z)]. exists d1. split; auto.
  destruct (drive_nodup opposite (own s v) (lev s) ND) as [D1 D2].
  assert (spec_action f (own s v) (lev s) =
     (fst (drive opposite (own s v) (fst (drive opposite (own s v) (lev s)))),
      snd (drive opposite (own s v) (lev s)) ++
      delay :: snd (drive opposite (own s v) (fst (drive opposite (own s v) (lev s)))))) as E.
  { destruct Hf as [[-> ->]|[-> ->]]; cbn [spec_action];
    destruct (drive opposite (own s v) (lev s)) as [l1 e1]; cbn [fst snd];
    destruct (drive opposite (own s v) l1); auto. }
  destruct (drive opposite (own s v) (lev s)) as [l1 e1]. cbn [fst snd] in *.
  destruct (drive_nodup opposite (own s v) l1 ND) as [D3 D4].
  rewrite E in Z, Y. cbn [fst snd] in Z, Y. split.
  - rewrite Z, D3, D1. f_equal. f_equal. f_equal.
    + apply map_ext. intros. rewrite HO; auto.
    + f_equal. apply map_ext_in. intros p Hp. rewrite D2.
      rewrite (proj2 (existsb_in p (own s v)) Hp), HOO. auto.
  - intros p. destruct (Nat.lt_ge_cases p 13).
    + rewrite (recorded_lev _ _ p Y H1), (recorded_lev _ _ p B H1). f_equal. cbn [lev].
      rewrite D4, D2. destruct (existsb (Nat.eqb p) (own s v)); auto.
    + unfold recorded. rewrite (proj2 (nth_error_None (ptab d1) p)), (proj2 (nth_error_None (ptab d) p)); auto.
      * rewrite (rd_plen _ _ B); auto.
      * rewrite (rd_plen _ _ Y); auto.
Qed.
Print Assumptions C14_pulse_restores_levels.

Example C14_example :
  Forall binary_levels sample_ops /\
  newest 5 sample_ops 7 V_PULSE_LONG = [EvOut 10 0; EvOut 12 0; EvPulseLong; EvOut 10 1; EvOut 12 1].
Proof. split; [repeat apply Forall_cons; cbn; auto | vm_compute; reflexivity]. Qed.

(** ** C15 *)
Definition is_assign (o : vop) : Prop := match o with VAssign _ _ _ _ => True | _ => False end.

Lemma last_driven_app : forall l1 l2 p,
  last_driven (l1 ++ l2) p = match last_driven l1 p with Some v => Some v | None => last_driven l2 p end.
Proof.
  induction l1; intros; auto. cbn [app last_driven]. destruct a; auto.
  destruct (d =? p); auto.
Qed.

Lemma drive_last : forall g l lv p,
  match last_driven (rev (snd (drive g l lv))) p with
  | Some v => v = fst (drive g l lv) p
  | None => fst (drive g l lv) p = lv p
  end.
Proof.
  induction l; intros lv p; cbn [drive]; [reflexivity|].
  specialize (IHl (set_at lv a (g (lv a))) p).
  destruct (drive g l (set_at lv a (g (lv a)))) as [l2 e2]. cbn [fst snd rev] in *.
  rewrite last_driven_app. destruct (last_driven (rev e2) p); auto.
  cbn [last_driven]. rewrite IHl. unfold set_at. rewrite (Nat.eqb_sym p a).
  destruct (a =? p); auto.
Qed.

Lemma action_last : forall f l lv p,
  match last_driven (rev (snd (spec_action f l lv))) p with
  | Some v => v = fst (spec_action f l lv) p
  | None => fst (spec_action f l lv) p = lv p
  end.
Proof.
  assert (HP : forall e l lv p, (forall d v, e <> EvOut d v) ->
    match last_driven (rev (snd (drive opposite l lv) ++
       e :: snd (drive opposite l (fst (drive opposite l lv))))) p with
    | Some v => v = fst (drive opposite l (fst (drive opposite l lv))) p
    | None => fst (drive opposite l (fst (drive opposite l lv))) p = lv p
    end).
  { intros e l lv p He. pose proof (drive_last opposite l lv p) as H1.
    pose proof (drive_last opposite l (fst (drive opposite l lv)) p) as H2.
    rewrite rev_app_distr. cbn [rev]. rewrite !last_driven_app.
    destruct (last_driven (rev (snd (drive opposite l (fst (drive opposite l lv))))) p); auto.
    replace (last_driven [e] p) with (@None N) by (destruct e; auto; exfalso; eapply He; eauto).
    destruct (last_driven (rev (snd (drive opposite l lv))) p); congruence. }
  intros f l lv p. destruct f; cbn [spec_action].
  - reflexivity.
  - apply drive_last.
  - apply drive_last.
  - specialize (HP EvPulseShort l lv p). destruct (drive opposite l lv). cbn [fst snd] in *.
    destruct (drive opposite l n). apply HP; intros; discriminate.
  - specialize (HP EvPulseLong l lv p). destruct (drive opposite l lv). cbn [fst snd] in *.
    destruct (drive opposite l n). apply HP; intros; discriminate.
  - apply drive_last.
Qed.

Lemma sync_last : forall (lv : nat -> N) l p, In p l ->
  last_driven (rev (map (fun q => EvOut q (lv q)) l)) p = Some (lv p).
Proof.
  induction l; intros p HI; [destruct HI|]. cbn [map rev]. rewrite last_driven_app.
  destruct (in_dec Nat.eq_dec p l).
  - rewrite IHl; auto.
  - destruct HI as [->|HI]; [|tauto]. cbn. rewrite Nat.eqb_refl.
    replace (last_driven (rev (map (fun q => EvOut q (lv q)) l)) p) with (@None N); auto.
    symmetry. assert (forall x, In x (rev (map (fun q => EvOut q (lv q)) l)) -> exists q v, x = EvOut q v /\ q <> p).
    { intros x Hx. apply in_rev in Hx. apply in_map_iff in Hx. destruct Hx as [q [<- Hq]].
      exists q, (lv q). split; auto. intros ->; tauto. }
    clear IHl. induction (rev (map (fun q => EvOut q (lv q)) l)); auto.
    destruct (H a) as (q&v&->&Hne); [left; auto|]. cbn.
    destruct (Nat.eqb_spec q p); [tauto|]. apply IHl0. intros; apply H; right; auto.
Qed.

Lemma driven_step : forall o s lg p, ~ is_assign o -> p < 13 ->
  last_driven lg p = Some (lev s p) ->
  last_driven (rev (snd (vspec_step o s)) ++ lg) p = Some (lev (fst (vspec_step o s)) p).
Proof.
  intros o s lg p HA Hp HL. rewrite last_driven_app. destruct o; cbn [vspec_step].
  - exfalso. apply HA; exact I.
  - pose proof (action_last f (own s v) (lev s) p) as H.
    destruct (spec_action f (own s v) (lev s)) as [l2 e2]. cbn [fst snd lev] in *.
    destruct (last_driven (rev e2) p); congruence.
  - pose proof (action_last (fn s v) (own s v) (lev s) p) as H.
    destruct (spec_action (fn s v) (own s v) (lev s)) as [l2 e2]. cbn [fst snd lev] in *.
    destruct (last_driven (rev e2) p); congruence.
  - cbn [fst snd]. rewrite sync_last; auto. apply in_seq. lia.
Qed.

Lemma driven_run : forall ops s lg p, Forall (fun o => ~ is_assign o) ops -> p < 13 ->
  last_driven lg p = Some (lev s p) ->
  last_driven (rev (snd (vspec_run ops s)) ++ lg) p = Some (lev (fst (vspec_run ops s)) p).
Proof.
  induction ops; intros s lg p HA Hp HL; auto. inv HA. cbn [vspec_run].
  pose proof (driven_step a s lg p H1 Hp HL) as H.
  destruct (vspec_step a s) as [s1 e1]. cbn [fst snd] in *.
  specialize (IHops s1 _ p H2 Hp H). destruct (vspec_run ops s1) as [s2 e2]. cbn [fst snd] in *.
  rewrite rev_app_distr, <- app_assoc. auto.
Qed.

Lemma vspec_run_app : forall a b s,
  vspec_run (a ++ b) s =
  (fst (vspec_run b (fst (vspec_run a s))),
   snd (vspec_run a s) ++ snd (vspec_run b (fst (vspec_run a s)))).
Proof.
  induction a; intros; cbn [app vspec_run].
  - cbn. destruct (vspec_run b s); auto.
  - destruct (vspec_step a s) as [s1 e1]. rewrite IHa. destruct (vspec_run a0 s1). cbn [fst snd].
    rewrite app_assoc. auto.
Qed.

(** Whatever happened before, after a synchronisation the recorded level of
    every device is the value most recently driven onto it, and this stays so
    under any set / toggle / pulse / activate / synchronise operations. *)
Theorem C15_recorded_level_is_last_driven : forall d0 ops1 ops2,
  Forall vop_ok ops1 -> Forall vop_ok ops2 -> Forall (fun o => ~ is_assign o) ops2 ->
  exists d, vop_run (ops1 ++ VSync :: ops2) (virtual_init d0) = Ok d /\
    forall p, p < 13 -> exists v, recorded d p = Some v /\ last_driven (log d) p = Some v.
Proof.
  intros. destruct (vrun_refines (ops1 ++ VSync :: ops2) _ _ (RD_init d0)) as [d (A&B&C)].
  { apply Forall_app; split; auto. constructor; auto. exact I. }
  exists d. split; auto. intros p Hp. rewrite (recorded_lev _ _ p B Hp).
  eexists. split; [reflexivity|]. rewrite C.
  change (ops1 ++ VSync :: ops2) with (ops1 ++ [VSync] ++ ops2).
  rewrite (vspec_run_app ops1). cbn [fst snd].
  set (s := fst (vspec_run ops1 spec_zero)). rewrite rev_app_distr, <- app_assoc.
  rewrite vspec_run_app. cbn [vspec_run vspec_step fst snd].
  rewrite !app_nil_r. rewrite rev_app_distr, <- app_assoc. apply driven_run; auto.
  rewrite last_driven_app, sync_last; auto. apply in_seq; lia.
Qed.
Print Assumptions C15_recorded_level_is_last_driven.

(** The restriction to non-assignments is needed: an assignment records the
    initial level without driving it. *)
Theorem C15_assignment_without_sync_refuted : exists ops d p v w,
  vop_run (VSync :: ops) (virtual_init devs_zero) = Ok d /\
  recorded d p = Some v /\ last_driven (log d) p = Some w /\ v <> w.
Proof.
  exists [VAssign 7 10 V_NOFUNC 0]. do 4 eexists.
  split; [vm_compute; reflexivity|]. split; [instantiate (2 := 10); reflexivity|].
  split; [reflexivity|]. discriminate.
Qed.
Print Assumptions C15_assignment_without_sync_refuted.

Example C15_example :
  let ops2 := [VAction 7 V_TOGGLE; VAction 7 V_PULSE_SHORT; VActivate 7] in
  Forall vop_ok ops2 /\ Forall (fun o => ~ is_assign o) ops2 /\
  match vop_run (sample_ops ++ VSync :: ops2) (virtual_init devs_zero) with
  | Ok d => recorded d 10 = Some 0%N /\ last_driven (log d) 10 = Some 0%N
  | Bad _ => False
  end.
Proof.
  cbv zeta. split; [repeat constructor; cbn; lia|].
  split; [repeat (apply Forall_cons; [cbn; tauto|]); apply Forall_nil | vm_compute; auto].
Qed.
