(** All functions of the device modules, in any order (C136). *)
From Coq Require Import List NArith Arith Bool Lia Permutation.
From Coq Require Import ZifyBool ZifyNat ZifyN.
From Verif Require Import Base Lib Devices DevSpec DevProofs.
Import ListNotations.
Local Open Scope outcome_scope.

(** ** The calls *)
(** asdf_virtual.h 74-107 ([XV], [XInit]) and asdf_physical.h 58-126. *)
Inductive xop :=
| XV (o : vop) | XInit
| XSet (p : nat) (v : N) | XOn (p : nat) | XOff (p : nat) | XAssert (p : nat) | XToggle (p : nat)
| XAllocate (p tail : nat) (init : N) | XAvailable (p : nat) | XNext (p : nat).
Definition mum (x : outcome devs) : outcome (option nat * devs) := d <- x ;; Ok (None, d).
Definition xop_step (o : xop) (d : devs) : outcome (option nat * devs) :=
  match o with
  | XV o => mum (vop_step o d)
  | XInit => mum (Ok (virtual_init d))
  | XSet p v => mum (physical_set p v d)
  | XOn p => mum (physical_on p d)
  | XOff p => mum (physical_off p d)
  | XAssert p => mum (physical_assert p d)
  | XToggle p => mum (physical_toggle p d)
  | XAllocate p t i => '(b, d1) <- physical_allocate p t i d ;; Ok (Some (if (b : bool) then 1 else 0), d1)
  | XAvailable p => n <- device_is_available p d ;; Ok (Some n, d)
  | XNext p => n <- next_device p d ;; Ok (Some n, d)
  end.
Fixpoint xop_run (ops : list xop) (d : devs) : outcome (list (option nat) * devs) :=
  match ops with
  | [] => Ok ([], d)
  | o :: t => '(a, d1) <- xop_step o d ;; '(l, d2) <- xop_run t d1 ;; Ok (a :: l, d2)
  end.
(** Arguments of enumeration type. *)
Definition xop_ok (o : xop) : Prop :=
  match o with
  | XV o => vop_ok o
  | XSet p _ | XOn p | XOff p | XAssert p | XToggle p | XNext p => p < 13
  | _ => True
  end.

(** ** Specification *)
(** [xv]: owners, functions and levels (as in C11-C15); [tk]: the devices taken
    by asdf_physical_allocate, each with the number it was given. *)
Record xspec := mkX { xv : vspec; tk : list (nat * nat) }.
Definition x_free (s : xspec) (p : nat) : bool :=
  is_physical p && is_free (xv s) p && negb (existsb (fun t => fst t =? p) (tk s)).
Definition put_level (s : xspec) (p : nat) (v : N) : xspec :=
  mkX (mkVspec (own (xv s)) (fn (xv s)) (set_at (lev (xv s)) p v)) (tk s).
(** What follows [p] in a list; nothing is said about devices not in it. *)
Fixpoint follows (p : nat) (l : list nat) : option nat :=
  match l with
  | [] => None
  | x :: t => if x =? p then Some (hd 0 t) else follows p t
  end.
Definition silent : option nat -> Prop := fun a => a = None.
(** New state, values driven, and what is said of the answer. *)
Definition x_step (o : xop) (s : xspec) : xspec * list event * (option nat -> Prop) :=
  match o with
  | XV (VAssign v p f i) =>
      (if is_virtual v && x_free s p
       then mkX (mkVspec (set_at (own (xv s)) v (p :: own (xv s) v)) (set_at (fn (xv s)) v f) (set_at (lev (xv s)) p i)) (tk s)
       else s, [], silent)
  | XV o => let '(v, ev) := vspec_step o (xv s) in (mkX v (tk s), ev, silent)
  | XInit => (mkX spec_zero [], [], silent)
  | XSet p v => (put_level s p v, [EvOut p v], silent)
  | XOn p => (put_level s p 1, [EvOut p 1%N], silent)
  | XOff p => (put_level s p 0, [EvOut p 0%N], silent)
  | XAssert p => (s, [EvOut p (lev (xv s) p)], silent)
  | XToggle p => let v := opposite (lev (xv s) p) in (put_level s p v, [EvOut p v], silent)
  | XAllocate p t i =>
      (if x_free s p then mkX (xv (put_level s p i)) ((p, t) :: tk s) else s, [],
       fun a => a = Some (if x_free s p then 1 else 0))
  | XAvailable p => (s, [], fun a => exists n, a = Some n /\ n <= 13 /\ (n = 13 <-> x_free s p = false))
  | XNext p => (s, [], fun a => exists n, a = Some n /\
      (forall v m, v < 12 -> follows p (own (xv s) v) = Some m -> n = m) /\ (forall t, In (p, t) (tk s) -> n = t))
  end.
Fixpoint x_run (ops : list xop) (s : xspec) : xspec * list event * list (option nat -> Prop) :=
  match ops with
  | [] => (s, [], [])
  | o :: t => let '(s1, e1, p) := x_step o s in let '(s2, e2, ps) := x_run t s1 in (s2, e1 ++ e2, p :: ps)
  end.

(** ** Proofs *)
Record RX (s : xspec) (d : devs) : Prop := {
  rx_plen : length (ptab d) = 13;
  rx_vlen : length (vtab d) = 12;
  rx_free : exists fl p0, nth_error (ptab d) 0 = Some p0 /\ chain (ptab d) (p_next p0) fl /\
              Permutation (fl ++ map fst (tk s) ++ ownl (xv s)) (seq 1 12);
  rx_virt : forall v, v < 12 -> exists e, nth_error (vtab d) v = Some e /\
              chain (ptab d) (v_phys e) (own (xv s) v) /\ v_fn e = fn (xv s) v;
  rx_lev : levels_ok d (lev (xv s));
  rx_tk : forall p t, In (p, t) (tk s) -> exists q, nth_error (ptab d) p = Some q /\ p_next q = t }.

Lemma RX_init : forall d, RX (mkX spec_zero []) (virtual_init d).
Proof.
  intros d. destruct (RD_init d) as [A1 A2 A3 A4 A5]. constructor; auto. intros p t [].
Qed.
Lemma in_ownl : forall s v x, v < 12 -> In x (own s v) -> In x (ownl s).
Proof. intros s v x Hv HI. unfold ownl. apply in_concat. exists (own s v). split; auto. apply in_map. apply in_seq. lia. Qed.
Lemma nodup_parts : forall (l : list nat) (f : nat -> list nat) v, In v l -> NoDup (concat (map f l)) -> NoDup (f v).
Proof.
  intros l f v. induction l as [|x l IH]; intros HI HN; [destruct HI|]. cbn in HN. destruct HI as [-> |HI].
  - apply NoDup_app_remove_r in HN. exact HN.
  - apply IH; auto. apply NoDup_app_remove_l in HN. exact HN.
Qed.
Lemma RX_own : forall s d v, RX s d -> v < 12 -> NoDup (own (xv s) v) /\ (forall x, In x (own (xv s) v) -> 1 <= x <= 12) /\ length (own (xv s) v) <= 12.
Proof.
  intros s d v [H1 H2 (fl&p0&A&B&C) H4 H5 H6] Hv.
  assert (HN : NoDup (fl ++ map fst (tk s) ++ ownl (xv s))) by (eapply Permutation_NoDup; [apply Permutation_sym; eauto|apply seq_NoDup]).
  assert (HI : forall x, In x (own (xv s) v) -> In x (seq 1 12)).
  { intros x I. eapply Permutation_in; [exact C|]. apply in_or_app. right. apply in_or_app. right. eapply in_ownl; eauto. }
  assert (ND : NoDup (own (xv s) v)).
  { apply NoDup_app_remove_l in HN. apply NoDup_app_remove_l in HN. apply (nodup_parts (seq 0 12)); [apply in_seq; lia|exact HN]. }
  split; [exact ND|]. split; [intros x I; apply HI, in_seq in I; lia|].
  change 12 with (length (seq 1 12)). apply NoDup_incl_length; [exact ND|exact HI].
Qed.
Lemma RX_same : forall s d d' lv, RX s d -> vtab d' = vtab d -> length (ptab d') = length (ptab d) -> same_next (ptab d) (ptab d') ->
  levels_ok d' lv -> RX (mkX (mkVspec (own (xv s)) (fn (xv s)) lv) (tk s)) d'.
Proof.
  intros s d d' lv [H1 H2 (fl&p0&A&B&C) H4 H5 H6] HV HL HS HLV. constructor; cbn [xv tk own fn lev]; try congruence; auto.
  - pose proof (HS 0) as H0. rewrite A in H0. destruct (nth_error (ptab d') 0) as [p|] eqn:E; [|discriminate H0]. cbn in H0. inv H0.
    exists fl, p. repeat split; auto. rewrite H3. eapply chain_same_next; eauto.
  - intros v Hv. destruct (H4 v Hv) as [e (E1&E2&E3)]. exists e. rewrite HV. repeat split; auto. eapply chain_same_next; eauto.
  - intros p t I. destruct (H6 p t I) as [q [Q1 Q2]]. pose proof (HS p) as S. rewrite Q1 in S. destruct (nth_error (ptab d') p) as [q'|]; [|discriminate S].
    exists q'. split; auto. cbn in S. congruence.
Qed.
Lemma RX_levels : forall s d, RX s d -> RX (mkX (mkVspec (own (xv s)) (fn (xv s)) (lev (xv s))) (tk s)) d.
Proof. intros s d H. apply (RX_same s d d); auto; [intros i; reflexivity|apply (rx_lev _ _ H)]. Qed.

Lemma x_action : forall f s d v, RX s d -> v < 12 ->
  exists d', virtual_action v f d = Ok d' /\
    RX (mkX (mkVspec (own (xv s)) (fn (xv s)) (fst (spec_action f (own (xv s) v) (lev (xv s))))) (tk s)) d' /\
    log d' = rev (snd (spec_action f (own (xv s) v) (lev (xv s)))) ++ log d.
Proof.
  intros f s d v HR Hv. destruct (RX_own _ _ _ HR Hv) as (ND&FA&LN). destruct (rx_virt _ _ HR v Hv) as [e (E1&E2&E3)].
  assert (HT : forall o d, o < length (ptab d) -> physical_toggle o d = set_g opposite o d) by reflexivity.
  unfold virtual_action. rewrite (proj2 (lget_ok _ _ _ _ _) E1). cbn [bind].
  pose proof (rx_lev _ _ HR) as LV. assert (LL : length (own (xv s) v) < 14) by lia.
  assert (PU : forall ev, exists d', (d1 <- vmap physical_toggle (v_phys e) d ;; vmap physical_toggle (v_phys e) (emit ev d1)) = Ok d' /\
    let '(l1, e1) := drive opposite (own (xv s) v) (lev (xv s)) in let '(l2, e2) := drive opposite (own (xv s) v) l1 in
    RX (mkX (mkVspec (own (xv s)) (fn (xv s)) l2) (tk s)) d' /\ log d' = rev (e1 ++ ev :: e2) ++ log d).
  { intros ev. destruct (vmap_drive _ _ HT _ 14 _ d _ E2 LL LV) as [d1 (X1&X2&X3&X4&X5&X6)].
    unfold vmap. rewrite X1. cbn [bind]. destruct (drive opposite (own (xv s) v) (lev (xv s))) as [lv1 e1]. cbn [fst snd] in *.
    destruct (vmap_drive _ _ HT (own (xv s) v) 14 (v_phys e) (emit ev d1) lv1) as [d' (Y1&Y2&Y3&Y4&Y5&Y6)]; auto.
    { cbn. eapply chain_same_next; eauto. }
    exists d'. split; [exact Y1|]. destruct (drive opposite (own (xv s) v) lv1) as [lv2 e2]. cbn [fst snd] in *. split.
    - eapply RX_same; eauto; cbn in *; try congruence.
    - rewrite Y6. cbn. rewrite X6, rev_app_distr. cbn. rewrite <- !app_assoc. auto. }
  destruct f; cbn [spec_action].
  - exists d. split; [auto|]. split; [|auto]. apply RX_levels. exact HR.
  - destruct (vmap_drive _ _ set_on _ 14 _ d _ E2 LL LV) as [d' (X1&X2&X3&X4&X5&X6)].
    exists d'. split; [auto|]. split; [eapply RX_same; eauto | auto].
  - destruct (vmap_drive _ _ set_off _ 14 _ d _ E2 LL LV) as [d' (X1&X2&X3&X4&X5&X6)].
    exists d'. split; [auto|]. split; [eapply RX_same; eauto | auto].
  - destruct (PU EvPulseShort) as [d' [E X]]. exists d'. split; [exact E|]. destruct (drive opposite (own (xv s) v) (lev (xv s))) as [l1 e1].
    destruct (drive opposite (own (xv s) v) l1) as [l2 e2]. exact X.
  - destruct (PU EvPulseLong) as [d' [E X]]. exists d'. split; [exact E|]. destruct (drive opposite (own (xv s) v) (lev (xv s))) as [l1 e1].
    destruct (drive opposite (own (xv s) v) l1) as [l2 e2]. exact X.
  - destruct (vmap_drive _ _ HT _ 14 _ d _ E2 LL LV) as [d' (X1&X2&X3&X4&X5&X6)].
    exists d'. split; [auto|]. split; [eapply RX_same; eauto | auto].
Qed.

Lemma x_free_iff : forall s p, x_free s p = true <-> 1 <= p <= 12 /\ ~ In p (map fst (tk s) ++ ownl (xv s)).
Proof.
  intros s p. unfold x_free, is_physical. rewrite !andb_true_iff, negb_true_iff, is_free_iff, in_app_iff.
  assert (X : existsb (fun t => fst t =? p) (tk s) = false <-> ~ In p (map fst (tk s))).
  { rewrite in_map_iff. split.
    - intros E [t [<- I]]. assert (existsb (fun u => fst u =? fst t) (tk s) = true); [|congruence]. apply existsb_exists. exists t. split; auto. apply Nat.eqb_refl.
    - intros E. destruct (existsb _ _) eqn:B; auto. exfalso. apply existsb_exists in B. destruct B as [t [I B]]. apply Nat.eqb_eq in B. apply E. eauto. }
  rewrite X. intuition lia.
Qed.
Lemma x_free_list : forall s d fl p0, RX s d -> nth_error (ptab d) 0 = Some p0 -> chain (ptab d) (p_next p0) fl ->
  Permutation (fl ++ map fst (tk s) ++ ownl (xv s)) (seq 1 12) -> forall p, x_free s p = true <-> In p fl.
Proof.
  intros s d fl p0 HR A B C p. rewrite x_free_iff.
  assert (HN : NoDup (fl ++ map fst (tk s) ++ ownl (xv s))) by (eapply Permutation_NoDup; [apply Permutation_sym; eauto|apply seq_NoDup]).
  split.
  - intros [H1 H2]. assert (I : In p (fl ++ map fst (tk s) ++ ownl (xv s))) by (eapply Permutation_in; [apply Permutation_sym; exact C|apply in_seq; lia]).
    apply in_app_or in I. tauto.
  - intros I. split.
    + assert (J : In p (seq 1 12)) by (eapply Permutation_in; [exact C|apply in_or_app; auto]). apply in_seq in J. lia.
    + intros J. eapply NoDup_app_disjoint; [exact HN|exact I|exact J].
Qed.
Lemma avail_ok : forall s d p, RX s d -> exists n, device_is_available p d = Ok n /\ n <= 13 /\ (n = 13 <-> x_free s p = false).
Proof.
  intros s d p HR. destruct (rx_free _ _ HR) as (fl&p0&F1&F2&F3). pose proof (x_free_list _ _ _ _ HR F1 F2 F3 p) as FI.
  assert (HFL : length fl <= 12) by (apply Permutation_length in F3; rewrite app_length, seq_length in F3; lia).
  unfold device_is_available, next_device. unfold NO_OUT at 1. rewrite (proj2 (lget_ok _ _ _ _ _) F1). cbn [bind].
  destruct (in_dec Nat.eq_dec p fl) as [HI|HI].
  - rewrite (proj2 FI HI). destruct (in_split _ _ HI) as (a&b&E). subst fl.
    assert (HP : 1 <= p <= 12) by (apply (x_free_iff s); apply FI; exact HI).
    assert (HN : NoDup ((a ++ p :: b) ++ map fst (tk s) ++ ownl (xv s))) by (eapply Permutation_NoDup; [apply Permutation_sym; eauto|apply seq_NoDup]).
    apply NoDup_app_remove_r in HN. apply NoDup_remove_2 in HN.
    rewrite (avail_found a 14 d NO_OUT (p_next p0) p b); [|exact F2|lia|intros X; apply HN; apply in_or_app; auto|rewrite app_length in HFL; cbn in HFL; lia].
    exists (last a NO_OUT). split; [reflexivity|].
    assert (L : last a NO_OUT <= 12).
    { destruct (last_in a NO_OUT) as [L|L]; [rewrite <- L; unfold NO_OUT; lia|].
      assert (J : In (last a NO_OUT) (seq 1 12)) by (eapply Permutation_in; [exact F3|apply in_or_app; left; apply in_or_app; auto]). apply in_seq in J. lia. }
    split; [lia|]. split; [lia|discriminate].
  - assert (XF : x_free s p = false) by (destruct (x_free s p) eqn:X; auto; tauto). rewrite XF.
    rewrite (avail_not_found fl 14 d NO_OUT (p_next p0) p) by (auto; lia). exists num_phys. split; [reflexivity|]. unfold num_phys. split; [lia|tauto].
Qed.

(** Taking a free device out of the list. *)
Lemma allocate_ok : forall s d p tail i, RX s d -> x_free s p = true ->
  exists d', physical_allocate p tail i d = Ok (true, d') /\ vtab d' = vtab d /\ log d' = log d /\ length (ptab d') = 13 /\
    (exists fl p0, nth_error (ptab d') 0 = Some p0 /\ chain (ptab d') (p_next p0) fl /\ Permutation (p :: fl ++ map fst (tk s) ++ ownl (xv s)) (seq 1 12)) /\
    (forall v x, v < 12 -> chain (ptab d) x (own (xv s) v) -> chain (ptab d') x (own (xv s) v)) /\
    (forall q t, In (q, t) (tk s) -> nth_error (ptab d') q = nth_error (ptab d) q) /\
    nth_error (ptab d') p = Some (mkPdev i tail) /\ levels_ok d' (set_at (lev (xv s)) p i).
Proof.
  intros s d p tail i HR FR. destruct (rx_free _ _ HR) as (fl&p0&F1&F2&F3). pose proof (proj1 (x_free_list _ _ _ _ HR F1 F2 F3 p) FR) as HI.
  destruct (proj1 (x_free_iff s p) FR) as [HP HO].
  assert (HN : NoDup (fl ++ map fst (tk s) ++ ownl (xv s))) by (eapply Permutation_NoDup; [apply Permutation_sym; eauto|apply seq_NoDup]).
  assert (HFL : length fl <= 12) by (apply Permutation_length in F3; rewrite app_length, seq_length in F3; lia).
  destruct (in_split _ _ HI) as (a&b&E). subst fl.
  assert (HNF0 : NoDup (a ++ p :: b)) by (apply NoDup_app_remove_r in HN; exact HN).
  pose proof (NoDup_remove_2 _ _ _ HNF0) as HPab.
  assert (HNA : ~ In p a) by (intros X; apply HPab; apply in_or_app; auto).
  assert (IN : forall x, In x (a ++ p :: b) -> 1 <= x <= 12).
  { intros x X. assert (J : In x (seq 1 12)) by (eapply Permutation_in; [exact F3|apply in_or_app; left; exact X]). apply in_seq in J. lia. }
  assert (HNF : NoDup (0 :: a ++ p :: b)) by (constructor; auto; intros X; apply IN in X; lia).
  unfold physical_allocate, device_is_available, next_device. unfold NO_OUT at 1. rewrite (proj2 (lget_ok _ _ _ _ _) F1). cbn [bind].
  unfold NO_OUT. rewrite (avail_found a 14 d 0 (p_next p0) p b) by (auto; rewrite ?app_length in HFL; cbn in HFL; lia). cbn [bind].
  assert (LA : last a 0 = 0 \/ In (last a 0) a) by (destruct (last_in a 0) as [L|L]; auto).
  assert (HLa : last a 0 < 13) by (destruct LA as [L|L]; [lia|]; assert (1 <= last a 0 <= 12) by (apply IN; apply in_or_app; auto); lia).
  unfold valid_physical, NO_OUT, num_phys. replace ((0 <? p) && (p <? 13)) with true by lia. replace (13 =? last a 0) with false by lia. cbn [negb andb].
  rewrite <- (rx_plen _ _ HR) in HLa. assert (Hp13 : p < length (ptab d)) by (rewrite (rx_plen _ _ HR); lia).
  destruct (nth_error_ex _ _ _ Hp13) as [po Hpo]. destruct (nth_error_ex _ _ _ HLa) as [pr Hpr].
  rewrite (proj2 (lget_ok _ _ _ _ _) Hpo). cbn [bind]. rewrite (proj2 (lget_ok _ _ _ _ _) Hpr). cbn [bind].
  rewrite lset_ok by auto. cbn [bind]. rewrite lset_ok by (rewrite upd_length; auto). cbn [bind].
  eexists. split; [reflexivity|]. cbn [ptab vtab log]. split; [reflexivity|]. split; [reflexivity|].
  destruct (unlink a (ptab d) 0 p0 p po b F1 F2 HNF Hpo (last a 0) (p_shadow pr) eq_refl) as [p0' [U1 U2]].
  set (pt1 := upd (ptab d) (last a 0) (mkPdev (p_shadow pr) (p_next po))) in *.
  assert (HLp : last a 0 <> p) by (destruct LA as [L|L]; [lia|intros X; apply HNA; rewrite <- X; exact L]).
  assert (OUT : forall x, In x (map fst (tk s) ++ ownl (xv s)) -> x <> p /\ x <> last a 0).
  { intros x X. split; [intros ->; exact (HO X)|]. intros ->. assert (R : In (last a 0) (seq 1 12)) by (eapply Permutation_in; [exact F3|apply in_or_app; right; exact X]).
    apply in_seq in R. destruct LA as [L|L]; [lia|]. eapply NoDup_app_disjoint; [exact HN| |exact X]. apply in_or_app; auto. }
  split; [rewrite upd_length; unfold pt1; rewrite upd_length; apply (rx_plen _ _ HR)|]. split; [|split; [|split; [|split]]].
  - exists (a ++ b), p0'. split; [rewrite nth_error_upd_other by lia; exact U1|]. split; [apply chain_frame; auto|].
    rewrite <- F3. rewrite <- !app_assoc. cbn [app]. apply Permutation_middle.
  - intros v x Hv CH. assert (OV : forall y, In y (own (xv s) v) -> y <> p /\ y <> last a 0) by (intros y Y; apply OUT; apply in_or_app; right; eapply in_ownl; eauto).
    apply chain_frame; [intros Y; apply OV in Y; tauto|]. unfold pt1. apply chain_frame; [intros Y; apply OV in Y; tauto|exact CH].
  - intros q t I. assert (OQ : q <> p /\ q <> last a 0) by (apply OUT; apply in_or_app; left; apply (in_map fst _ _ I)).
    rewrite nth_error_upd_other by intuition. unfold pt1. rewrite nth_error_upd_other by intuition. reflexivity.
  - apply nth_error_upd_same. unfold pt1. rewrite upd_length. exact Hp13.
  - intros j q Hq. unfold set_at. cbn [ptab] in Hq. rewrite nth_error_upd in Hq. rewrite (Nat.eqb_sym j p). destruct (Nat.eqb_spec p j); cbn [andb] in Hq.
    + subst j. unfold pt1 in Hq. rewrite upd_length in Hq. destruct (Nat.ltb_spec p (length (ptab d))); [|lia]. inv Hq. reflexivity.
    + unfold pt1 in Hq. rewrite nth_error_upd in Hq. destruct (Nat.eqb_spec (last a 0) j); cbn [andb] in Hq.
      * subst j. destruct (Nat.ltb_spec (last a 0) (length (ptab d))); [|lia]. inv Hq. cbn. apply (rx_lev _ _ HR); auto.
      * apply (rx_lev _ _ HR); auto.
Qed.
Lemma allocate_not : forall s d p tail i, RX s d -> x_free s p = false -> physical_allocate p tail i d = Ok (false, d).
Proof.
  intros s d p tail i HR FR. destruct (avail_ok s d p HR) as (n&E&L&I). unfold physical_allocate. rewrite E. cbn [bind].
  rewrite (proj2 I FR). unfold num_phys. rewrite Nat.eqb_refl, andb_false_r. reflexivity.
Qed.
Lemma x_set : forall s d p v, RX s d -> p < 13 -> exists d', physical_set p v d = Ok d' /\ RX (put_level s p v) d' /\ log d' = EvOut p v :: log d.
Proof.
  intros s d p v HR HP. rewrite <- (rx_plen _ _ HR) in HP. destruct (nth_error_ex _ _ _ HP) as [q Q]. rewrite (physical_set_ok _ _ _ _ Q).
  eexists. split; [reflexivity|]. split; [|reflexivity]. apply (RX_same s d); auto; cbn [ptab vtab].
  - apply upd_length.
  - intros i. rewrite nth_error_upd. destruct (Nat.eqb_spec p i); cbn [andb]; auto. destruct (Nat.ltb_spec p (length (ptab d))); auto. subst. rewrite Q. reflexivity.
  - intros i r Hr. cbn [ptab] in Hr. rewrite nth_error_upd in Hr. unfold set_at. rewrite (Nat.eqb_sym i p). destruct (Nat.eqb_spec p i); cbn [andb] in Hr.
    + subst. destruct (Nat.ltb_spec i (length (ptab d))); [|lia]. inv Hr. reflexivity.
    + apply (rx_lev _ _ HR); auto.
Qed.
Lemma chain_follows : forall pt l x p m, chain pt x l -> follows p l = Some m -> exists q, nth_error pt p = Some q /\ p_next q = m.
Proof.
  intros pt l. induction l as [|y l IH]; intros x p m HC HF; [discriminate HF|]. cbn [chain follows] in *. destruct HC as (->&NZ&q&Q&HC).
  destruct (Nat.eqb_spec y p) as [-> |NE]; [|eauto]. inv HF. exists q. split; [exact Q|]. destruct l; cbn in *; [exact HC|]. destruct HC as (->&_). reflexivity.
Qed.

Lemma x_step_ok : forall o s d, RX s d -> xop_ok o -> exists a d', xop_step o d = Ok (a, d') /\
  let '(s1, ev, P) := x_step o s in RX s1 d' /\ log d' = rev ev ++ log d /\ P a.
Proof.
  intros o s d HR HO. destruct o as [o| |p v|p|p|p|p|p t i|p|p]; cbn [xop_step x_step].
  - destruct o as [v p f i|v f|v|]; cbn [vop_step].
    + unfold virtual_assign, valid_virtual, is_virtual, V_NULL, num_virt. replace ((0 <? v) && (v <? 12)) with ((1 <=? v) && (v <=? 11)) by lia.
      destruct ((1 <=? v) && (v <=? 11)) eqn:EV; cbn [andb]; [|do 2 eexists; split; [reflexivity|]; split; [exact HR|]; split; reflexivity].
      assert (Hv : v < 12) by lia. destruct (rx_virt _ _ HR v Hv) as [e (E1&E2&E3)]. rewrite (proj2 (lget_ok _ _ _ _ _) E1). cbn [bind].
      destruct (x_free s p) eqn:FR.
      * destruct (allocate_ok s d p (v_phys e) i HR FR) as (d'&A1&A2&A3&A4&(fl&p0&A5&A6&A7)&A8&A9&A10&A11). rewrite A1. cbn [bind].
        rewrite lset_ok by (rewrite A2, (rx_vlen _ _ HR); exact Hv). cbn [bind mum]. do 2 eexists. split; [reflexivity|]. split; [|split; [exact A3|reflexivity]].
        destruct (proj1 (x_free_iff s p) FR) as [HP HX].
        constructor; cbn [xv tk own fn lev ptab vtab].
        -- exact A4.
        -- rewrite upd_length, A2. apply (rx_vlen _ _ HR).
        -- exists fl, p0. split; [exact A5|]. split; [exact A6|]. unfold ownl. cbn [own]. rewrite concat_set_at by (try apply seq_NoDup; apply in_seq; lia).
           rewrite <- A7. fold (ownl (xv s)). rewrite !app_assoc. rewrite <- Permutation_middle. reflexivity.
        -- intros w Hw. unfold set_at. rewrite nth_error_upd, A2, (rx_vlen _ _ HR). rewrite (Nat.eqb_sym w v). destruct (Nat.eqb_spec v w); cbn [andb].
           ++ subst w. replace (v <? 12) with true by lia. exists (mkVdev p f). split; [reflexivity|]. split; [|reflexivity]. cbn [v_phys chain].
              split; [reflexivity|]. split; [lia|]. eexists. split; [exact A10|]. cbn [p_next]. apply A8; auto.
           ++ destruct (rx_virt _ _ HR w Hw) as [e' (G1&G2&G3)]. exists e'. auto.
        -- exact A11.
        -- intros q u I. rewrite (A9 q u I). apply (rx_tk _ _ HR). exact I.
      * rewrite (allocate_not s d p _ i HR FR). cbn [bind mum]. do 2 eexists. split; [reflexivity|]. split; [exact HR|]. split; reflexivity.
    + destruct (x_action f s d v HR HO) as (d'&A&B&D). rewrite A. cbn [mum bind vspec_step]. destruct (spec_action f (own (xv s) v) (lev (xv s))) as [lv ev].
      do 2 eexists. split; [reflexivity|]. cbn [fst snd] in *. split; [exact B|]. split; [exact D|reflexivity].
    + cbn in HO. destruct (rx_virt _ _ HR v HO) as [e (E1&E2&E3)]. unfold virtual_activate. rewrite (proj2 (lget_ok _ _ _ _ _) E1). cbn [bind]. rewrite E3.
      destruct (x_action (fn (xv s) v) s d v HR HO) as (d'&A&B&D). rewrite A. cbn [mum bind vspec_step].
      destruct (spec_action (fn (xv s) v) (own (xv s) v) (lev (xv s))) as [lv ev].
      do 2 eexists. split; [reflexivity|]. cbn [fst snd] in *. split; [exact B|]. split; [exact D|reflexivity].
    + unfold virtual_sync. rewrite (sync_loop _ d (lev (xv s))).
      * cbn [mum bind vspec_step]. do 2 eexists. split; [reflexivity|]. split; [|split; reflexivity].
        destruct s as [v k]. destruct HR as [H1 H2 H3 H4 H5 H6]. constructor; auto.
      * exact (rx_lev _ _ HR).
      * intros j J. apply in_seq in J. rewrite (rx_plen _ _ HR). unfold num_phys in J. lia.
  - do 2 eexists. split; [reflexivity|]. split; [apply RX_init|]. split; reflexivity.
  - destruct (x_set s d p v HR HO) as (d'&A&B&D). rewrite A. do 2 eexists. split; [reflexivity|]. split; [exact B|]. split; [exact D|reflexivity].
  - destruct (x_set s d p 1 HR HO) as (d'&A&B&D). unfold physical_on. rewrite A. do 2 eexists. split; [reflexivity|]. split; [exact B|]. split; [exact D|reflexivity].
  - destruct (x_set s d p 0 HR HO) as (d'&A&B&D). unfold physical_off. rewrite A. do 2 eexists. split; [reflexivity|]. split; [exact B|]. split; [exact D|reflexivity].
  - cbn in HO. pose proof HO as HO'. rewrite <- (rx_plen _ _ HR) in HO'. destruct (nth_error_ex _ _ _ HO') as [q Q]. rewrite (assert_ok _ _ _ Q).
    do 2 eexists. split; [reflexivity|]. split; [|split; [|reflexivity]].
    + destruct HR as [H1 H2 H3 H4 H5 H6]. constructor; auto.
    + cbn [log rev app]. rewrite (rx_lev _ _ HR _ _ Q). reflexivity.
  - cbn in HO. pose proof HO as HO'. rewrite <- (rx_plen _ _ HR) in HO'. destruct (nth_error_ex _ _ _ HO') as [q Q].
    destruct (x_set s d p (opposite (lev (xv s) p)) HR HO) as (d'&A&B&D). unfold physical_toggle. rewrite (proj2 (lget_ok _ _ _ _ _) Q). cbn [bind].
    change (if (p_shadow q =? 0)%N then 1%N else 0%N) with (opposite (p_shadow q)). rewrite (rx_lev _ _ HR _ _ Q). rewrite A.
    do 2 eexists. split; [reflexivity|]. split; [exact B|]. split; [exact D|reflexivity].
  - destruct (x_free s p) eqn:FR.
    + destruct (allocate_ok s d p t i HR FR) as (d'&A1&A2&A3&A4&(fl&p0&A5&A6&A7)&A8&A9&A10&A11). rewrite A1. cbn [bind].
      do 2 eexists. split; [reflexivity|]. split; [|split; [exact A3|reflexivity]].
      constructor; cbn [xv tk put_level own fn lev].
      * exact A4.
      * rewrite A2. apply (rx_vlen _ _ HR).
      * exists fl, p0. split; [exact A5|]. split; [exact A6|]. cbn [map fst app]. rewrite <- A7. unfold ownl. cbn [own]. symmetry. apply Permutation_middle.
      * intros w Hw. destruct (rx_virt _ _ HR w Hw) as [e' (G1&G2&G3)]. exists e'. rewrite A2. auto.
      * exact A11.
      * intros q u [I|I]; [inv I; eexists; split; [exact A10|reflexivity]|]. rewrite (A9 q u I). apply (rx_tk _ _ HR). exact I.
    + rewrite (allocate_not s d p t i HR FR). cbn [bind]. do 2 eexists. split; [reflexivity|]. split; [exact HR|]. split; reflexivity.
  - destruct (avail_ok s d p HR) as (n&E&L&I). rewrite E. cbn [bind]. do 2 eexists. split; [reflexivity|]. split; [exact HR|]. split; [reflexivity|]. eauto.
  - cbn in HO. pose proof HO as HO'. rewrite <- (rx_plen _ _ HR) in HO'. destruct (nth_error_ex _ _ _ HO') as [q Q]. unfold next_device. rewrite (proj2 (lget_ok _ _ _ _ _) Q). cbn [bind].
    do 2 eexists. split; [reflexivity|]. split; [exact HR|]. split; [reflexivity|]. exists (p_next q). split; [reflexivity|]. split.
    + intros v m Hv HF. destruct (rx_virt _ _ HR v Hv) as [e (E1&E2&E3)]. destruct (chain_follows _ _ _ _ _ E2 HF) as [q' [Q1 Q2]]. congruence.
    + intros u I. destruct (rx_tk _ _ HR p u I) as [q' [Q1 Q2]]. congruence.
Qed.

(** ** C136 *)
(** From the initialisation of the outputs on, any calls of the device functions
    in any order: none fails, each drives and answers what the specification
    says.  The number given to asdf_physical_allocate may be anything. *)
Theorem C136_all_device_functions : forall d0 ops, Forall xop_ok ops -> log d0 = [] ->
  exists answers d, xop_run ops (virtual_init d0) = Ok (answers, d) /\
    let '(s, ev, ps) := x_run ops (mkX spec_zero []) in
    rev (log d) = ev /\ Forall2 (fun a P => P a) answers ps.
Proof.
  intros d0 ops HO L0.
  assert (X : forall ops s d, RX s d -> Forall xop_ok ops -> exists answers d', xop_run ops d = Ok (answers, d') /\
    let '(s', ev, ps) := x_run ops s in log d' = rev ev ++ log d /\ Forall2 (fun a P => P a) answers ps).
  { clear. intros ops. induction ops as [|o ops IH]; intros s d HR HO.
    - exists [], d. split; [reflexivity|]. split; [reflexivity|constructor].
    - inv HO. destruct (x_step_ok o s d HR H1) as (a&d1&E1&X). cbn [xop_run x_run]. rewrite E1. cbn [bind].
      destruct (x_step o s) as [[s1 e1] P]. destruct X as (R1&L1&P1). destruct (IH s1 d1 R1 H2) as (l&d2&E2&X2). rewrite E2. cbn [bind].
      destruct (x_run ops s1) as [[s2 e2] ps]. destruct X2 as [L2 F2]. exists (a :: l), d2. split; [reflexivity|].
      split; [rewrite L2, L1, rev_app_distr, app_assoc; reflexivity|]. constructor; assumption. }
  destruct (X ops _ _ (RX_init d0) HO) as (l&d&E&Y). exists l, d. split; [exact E|]. destruct (x_run ops (mkX spec_zero [])) as [[s ev] ps].
  destruct Y as [Y1 Y2]. split; [|exact Y2]. rewrite Y1. cbn [virtual_init physical_init log]. rewrite L0, app_nil_r, rev_involutive. reflexivity.
Qed.
Print Assumptions C136_all_device_functions.

(** LED1 is taken directly, so VLED1 gets LED2 only and drives it only. *)
Example C136_example :
  let ops := [XAllocate 10 99 1; XV (VAssign 1 10 V_TOGGLE 0); XV (VAssign 1 11 V_TOGGLE 0); XAvailable 10; XAvailable 12; XNext 11; XNext 10; XV (VActivate 1); XToggle 10] in
  Forall xop_ok ops /\
  match xop_run ops (virtual_init (mkDevs [] [] [])) with
  | Ok (l, d) => (l, rev (log d)) = ([Some 1; None; None; Some 13; Some 9; Some 0; Some 99; None; None], [EvOut 11 1%N; EvOut 10 0%N])
  | Bad _ => False
  end.
Proof. cbv zeta. split; [repeat constructor|vm_compute; reflexivity]. Qed.

(** asdf_physical_init on its own is another matter: it puts all devices back
    into one list and leaves the owners in place, so that an output then drives
    devices it never owned, and two outputs the same device. *)
Theorem C136_physical_init_refuted : exists d1 d2,
  vop_run [VAssign 1 10 V_TOGGLE 0; VAssign 2 11 V_TOGGLE 0] (virtual_init (mkDevs [] [] [])) = Ok d1 /\
  vop_run [VAction 1 V_SET_HI; VAction 2 V_SET_HI] (physical_init d1) = Ok d2 /\
  rev (log d2) = [EvOut 10 1%N; EvOut 11 1%N; EvOut 12 1%N; EvOut 11 1%N; EvOut 12 1%N].
Proof. do 2 eexists. split; [vm_compute; reflexivity|]. split; [vm_compute; reflexivity|vm_compute; reflexivity]. Qed.
Print Assumptions C136_physical_init_refuted.
