(** Refinement of the device tables to [DevSpec]. *)
From Coq Require Import List NArith Arith Bool Lia Permutation.
From Coq Require Import ZifyBool ZifyNat ZifyN.
From Verif Require Import Base Lib Devices DevSpec.
Import ListNotations.
Local Open Scope outcome_scope.

Definition vop_step (o : vop) (d : devs) : outcome devs :=
  match o with
  | VAssign v p f i => virtual_assign v p f i d
  | VAction v f => virtual_action v f d
  | VActivate v => virtual_activate v d
  | VSync => virtual_sync d
  end.

Fixpoint vop_run (ops : list vop) (d : devs) : outcome devs :=
  match ops with
  | [] => Ok d
  | o :: t => d1 <- vop_step o d ;; vop_run t d1
  end.

(** ** Linked lists *)
Fixpoint chain (pt : list pdev) (s : nat) (l : list nat) : Prop :=
  match l with
  | [] => s = 0
  | x :: t => s = x /\ x <> 0 /\ exists p, nth_error pt x = Some p /\ chain pt (p_next p) t
  end.

(** Same links. *)
Definition same_next (pt pt' : list pdev) : Prop :=
  forall i, option_map p_next (nth_error pt' i) = option_map p_next (nth_error pt i).

Lemma chain_same_next : forall pt pt' l s, same_next pt pt' -> chain pt s l -> chain pt' s l.
Proof.
  induction l; cbn; intros s H HC; auto.
  destruct HC as (->&Hn&p&Hp&HC). repeat split; auto.
  specialize (H a) as Ha. rewrite Hp in Ha. destruct (nth_error pt' a); inv Ha.
  exists p0; split; auto. rewrite H1. auto.
Qed.

Lemma chain_frame : forall l pt s i x, ~ In i l -> chain pt s l -> chain (upd pt i x) s l.
Proof.
  induction l; cbn; intros pt s i x Hi HC; auto.
  destruct HC as (->&Hn&p&Hp&HC). repeat split; auto.
  exists p; split; [rewrite nth_error_upd_other; auto|]. apply IHl; auto.
Qed.

Lemma last_cons : forall (a : list nat) x c, last (x :: a) c = last a x.
Proof. induction a; intros; auto. cbn [last] in *. destruct a0; auto. Qed.

Lemma last_in : forall (a : list nat) x, In (last a x) (x :: a).
Proof.
  intros. destruct a as [|y a']; [cbn; auto|]. right.
  destruct (exists_last (l := y :: a')) as [l' [z ->]]; [discriminate|].
  rewrite last_last. apply in_or_app; right; left; auto.
Qed.

Lemma unlink : forall a pt cur pc o po b,
  nth_error pt cur = Some pc -> chain pt (p_next pc) (a ++ o :: b) ->
  NoDup (cur :: a ++ o :: b) -> nth_error pt o = Some po ->
  forall pr sh, pr = last a cur ->
  exists pc', nth_error (upd pt pr (mkPdev sh (p_next po))) cur = Some pc' /\
              chain (upd pt pr (mkPdev sh (p_next po))) (p_next pc') (a ++ b).
Proof.
  induction a as [|x a IHa]; intros pt cur pc o po b Hc HC HN Ho pr sh ->.
  - cbn [last app] in *. destruct HC as (E&Hn&p&Hp&HC). rewrite Ho in Hp. inv Hp.
    exists (mkPdev sh (p_next p)). split.
    + apply nth_error_upd_same. eapply nth_error_Some_lt; eauto.
    + cbn. apply chain_frame; auto. inv HN. cbn in H1. intros X. apply H1. auto.
  - cbn [app] in *. destruct HC as (E&Hn&p&Hp&HC).
    apply NoDup_cons_iff in HN. destruct HN as [HN1 HN2]. rewrite last_cons.
    destruct (IHa pt x p o po b Hp HC HN2 Ho (last a x) sh eq_refl) as [pc' [H1' H2']].
    assert (cur <> last a x).
    { intros X. apply HN1. pose proof (last_in a x) as L. rewrite <- X in L.
      destruct L; [left; auto | right; apply in_or_app; auto]. }
    exists pc. split.
    + rewrite nth_error_upd_other; auto.
    + cbn. repeat split; auto. exists pc'. split; auto.
Qed.

Lemma avail_found : forall a fuel d cur nxt o b,
  chain (ptab d) nxt (a ++ o :: b) -> o <> 0 -> ~ In o a -> length a < fuel ->
  avail_loop fuel o cur nxt d = Ok (last a cur).
Proof.
  induction a as [|x a IHa]; intros fuel d cur nxt o b HC Ho Hi Hf;
    destruct fuel; try (cbn in Hf; lia).
  - cbn [app chain] in HC. destruct HC as (->&_&_). cbn [avail_loop].
    rewrite Nat.eqb_refl, andb_false_r. unfold NO_OUT. destruct (Nat.eqb_spec o 0); auto; tauto.
  - cbn [app chain] in HC. destruct HC as (->&Hn&p&Hp&HC). cbn [avail_loop].
    unfold NO_OUT. cbn in Hi.
    destruct (Nat.eqb_spec x 0); [tauto|]. destruct (Nat.eqb_spec x o); [tauto|]. cbn [negb andb].
    unfold next_device. rewrite (proj2 (lget_ok _ _ _ _ _) Hp). cbn [bind].
    rewrite last_cons. eapply IHa; eauto. cbn in Hf; lia.
Qed.

Lemma avail_not_found : forall l fuel d cur nxt o,
  chain (ptab d) nxt l -> o = 0 \/ ~ In o l -> length l < fuel ->
  avail_loop fuel o cur nxt d = Ok num_phys.
Proof.
  induction l; intros fuel d cur nxt o HC Hi Hf; destruct fuel; try (cbn in Hf; lia).
  - cbn in HC. subst. reflexivity.
  - destruct HC as (->&Hn&p&Hp&HC). cbn [avail_loop]. unfold NO_OUT. cbn in Hi.
    destruct (Nat.eqb_spec a 0); [tauto|]. destruct (Nat.eqb_spec a o).
    + subst. tauto.
    + cbn [negb andb]. unfold next_device. rewrite (proj2 (lget_ok _ _ _ _ _) Hp).
      cbn [bind]. apply IHl; auto; try tauto. cbn in Hf; lia.
Qed.

(** ** The refinement relation *)
Definition ownl (s : vspec) : list nat := concat (map (own s) (seq 0 12)).

Record RD (s : vspec) (d : devs) : Prop := {
  rd_plen : length (ptab d) = 13;
  rd_vlen : length (vtab d) = 12;
  rd_free : exists fl p0, nth_error (ptab d) 0 = Some p0 /\ chain (ptab d) (p_next p0) fl /\
              Permutation (fl ++ ownl s) (seq 1 12);
  rd_virt : forall v, v < 12 -> exists e, nth_error (vtab d) v = Some e /\
              chain (ptab d) (v_phys e) (own s v) /\ v_fn e = fn s v;
  rd_lev : forall i p, nth_error (ptab d) i = Some p -> p_shadow p = lev s i
}.

Lemma RD_init : forall d, RD spec_zero (virtual_init d).
Proof.
  intros. constructor; try reflexivity.
  - exists (seq 1 12). eexists. split; [reflexivity|]. split.
    + vm_compute. repeat split; try lia; repeat (eexists; repeat split; auto; try lia).
    + replace (ownl spec_zero) with (@nil nat) by reflexivity. rewrite app_nil_r. auto.
  - intros v Hv. cbn [virtual_init vtab].
    exists (mkVdev NO_OUT V_NOFUNC). split; [apply nth_error_repeat_lt; auto|].
    split; cbn; auto.
  - intros i p H. cbn [virtual_init physical_init ptab] in H.
    rewrite nth_error_map in H. destruct (nth_error (seq 0 num_phys) i); inv H. auto.
Qed.

Lemma own_facts : forall s d v, RD s d -> v < 12 ->
  NoDup (own s v) /\ Forall (fun p => 1 <= p <= 12) (own s v) /\ length (own s v) <= 12.
Proof.
  intros s d v [H1 H2 (fl&p0&A&B&C) H4 H5] Hv.
  assert (HN : NoDup (fl ++ ownl s)).
  { eapply Permutation_NoDup; [apply Permutation_sym; eauto|]. apply seq_NoDup. }
  assert (HI : forall x, In x (own s v) -> In x (fl ++ ownl s)).
  { intros. apply in_or_app. right. unfold ownl. apply in_concat. exists (own s v). split; auto.
    apply in_map. apply in_seq. lia. }
  assert (ND : NoDup (own s v)).
  { apply NoDup_app_remove_l in HN. unfold ownl in HN.
    assert (In v (seq 0 12)) by (apply in_seq; lia).
    clear - HN H. induction (seq 0 12); [destruct H|]. cbn in HN. destruct H.
    - subst. apply NoDup_app_remove_r in HN; auto.
    - apply IHl; auto. apply NoDup_app_remove_l in HN; auto. }
  assert (FA : Forall (fun p => 1 <= p <= 12) (own s v)).
  { apply Forall_forall. intros x Hx. apply HI in Hx. eapply Permutation_in in Hx; eauto.
    apply in_seq in Hx. lia. }
  repeat split; auto.
  change 12 with (length (seq 1 12)). apply NoDup_incl_length; auto.
  intros x Hx. apply HI in Hx. eapply Permutation_in; eauto.
Qed.

(** Owned devices belong to one list only. *)
Lemma own_unique : forall s d v w p, RD s d -> v < 12 -> w < 12 ->
  In p (own s v) -> In p (own s w) -> v = w.
Proof.
  intros s d v w p [H1 H2 (fl&p0&A&B&C) H4 H5] Hv Hw Pv Pw.
  assert (HN : NoDup (ownl s)).
  { assert (NoDup (fl ++ ownl s)).
    { eapply Permutation_NoDup; [apply Permutation_sym; eauto|]. apply seq_NoDup. }
    apply NoDup_app_remove_l in H; auto. }
  unfold ownl in HN.
  assert (In v (seq 0 12)) by (apply in_seq; lia). assert (In w (seq 0 12)) by (apply in_seq; lia).
  pose proof (seq_NoDup 12 0) as HS.
  revert HN H H0 HS. generalize (seq 0 12). induction l; intros HN I1 I2 HS; [destruct I1|].
  cbn in HN. inv HS.
  assert (D : forall x, In x (own s a) -> ~ In x (concat (map (own s) l))).
  { clear - HN. induction (own s a); cbn in *; intros; [tauto|]. inv HN.
    destruct H; [subst; intros H; apply H2; apply in_or_app; auto | auto]. }
  assert (CI : forall u, In u l -> In p (own s u) -> In p (concat (map (own s) l))).
  { intros. apply in_concat. exists (own s u). split; auto. apply in_map; auto. }
  destruct I1 as [->|I1]; destruct I2 as [->|I2]; auto.
  - exfalso. eapply D; eauto.
  - exfalso. eapply D; eauto.
  - apply IHl; auto. apply NoDup_app_remove_l in HN; auto.
Qed.

(** ** Driving *)

Definition set_g (g : N -> N) (o : nat) (d : devs) : outcome devs :=
  p <- lget UDevOob (ptab d) o ;; physical_set o (g (p_shadow p)) d.

Lemma physical_set_ok : forall o v d p, nth_error (ptab d) o = Some p ->
  physical_set o v d = Ok (mkDevs (upd (ptab d) o (mkPdev v (p_next p))) (vtab d) (EvOut o v :: log d)).
Proof.
  intros. unfold physical_set. rewrite (proj2 (lget_ok _ _ _ _ _) H). cbn [bind emit ptab vtab log].
  rewrite lset_ok by (eapply nth_error_Some_lt; eauto). auto.
Qed.

Lemma set_on : forall o d, o < length (ptab d) -> physical_on o d = set_g (fun _ => 1%N) o d.
Proof.
  intros. unfold physical_on, set_g. destruct (lget_ex _ UDevOob _ _ H) as [p [-> _]]. auto.
Qed.
Lemma set_off : forall o d, o < length (ptab d) -> physical_off o d = set_g (fun _ => 0%N) o d.
Proof.
  intros. unfold physical_off, set_g. destruct (lget_ex _ UDevOob _ _ H) as [p [-> _]]. auto.
Qed.
Lemma set_toggle : forall o d, physical_toggle o d = set_g opposite o d.
Proof. reflexivity. Qed.

(** One pass over a chain. *)
Definition levels_ok (d : devs) (lv : nat -> N) : Prop :=
  forall i p, nth_error (ptab d) i = Some p -> p_shadow p = lv i.

Lemma vmap_drive : forall g f, (forall o d, o < length (ptab d) -> f o d = set_g g o d) ->
  forall l fuel s d lv, chain (ptab d) s l -> length l < fuel -> levels_ok d lv ->
  exists d', map_function fuel f s d = Ok d' /\ vtab d' = vtab d /\
    length (ptab d') = length (ptab d) /\ same_next (ptab d) (ptab d') /\
    levels_ok d' (fst (drive g l lv)) /\
    log d' = rev (snd (drive g l lv)) ++ log d.
Proof.
  intros g f Hf. induction l; intros fuel s d lv HC HL HV; destruct fuel; try (cbn in HL; lia).
  - cbn in HC. subst. cbn. exists d. repeat split; auto.
  - destruct HC as (->&Hn&p&Hp&HC). cbn [map_function]. unfold NO_OUT.
    destruct (Nat.eqb_spec a 0); [tauto|].
    pose proof (nth_error_Some_lt _ _ _ _ Hp) as Hlt.
    rewrite (Hf a d Hlt). unfold set_g. rewrite (proj2 (lget_ok _ _ _ _ _) Hp). cbn [bind].
    rewrite (physical_set_ok _ _ _ _ Hp). cbn [bind].
    unfold next_device. cbn [ptab]. unfold lget. rewrite nth_error_upd_same by auto. cbn [bind].
    cbn [p_next]. set (d1 := mkDevs _ _ _).
    assert (SN : same_next (ptab d) (ptab d1)).
    { intros i. unfold d1. cbn [ptab]. rewrite nth_error_upd.
      destruct (Nat.eqb_spec a i); cbn [andb]; auto.
      destruct (Nat.ltb_spec a (length (ptab d))); auto. subst. rewrite Hp. auto. }
    assert (LV : levels_ok d1 (set_at lv a (g (lv a)))).
    { intros i q Hq. unfold d1 in Hq. cbn [ptab] in Hq. rewrite nth_error_upd in Hq.
      unfold set_at. rewrite (Nat.eqb_sym i a).
      destruct (Nat.eqb_spec a i); cbn [andb] in Hq.
      - subst. destruct (Nat.ltb_spec i (length (ptab d))); [|lia]. inv Hq. cbn. f_equal. apply HV; auto.
      - apply HV; auto. }
    assert (HL2 : length l < fuel) by (cbn in HL; lia).
    destruct (IHl fuel (p_next p) d1 (set_at lv a (g (lv a))) (chain_same_next _ _ _ _ SN HC) HL2 LV)
      as [d' (E1&E2&E3&E4&E5&E6)].
    exists d'. rewrite E1. cbn [drive].
    rewrite <- (HV _ _ Hp) in E5, E6. rewrite <- (HV _ _ Hp).
    destruct (drive g l (set_at lv a (g (p_shadow p)))) as [lv2 ev]. cbn [fst snd] in *.
    repeat split; auto.
    + rewrite E3. unfold d1; cbn. rewrite upd_length; auto.
    + intros i. rewrite E4. apply SN.
    + rewrite E6. unfold d1. cbn [log rev]. rewrite <- app_assoc. auto.
Qed.

Lemma RD_same : forall s d d' lv, RD s d -> vtab d' = vtab d ->
  length (ptab d') = length (ptab d) -> same_next (ptab d) (ptab d') -> levels_ok d' lv ->
  RD (mkVspec (own s) (fn s) lv) d'.
Proof.
  intros s d d' lv [H1 H2 (fl&p0&A&B&C) H4 H5] HV HL HS HLV. constructor; try congruence.
  - pose proof (HS 0) as H0. rewrite A in H0. destruct (nth_error (ptab d') 0) eqn:E; inv H0.
    exists fl, p. repeat split; auto. rewrite H3. eapply chain_same_next; eauto.
  - intros v Hv. destruct (H4 v Hv) as [e (E1&E2&E3)]. exists e. rewrite HV. repeat split; auto.
    eapply chain_same_next; eauto.
  - auto.
Qed.

(** Agreement of levels up to pointwise equality is enough for [drive]. *)
Lemma action_refines : forall f s d v, RD s d -> v < 12 ->
  exists d', virtual_action v f d = Ok d' /\
    RD (mkVspec (own s) (fn s) (fst (spec_action f (own s v) (lev s)))) d' /\
    log d' = rev (snd (spec_action f (own s v) (lev s))) ++ log d.
Proof.
  intros f s d v HR Hv.
  pose proof (own_facts _ _ _ HR Hv) as (ND&FA&LN).
  destruct (rd_virt _ _ HR v Hv) as [e (E1&E2&E3)].
  assert (HT : forall o d, o < length (ptab d) -> physical_toggle o d = set_g opposite o d)
    by reflexivity.
  unfold virtual_action. rewrite (proj2 (lget_ok _ _ _ _ _) E1). cbn [bind].
  assert (LV : levels_ok d (lev s)) by (intros i p Hp; apply (rd_lev _ _ HR); auto).
  assert (LL : length (own s v) < 14) by lia.
  destruct f; cbn [spec_action].
  - exists d. split; [auto|]. split; [|auto]. destruct HR as [R1 R2 R3 R4 R5]. constructor; auto.
  - destruct (vmap_drive _ _ set_on _ 14 _ d _ E2 LL LV) as [d' (X1&X2&X3&X4&X5&X6)].
    exists d'. split; [auto|]. split; [eapply RD_same; eauto | auto].
  - destruct (vmap_drive _ _ set_off _ 14 _ d _ E2 LL LV) as [d' (X1&X2&X3&X4&X5&X6)].
    exists d'. split; [auto|]. split; [eapply RD_same; eauto | auto].
  - destruct (vmap_drive _ _ HT _ 14 _ d _ E2 LL LV) as [d1 (X1&X2&X3&X4&X5&X6)].
    unfold vmap. rewrite X1. cbn [bind].
    destruct (drive opposite (own s v) (lev s)) as [lv1 e1]. cbn [fst snd] in *.
    destruct (vmap_drive _ _ HT (own s v) 14 (v_phys e) (emit EvPulseShort d1) lv1)
      as [d' (Y1&Y2&Y3&Y4&Y5&Y6)]; auto.
    { cbn. eapply chain_same_next; eauto. }
    rewrite Y1. destruct (drive opposite (own s v) lv1) as [lv2 e2]. cbn [fst snd] in *.
    exists d'. split; [auto|]. split.
    + eapply RD_same; eauto; cbn in *; try congruence.
    + rewrite Y6. cbn. rewrite X6, rev_app_distr. cbn. rewrite <- !app_assoc. auto.
  - destruct (vmap_drive _ _ HT _ 14 _ d _ E2 LL LV) as [d1 (X1&X2&X3&X4&X5&X6)].
    unfold vmap. rewrite X1. cbn [bind].
    destruct (drive opposite (own s v) (lev s)) as [lv1 e1]. cbn [fst snd] in *.
    destruct (vmap_drive _ _ HT (own s v) 14 (v_phys e) (emit EvPulseLong d1) lv1)
      as [d' (Y1&Y2&Y3&Y4&Y5&Y6)]; auto.
    { cbn. eapply chain_same_next; eauto. }
    rewrite Y1. destruct (drive opposite (own s v) lv1) as [lv2 e2]. cbn [fst snd] in *.
    exists d'. split; [auto|]. split.
    + eapply RD_same; eauto; cbn in *; try congruence.
    + rewrite Y6. cbn. rewrite X6, rev_app_distr. cbn. rewrite <- !app_assoc. auto.
  - destruct (vmap_drive _ _ HT _ 14 _ d _ E2 LL LV) as [d' (X1&X2&X3&X4&X5&X6)].
    exists d'. split; [auto|]. split; [eapply RD_same; eauto | auto].
Qed.

(** ** Assignment *)
Lemma is_free_iff : forall s p, is_free s p = true <-> ~ In p (ownl s).
Proof.
  intros. unfold is_free, ownl. rewrite forallb_forall. split.
  - intros H HI. apply in_concat in HI. destruct HI as [l [H1 H2]]. apply in_map_iff in H1.
    destruct H1 as [v [<- Hv]]. specialize (H v Hv). apply negb_true_iff in H.
    assert (existsb (Nat.eqb p) (own s v) = true); [|congruence].
    apply existsb_exists. exists p. split; auto. apply Nat.eqb_refl.
  - intros H v Hv. apply negb_true_iff. destruct (existsb (Nat.eqb p) (own s v)) eqn:E; auto.
    exfalso. apply H. apply existsb_exists in E. destruct E as [x [Hx Ex]].
    apply Nat.eqb_eq in Ex. subst. apply in_concat. exists (own s v). split; auto. apply in_map; auto.
Qed.

Lemma concat_set_at : forall (o : nat -> list nat) v p l, NoDup l -> In v l ->
  Permutation (concat (map (set_at o v (p :: o v)) l)) (p :: concat (map o l)).
Proof.
  induction l; intros ND HI; [destruct HI|]. inv ND. cbn. unfold set_at at 1.
  destruct (Nat.eqb_spec a v).
  - subst. cbn. constructor. apply Permutation_app_head.
    replace (map (set_at o v (p :: o v)) l) with (map o l); auto.
    apply map_ext_in. intros x Hx. unfold set_at. destruct (Nat.eqb_spec x v); auto. subst; tauto.
  - destruct HI; [tauto|]. rewrite IHl by auto. rewrite <- Permutation_middle. auto.
Qed.

Lemma assign_refines : forall v p f i s d, RD s d ->
  exists d', virtual_assign v p f i d = Ok d' /\
    RD (fst (vspec_step (VAssign v p f i) s)) d' /\ log d' = log d.
Proof.
  intros v p f i s d HR. cbn [vspec_step fst].
  unfold virtual_assign, valid_virtual, is_virtual, V_NULL, num_virt.
  replace ((0 <? v) && (v <? 12)) with ((1 <=? v) && (v <=? 11)) by lia.
  destruct ((1 <=? v) && (v <=? 11)) eqn:EV; cbn [andb]; [|exists d; auto].
  assert (Hv : v < 12) by lia.
  destruct (rd_virt _ _ HR v Hv) as [e (E1&E2&E3)].
  rewrite (proj2 (lget_ok _ _ _ _ _) E1). cbn [bind].
  destruct (rd_free _ _ HR) as (fl&p0&F1&F2&F3).
  assert (HN : NoDup (fl ++ ownl s)).
  { eapply Permutation_NoDup; [apply Permutation_sym; eauto|]. apply seq_NoDup. }
  assert (HFL : length fl <= 12).
  { apply Permutation_length in F3. rewrite app_length, seq_length in F3. lia. }
  unfold physical_allocate, device_is_available, next_device.
  rewrite (proj2 (lget_ok _ _ _ _ _) F1). cbn [bind].
  unfold valid_physical, is_physical, NO_OUT.
  replace ((0 <? p) && (p <? num_phys)) with ((1 <=? p) && (p <=? 12)) by (unfold num_phys; lia).
  destruct (in_dec Nat.eq_dec p fl) as [HI|HI].
  - (* free *)
    assert (HP : 1 <= p <= 12).
    { assert (In p (seq 1 12)) by (eapply Permutation_in; [eauto | apply in_or_app; auto]).
      apply in_seq in H. lia. }
    replace ((1 <=? p) && (p <=? 12)) with true by lia.
    assert (HF : is_free s p = true).
    { apply is_free_iff. intros HO. clear - HN HI HO. induction fl; cbn in *; [tauto|].
      inv HN. destruct HI; [subst; apply H1; apply in_or_app; auto | auto]. }
    rewrite HF. cbn [andb].
    destruct (in_split _ _ HI) as (a&b&->).
    assert (HNA : ~ In p a).
    { rewrite <- app_assoc in HN. cbn in HN. apply NoDup_remove_2 in HN. intros X. apply HN.
      apply in_or_app; auto. }
    assert (H0fl : ~ In 0 (a ++ p :: b)).
    { intros X. assert (In 0 (seq 1 12)) by (eapply Permutation_in; [eauto| apply in_or_app; auto]).
      apply in_seq in H. lia. }
    assert (HNF : NoDup (0 :: a ++ p :: b)).
    { constructor; auto. apply NoDup_app_remove_r in HN; auto. }
    rewrite (avail_found a 14 d 0 (p_next p0) p b)
      by (auto; rewrite app_length in HFL; cbn in HFL; lia).
    cbn [bind].
    assert (HLa : last a 0 < 13).
    { destruct a as [|x a']; [cbn; lia|]. assert (In (last (x :: a') 0) (x :: a')).
      { destruct (exists_last (l := x :: a')) as [l' [z ->]]; [discriminate|].
        rewrite last_last. apply in_or_app; right; left; auto. }
      assert (In (last (x :: a') 0) (seq 1 12)).
      { eapply Permutation_in; [eauto|]. apply in_or_app; left; apply in_or_app; auto. }
      apply in_seq in H0. lia. }
    unfold num_phys at 1. destruct (Nat.eqb_spec 13 (last a 0)); [lia|]. cbn [negb andb].
    rewrite <- (rd_plen _ _ HR) in HLa.
    assert (Hp13 : p < length (ptab d)) by (rewrite (rd_plen _ _ HR); lia).
    destruct (nth_error_ex _ _ _ Hp13) as [po Hpo].
    destruct (nth_error_ex _ _ _ HLa) as [pr Hpr].
    rewrite (proj2 (lget_ok _ _ _ _ _) Hpo). cbn [bind].
    rewrite (proj2 (lget_ok _ _ _ _ _) Hpr). cbn [bind].
    rewrite lset_ok by auto. cbn [bind]. rewrite lset_ok by (rewrite upd_length; auto). cbn [bind].
    cbn [vtab]. rewrite lset_ok by (rewrite (rd_vlen _ _ HR); auto). cbn [bind ptab log].
    eexists. split; [reflexivity|]. split; [|reflexivity].
    destruct (unlink a (ptab d) 0 p0 p po b F1 F2 HNF Hpo (last a 0) (p_shadow pr) eq_refl)
      as [p0' [U1 U2]].
    set (pt1 := upd (ptab d) (last a 0) (mkPdev (p_shadow pr) (p_next po))) in *.
    assert (HLp : last a 0 <> p).
    { intros X. destruct a as [|x a']; [cbn in X; lia|]. apply HNA. rewrite <- X.
      destruct (exists_last (l := x :: a')) as [l' [z ->]]; [discriminate|].
      rewrite last_last. apply in_or_app; right; left; auto. }
    assert (HPab : ~ In p (a ++ b)).
    { rewrite <- app_assoc in HN. cbn in HN. apply NoDup_remove_2 in HN. intros X. apply HN.
      rewrite app_assoc. apply in_or_app; auto. }
    assert (HOut : forall w, w < 12 -> ~ In p (own s w) /\ ~ In (last a 0) (own s w)).
    { intros w Hw.
      assert (HO : forall x, In x (own s w) -> In x (ownl s)).
      { intros x Hx. unfold ownl. apply in_concat. exists (own s w). split; auto.
        apply in_map. apply in_seq; lia. }
      split; intros X.
      - apply is_free_iff in HF. auto.
      - pose proof (own_facts _ _ _ HR Hw) as (_&FA&_). rewrite Forall_forall in FA.
        pose proof (FA _ X). destruct (last_in a 0) as [L|L]; [lia|].
        eapply NoDup_app_disjoint; [exact HN| |apply HO; exact X]. apply in_or_app; auto. }
    constructor; cbn [ptab vtab own fn lev].
    + rewrite upd_length. unfold pt1. rewrite upd_length. apply (rd_plen _ _ HR).
    + rewrite upd_length. apply (rd_vlen _ _ HR).
    + exists (a ++ b), p0'. repeat split.
      * rewrite nth_error_upd_other by lia. auto.
      * apply chain_frame; auto.
      * unfold ownl. cbn [own]. rewrite concat_set_at by (try apply seq_NoDup; apply in_seq; lia).
        rewrite <- F3. fold (ownl s). rewrite <- !app_assoc. cbn [app].
        apply Permutation_app_head. rewrite <- Permutation_middle. auto.
    + intros w Hw. unfold set_at. rewrite nth_error_upd. rewrite (rd_vlen _ _ HR).
      rewrite (Nat.eqb_sym w v). destruct (Nat.eqb_spec v w); cbn [andb].
      * subst w. replace (v <? 12) with true by lia. exists (mkVdev p f).
        split; [auto|]. split; [|auto].
        cbn [v_phys chain]. split; [auto|]. split; [lia|].
        exists (mkPdev i (v_phys e)). split.
        -- apply nth_error_upd_same. unfold pt1. rewrite upd_length; auto.
        -- cbn. destruct (HOut v Hv) as [O1 O2].
           apply chain_frame; auto. unfold pt1. apply chain_frame; auto.
      * destruct (rd_virt _ _ HR w Hw) as [e' (G1&G2&G3)]. exists e'.
        split; [auto|]. split; [|auto]. destruct (HOut w Hw) as [O1 O2].
        apply chain_frame; auto. unfold pt1. apply chain_frame; auto.
    + intros j q Hq. unfold set_at. rewrite nth_error_upd in Hq. rewrite (Nat.eqb_sym j p).
      destruct (Nat.eqb_spec p j); cbn [andb] in Hq.
      * subst j. unfold pt1 in Hq. rewrite upd_length in Hq.
        destruct (Nat.ltb_spec p (length (ptab d))); [|lia]. inv Hq. auto.
      * unfold pt1 in Hq. rewrite nth_error_upd in Hq.
        destruct (Nat.eqb_spec (last a 0) j); cbn [andb] in Hq.
        -- subst j. destruct (Nat.ltb_spec (last a 0) (length (ptab d))); [|lia]. inv Hq.
           cbn. apply (rd_lev _ _ HR); auto.
        -- apply (rd_lev _ _ HR); auto.
  - (* not free *)
    assert (HF : is_physical p && is_free s p = false).
    { destruct (is_physical p) eqn:EP; auto. unfold is_physical in EP. cbn [andb].
      destruct (is_free s p) eqn:EF; auto. exfalso. apply is_free_iff in EF.
      assert (In p (fl ++ ownl s)).
      { eapply Permutation_in; [apply Permutation_sym; eauto|]. apply in_seq. lia. }
      apply in_app_or in H. tauto. }
    unfold is_physical in HF. rewrite HF.
    rewrite (avail_not_found fl 14 d 0 (p_next p0) p) by (auto; lia). cbn [bind].
    rewrite Nat.eqb_refl, andb_false_r. cbn [bind]. eexists; split; [reflexivity|]. auto.
Qed.

(** ** Synchronisation *)
Lemma assert_ok : forall i d p, nth_error (ptab d) i = Some p ->
  physical_assert i d = Ok (mkDevs (ptab d) (vtab d) (EvOut i (p_shadow p) :: log d)).
Proof. intros. unfold physical_assert. rewrite (proj2 (lget_ok _ _ _ _ _) H). auto. Qed.

Lemma sync_loop : forall l d lv, levels_ok d lv -> (forall i, In i l -> i < length (ptab d)) ->
  fold_left (fun acc i => d <- acc ;; physical_assert i d) l (Ok d) =
  Ok (mkDevs (ptab d) (vtab d) (rev (map (fun p => EvOut p (lv p)) l) ++ log d)).
Proof.
  induction l; intros d lv HV HI.
  - cbn. destruct d; auto.
  - cbn [fold_left bind]. destruct (nth_error_ex _ _ _ (HI a (or_introl eq_refl))) as [p Hp].
    rewrite (assert_ok _ _ _ Hp). rewrite (IHl _ lv); auto.
    + cbn. rewrite (HV _ _ Hp). rewrite <- app_assoc. auto.
    + intros i Hi. cbn. apply HI. right; auto.
Qed.

Lemma sync_refines : forall s d, RD s d ->
  exists d', virtual_sync d = Ok d' /\ RD s d' /\
    log d' = rev (map (fun p => EvOut p (lev s p)) (seq 0 13)) ++ log d.
Proof.
  intros s d HR. unfold virtual_sync. rewrite (sync_loop _ d (lev s)).
  - eexists. split; [reflexivity|]. split; auto.
    destruct HR as [H1 H2 H3 H4 H5]. constructor; auto.
  - intros i p Hp. apply (rd_lev _ _ HR); auto.
  - intros i Hi. apply in_seq in Hi. rewrite (rd_plen _ _ HR). unfold num_phys in Hi. lia.
Qed.

(** ** Runs *)
Lemma vstep_refines : forall o s d, RD s d -> vop_ok o ->
  exists d', vop_step o d = Ok d' /\ RD (fst (vspec_step o s)) d' /\
    log d' = rev (snd (vspec_step o s)) ++ log d.
Proof.
  intros o s d HR HO. destruct o; cbn [vop_step].
  - destruct (assign_refines v p f init s d HR) as [d' (A&B&C)]. exists d'. auto.
  - destruct (action_refines f s d v HR HO) as [d' (A&B&C)]. exists d'. cbn [vspec_step].
    destruct (spec_action f (own s v) (lev s)); auto.
  - cbn in HO. destruct (rd_virt _ _ HR v HO) as [e (E1&E2&E3)].
    unfold virtual_activate. rewrite (proj2 (lget_ok _ _ _ _ _) E1). cbn [bind]. rewrite E3.
    destruct (action_refines (fn s v) s d v HR HO) as [d' (A&B&C)]. exists d'. cbn [vspec_step].
    destruct (spec_action (fn s v) (own s v) (lev s)); auto.
  - apply sync_refines; auto.
Qed.

Lemma vrun_refines : forall ops s d, RD s d -> Forall vop_ok ops ->
  exists d', vop_run ops d = Ok d' /\ RD (fst (vspec_run ops s)) d' /\
    log d' = rev (snd (vspec_run ops s)) ++ log d.
Proof.
  induction ops; intros s d HR HO.
  - exists d. auto.
  - inv HO. destruct (vstep_refines a s d HR H1) as [d1 (A&B&C)].
    cbn [vop_run]. rewrite A. cbn [bind vspec_run].
    destruct (vspec_step a s) as [s1 e1]. cbn [fst snd] in *.
    destruct (IHops s1 d1 B H2) as [d2 (A2&B2&C2)]. exists d2.
    destruct (vspec_run ops s1) as [s2 e2]. cbn [fst snd] in *.
    split; [auto|]. split; [auto|]. rewrite C2, C, rev_app_distr, <- app_assoc. auto.
Qed.
