(** Refinement of the buffer module to bounded queues. *)
From Coq Require Import List NArith ZArith Arith Bool Lia.
From Coq Require Import ZifyBool ZifyNat ZifyN.
From Verif Require Import Base Lib Buffer BufferSpec.
Import ListNotations.
Local Open Scope Z_scope.
Local Open Scope outcome_scope.

(** Running a list of calls against the model. *)
Definition buf_step (op : bop) (b : bufs) : outcome (bres * bufs) :=
  match op with
  | BNew n => '(h, b1) <- buffer_new n b ;; Ok (RHandle h, b1)
  | BPut h c => b1 <- buffer_put h c b ;; Ok (RUnit, b1)
  | BGet h => '(c, b1) <- buffer_get h b ;; Ok (RCode c, b1)
  end.

Fixpoint buf_run (ops : list bop) (b : bufs) : outcome (list bres * bufs) :=
  match ops with
  | [] => Ok ([], b)
  | op :: t =>
      '(r, b1) <- buf_step op b ;;
      '(rs, b2) <- buf_run t b1 ;; Ok (r :: rs, b2)
  end.

(** ** Representation *)
Definition bufrep (p : list N) (base : Z) (f : fifo) (d : buffer) : Prop :=
  b_buf d = base /\ b_size d = f_cap f /\ 0 <= f_cap f /\
  b_count d = Z.of_nat (length (f_items f)) /\
  Z.of_nat (length (f_items f)) <= f_cap f /\
  (0 < f_cap f -> 0 <= b_tail d < f_cap f /\
                  b_head d = (b_tail d + b_count d) mod f_cap f) /\
  (forall k, (k < length (f_items f))%nat ->
     nth_error p (Z.to_nat (base + (b_tail d + Z.of_nat k) mod f_cap f)) =
     nth_error (f_items f) k).

Fixpoint bufsrep (p : list N) (base : Z) (l : list fifo) (ds : list buffer) : Prop :=
  match l with
  | [] => True
  | f :: l' =>
      match ds with
      | [] => False
      | d :: ds' => bufrep p base f d /\ bufsrep p (base + f_cap f) l' ds'
      end
  end.

Definition R (l : list fifo) (b : bufs) : Prop :=
  length (pool b) = 144%nat /\ length (buffers b) = 4%nat /\
  next_handle b = Z.of_nat (length l) /\ (length l <= 4)%nat /\
  pool_next b = used l /\ used l <= 144 /\
  bufsrep (pool b) 0 l (buffers b).

Definition caps_nonneg (l : list fifo) := Forall (fun f => 0 <= f_cap f) l.

Lemma bufsrep_caps : forall l p base ds, bufsrep p base l ds -> caps_nonneg l.
Proof.
  induction l; intros; [constructor|].
  destruct ds; simpl in H; [tauto|]. destruct H as [H1 H2].
  constructor; [apply H1 | eapply IHl; eauto].
Qed.

Lemma used_nonneg : forall l, caps_nonneg l -> 0 <= used l.
Proof. induction 1; simpl; lia. Qed.

Lemma bufsrep_lt : forall l p base ds, bufsrep p base l ds -> (length l <= length ds)%nat.
Proof.
  induction l; simpl; intros; [lia|]. destruct ds; [tauto|]. destruct H.
  apply IHl in H0. simpl; lia.
Qed.

Lemma bufrep_frame : forall p base f d i c,
  bufrep p base f d -> 0 <= base -> 0 <= i ->
  (i < base \/ base + f_cap f <= i) ->
  bufrep (upd p (Z.to_nat i) c) base f d.
Proof.
  intros p base f d i c (A1&A2&A3&A4&A5&A6&A7) Hb Hi Hd.
  unfold bufrep. repeat (split; [assumption|]).
  intros k Hk. rewrite nth_error_upd_other. apply A7; auto.
  assert (0 < f_cap f) by lia.
  pose proof (Z.mod_pos_bound (b_tail d + Z.of_nat k) (f_cap f) H). lia.
Qed.

Lemma bufsrep_frame : forall l p base ds i c,
  bufsrep p base l ds -> 0 <= base -> 0 <= i ->
  (i < base \/ base + used l <= i) ->
  bufsrep (upd p (Z.to_nat i) c) base l ds.
Proof.
  induction l; simpl; intros; auto. destruct ds; auto. destruct H as [HA HB].
  pose proof (bufsrep_caps _ _ _ _ HB) as HC. apply used_nonneg in HC.
  assert (0 <= f_cap a) by apply HA.
  split.
  - apply bufrep_frame; auto; lia.
  - apply IHl; auto; lia.
Qed.

(** Focus on the i-th buffer. *)
Lemma bufsrep_nth : forall l p base ds i f,
  bufsrep p base l ds -> nth_error l i = Some f ->
  exists d, nth_error ds i = Some d /\ bufrep p (base + used (firstn i l)) f d.
Proof.
  induction l; intros. destruct i; discriminate.
  destruct ds; simpl in H; [tauto|]. destruct H as [HA HB].
  destruct i; simpl in *.
  - inv H0. exists b; split; auto. replace (base + 0) with base by lia. auto.
  - destruct (IHl _ _ _ _ _ HB H0) as [d [H1 H2]]. exists d; split; auto.
    replace (base + (f_cap a + used (firstn i l))) with (base + f_cap a + used (firstn i l)) by lia.
    auto.
Qed.

(** Replace the i-th buffer, with the pool changed at one index inside it. *)
Lemma bufsrep_replace : forall l p base ds i f f' d' j c,
  bufsrep p base l ds -> 0 <= base -> nth_error l i = Some f ->
  f_cap f' = f_cap f ->
  base + used (firstn i l) <= j < base + used (firstn i l) + f_cap f ->
  bufrep (upd p (Z.to_nat j) c) (base + used (firstn i l)) f' d' ->
  bufsrep (upd p (Z.to_nat j) c) base (replace l i f') (upd ds i d').
Proof.
  induction l; intros p base ds i f f' d' j c HR Hb Hn Hc Hj Hrep.
  destruct i; discriminate.
  destruct ds; simpl in HR; [tauto|]. destruct HR as [HA HB].
  assert (0 <= f_cap a) by apply HA.
  pose proof (used_nonneg _ (bufsrep_caps _ _ _ _ HB)).
  destruct i; simpl in *.
  - inv Hn. split.
    + replace (base + 0) with base in Hrep by lia. auto.
    + rewrite Hc. apply bufsrep_frame; auto; lia.
  - assert (HU: 0 <= used (firstn i l)).
    { apply used_nonneg. unfold caps_nonneg. apply Forall_forall. intros x Hx.
      pose proof (bufsrep_caps _ _ _ _ HB) as HC. unfold caps_nonneg in HC.
      rewrite Forall_forall in HC. apply HC. rewrite <- (firstn_skipn i l).
      apply in_or_app; auto. }
    split.
    + apply bufrep_frame; auto; lia.
    + apply IHl with (f := f); auto; try lia.
      replace (base + f_cap a + used (firstn i l)) with (base + (f_cap a + used (firstn i l))) by lia.
      auto.
Qed.

Lemma bufsrep_replace_get : forall l p base ds i f f' d',
  bufsrep p base l ds -> nth_error l i = Some f ->
  f_cap f' = f_cap f ->
  bufrep p (base + used (firstn i l)) f' d' ->
  bufsrep p base (replace l i f') (upd ds i d').
Proof.
  induction l; intros p base ds i f f' d' HR Hn Hc Hrep.
  destruct i; discriminate.
  destruct ds; simpl in HR; [tauto|]. destruct HR as [HA HB].
  destruct i; simpl in *.
  - inv Hn. split.
    + replace (base + 0) with base in Hrep by lia. auto.
    + rewrite Hc. auto.
  - split; auto. eapply IHl; eauto.
    replace (base + f_cap a + used (firstn i l)) with (base + (f_cap a + used (firstn i l))) by lia.
    auto.
Qed.

Lemma replace_length : forall l i f, length (replace l i f) = length l.
Proof. induction l; destruct i; simpl; auto. Qed.

Lemma used_replace : forall l i f f', nth_error l i = Some f -> f_cap f' = f_cap f ->
  used (replace l i f') = used l.
Proof.
  induction l; destruct i; simpl; intros; try discriminate.
  - inv H. lia.
  - rewrite (IHl i f f'); auto.
Qed.

Lemma used_firstn : forall l i f, caps_nonneg l -> nth_error l i = Some f ->
  0 <= used (firstn i l) /\ used (firstn i l) + f_cap f <= used l.
Proof.
  induction l; destruct i; simpl; intros; try discriminate; inv H.
  - inv H0. pose proof (used_nonneg _ H4). lia.
  - destruct (IHl _ _ H4 H0). lia.
Qed.

Lemma used_app : forall l f, used (l ++ [f]) = used l + f_cap f.
Proof. induction l; simpl; intros; [lia|]. rewrite IHl; lia. Qed.

Lemma bufsrep_app : forall l p base ds f d,
  bufsrep p base l ds -> (length l < length ds)%nat ->
  bufrep p (base + used l) f d ->
  bufsrep p base (l ++ [f]) (upd ds (length l) d).
Proof.
  induction l; simpl; intros.
  - destruct ds; simpl in *; [lia|]. split; auto.
    replace (base + 0) with base in H1 by lia. auto.
  - destruct ds; [tauto|]. destruct H. simpl in *. split; auto.
    apply IHl; auto. lia.
    replace (base + f_cap a + used l) with (base + (f_cap a + used l)) by lia. auto.
Qed.

Lemma advance_ok : forall x size, 0 < size <= 144 -> 0 <= x < size ->
  advance x size = Ok ((x + 1) mod size).
Proof.
  intros. unfold advance. destruct (Z.eqb_spec size 0); [lia|].
  rewrite Z.rem_mod_nonneg by lia.
  pose proof (Z.mod_pos_bound (x + 1) size). rewrite (Z.mod_small _ 256) by lia. auto.
Qed.

Lemma zset_ok : forall A u (l : list A) i x, 0 <= i < Z.of_nat (length l) ->
  zset u l i x = Ok (upd l (Z.to_nat i) x).
Proof.
  intros. unfold zset. destruct (Z.ltb_spec i 0); [lia|]. apply lset_ok. lia.
Qed.
Lemma zget_some : forall A u (l : list A) i x, 0 <= i -> nth_error l (Z.to_nat i) = Some x ->
  zget u l i = Ok x.
Proof.
  intros. unfold zget. destruct (Z.ltb_spec i 0); [lia|]. apply lget_ok. auto.
Qed.

Lemma find_handle : forall l b h, R l b ->
  match find l h with
  | Some (i, f) => handle_valid h b = true /\ i = Z.to_nat h /\ 0 <= h /\ nth_error l i = Some f
  | None => handle_valid h b = false
  end.
Proof.
  intros l b h (HP&HB&HN&HL&HU&HU2&HR). unfold find, handle_valid.
  destruct (Z.ltb_spec h 0).
  - destruct (Z.leb_spec 0 h); auto; lia.
  - destruct (nth_error l (Z.to_nat h)) eqn:E.
    + pose proof (nth_error_Some_lt _ _ _ _ E).
      split; [|repeat split; auto; lia]. rewrite HN. apply andb_true_iff; split; lia.
    + apply nth_error_None in E. rewrite HN. apply andb_false_iff. right; lia.
Qed.

Lemma mod_shift : forall t n cap, 0 < cap -> 0 <= t < cap -> 0 <= n ->
  ((t + n) mod cap + 1) mod cap = (t + (n + 1)) mod cap.
Proof.
  intros. rewrite Zplus_mod_idemp_l. f_equal; lia.
Qed.

Lemma step_refines : forall op l b,
  R l b -> sane op ->
  exists b', buf_step op b = Ok (fst (spec_step op l), b') /\ R (snd (spec_step op l)) b'.
Proof.
  intros op l b HRR Hs. pose proof HRR as (HP&HB&HN&HL&HU&HU2&HR).
  pose proof (bufsrep_caps _ _ _ _ HR) as HC. pose proof (used_nonneg _ HC) as HUN.
  destruct op; cbn [buf_step spec_step sane] in *.
  - (* new *)
    unfold buffer_new, num_handles, total_room, max_buffers, pool_size. rewrite HN, HU.
    destruct (Z.ltb_spec (Z.of_nat (length l)) 4); destruct (Nat.ltb_spec (length l) 4); try lia; cbn [andb bind].
    2: { eexists; split; [reflexivity|]. auto. }
    unfold int16, int16_ok.
    replace ((-32768 <=? 144 - used l) && (144 - used l <=? 32767)) with true by lia.
    cbn [bind].
    destruct (Z.leb_spec size (144 - used l)); destruct (Z.leb_spec (used l + size) 144); try lia.
    2: { eexists; split; [reflexivity|]. auto. }
    replace ((used l <? 0) || (144 <? used l)) with false by lia.
    rewrite zset_ok by lia. cbn [bind].
    replace ((-32768 <=? used l + size) && (used l + size <=? 32767)) with true by lia.
    cbn [bind fst snd]. eexists; split; [reflexivity|].
    unfold R. cbn [pool buffers next_handle pool_next]. rewrite app_length, used_app, upd_length. cbn [length f_cap].
    repeat split; auto; try lia.
    rewrite Nat2Z.id. apply bufsrep_app; auto; try lia.
    unfold bufrep. cbn. repeat split; auto; try lia.
  - (* put *)
    pose proof (find_handle l b h HRR) as HF.
    unfold buffer_put. destruct (find l h) as [[i f]|].
    2: { rewrite HF. cbn [bind fst snd]. eexists; split; [reflexivity|]; auto. }
    destruct HF as (HV&->&Hh&Hn). rewrite HV.
    destruct (bufsrep_nth _ _ _ _ _ _ HR Hn) as [d [Hd Hrep]].
    destruct (used_firstn _ _ _ HC Hn) as [HU3 HU4].
    rewrite (zget_some _ _ _ _ _ Hh Hd). cbn [bind].
    pose proof Hrep as (A1&A2&A3&A4&A5&A6&A7). cbn [Z.add] in *.
    rewrite A4, A2.
    destruct (Z.ltb_spec (Z.of_nat (length (f_items f))) (f_cap f)).
    2: { cbn [bind fst snd]. eexists; split; [reflexivity|]; auto. }
    destruct A6 as [At Ah]; [lia|].
    set (n := Z.of_nat (length (f_items f))) in *.
    pose proof (Z.mod_pos_bound (b_tail d + b_count d) (f_cap f)).
    rewrite zset_ok by (rewrite HP, A1; lia). cbn [bind].
    rewrite advance_ok by lia. cbn [bind].
    pose proof (nth_error_Some_lt _ _ _ _ Hd).
    rewrite zset_ok by lia. cbn [bind fst snd].
    eexists; split; [reflexivity|].
    unfold R. cbn [pool buffers next_handle pool_next].
    rewrite replace_length, !upd_length.
    rewrite (used_replace _ _ f) by auto.
    repeat split; auto.
    rewrite A1. eapply bufsrep_replace with (f := f); auto; try lia.
    unfold bufrep. cbn [b_buf b_size b_head b_tail b_count f_cap f_items].
    rewrite app_length. cbn [length].
    repeat split; auto; try lia.
    + rewrite Ah, A4. rewrite (Z.mod_small (n + 1) 256) by lia.
      apply mod_shift; lia.
    + intros k Hk. destruct (Nat.eq_dec k (length (f_items f))).
      * subst k. fold n. rewrite nth_error_app2, Nat.sub_diag by lia. cbn [nth_error].
        rewrite Ah, A4. apply nth_error_upd_same. rewrite HP.
        rewrite A4 in H0. lia.
      * rewrite nth_error_app1 by lia. rewrite nth_error_upd_other.
        apply A7; lia.
        rewrite Ah, A4.
        pose proof (Z.mod_pos_bound (b_tail d + Z.of_nat k) (f_cap f)).
        rewrite A4 in H0.
        intro E. apply Z2Nat.inj in E; try lia.
        assert (E2 : (b_tail d + n) mod f_cap f = (b_tail d + Z.of_nat k) mod f_cap f) by lia.
        assert (Hm : (n - Z.of_nat k) mod f_cap f = 0).
        { replace (n - Z.of_nat k) with ((b_tail d + n) - (b_tail d + Z.of_nat k)) by lia.
          rewrite Zminus_mod, E2, Z.sub_diag. apply Z.mod_0_l. lia. }
        rewrite Z.mod_small in Hm by lia. lia.
  - (* get *)
    pose proof (find_handle l b h HRR) as HF.
    unfold buffer_get. destruct (find l h) as [[i f]|].
    2: { rewrite HF. cbn [bind fst snd]. eexists; split; [reflexivity|]; auto. }
    destruct HF as (HV&->&Hh&Hn). rewrite HV.
    destruct (bufsrep_nth _ _ _ _ _ _ HR Hn) as [d [Hd Hrep]].
    destruct (used_firstn _ _ _ HC Hn) as [HU3 HU4].
    rewrite (zget_some _ _ _ _ _ Hh Hd). cbn [bind].
    pose proof Hrep as (A1&A2&A3&A4&A5&A6&A7). cbn [Z.add] in *.
    rewrite A4.
    destruct (f_items f) as [|c q] eqn:Eq; cbn [length] in *.
    { cbn [Z.of_nat Z.eqb bind fst snd]. eexists; split; [reflexivity|]; auto. }
    destruct (Z.eqb_spec (Z.of_nat (S (length q))) 0); [lia|].
    destruct A6 as [At Ah]; [lia|].
    pose proof (A7 0%nat ltac:(lia)) as H0. cbn [nth_error] in H0.
    replace (b_tail d + Z.of_nat 0) with (b_tail d) in H0 by lia.
    rewrite Z.mod_small in H0 by lia.
    rewrite A1. rewrite (zget_some _ _ _ _ c) by (auto; lia). cbn [bind].
    rewrite A2, advance_ok by lia. cbn [bind].
    pose proof (nth_error_Some_lt _ _ _ _ Hd).
    rewrite zset_ok by lia. cbn [bind fst snd].
    eexists; split; [reflexivity|].
    unfold R. cbn [pool buffers next_handle pool_next].
    rewrite replace_length, !upd_length.
    rewrite (used_replace _ _ f) by auto.
    repeat split; auto.
    eapply bufsrep_replace_get with (f := f); auto; try lia.
    unfold bufrep. cbn [b_buf b_size b_head b_tail b_count f_cap f_items].
    pose proof (Z.mod_pos_bound (b_tail d + 1) (f_cap f)).
    rewrite (Z.mod_small (_ - 1) 256) by lia.
    repeat split; auto; try lia.
    + rewrite Ah, A4. rewrite Zplus_mod_idemp_l. f_equal. lia.
    + intros k Hk. specialize (A7 (S k) ltac:(lia)). cbn [nth_error] in A7.
      rewrite <- A7. rewrite Zplus_mod_idemp_l. replace (b_tail d + 1 + Z.of_nat k) with (b_tail d + Z.of_nat (S k)) by lia. reflexivity.
Qed.

Lemma run_refines : forall ops l b,
  R l b -> Forall sane ops ->
  exists b', buf_run ops b = Ok (fst (spec_run ops l), b') /\ R (snd (spec_run ops l)) b'.
Proof.
  induction ops; intros l b HR HS.
  - exists b; auto.
  - inv HS. destruct (step_refines a l b HR H1) as [b1 [E1 R1]].
    cbn [buf_run spec_run]. rewrite E1. destruct (spec_step a l) as [r l1]. cbn [fst snd bind] in *.
    destruct (IHops l1 b1 R1 H2) as [b2 [E2 R2]]. rewrite E2.
    destruct (spec_run ops l1). cbn [bind fst snd] in *. eauto.
Qed.

Definition wf_storage (b : bufs) : Prop := length (pool b) = 144%nat /\ length (buffers b) = 4%nat.

Lemma R_init : forall b, wf_storage b -> R [] (buffer_init b).
Proof. intros b [H1 H2]. unfold R, buffer_init; cbn. repeat split; auto; lia. Qed.

(** ** Corollaries about observations *)

(** What a client sees when it makes the calls [ops] after initialisation of
    storage [b]; [None] if the calls run into undefined behaviour. *)
Definition observe (b : bufs) (ops : list bop) : option (list bres) :=
  match buf_run ops (buffer_init b) with Ok (rs, _) => Some rs | Bad _ => None end.

Lemma observe_spec : forall b ops, wf_storage b -> Forall sane ops ->
  observe b ops = Some (fst (spec_run ops [])).
Proof.
  intros. unfold observe.
  destruct (run_refines ops [] _ (R_init b H) H0) as [b' [E _]]. rewrite E. auto.
Qed.

Lemma spec_run_app : forall o1 o2 l,
  spec_run (o1 ++ o2) l =
  (fst (spec_run o1 l) ++ fst (spec_run o2 (snd (spec_run o1 l))),
   snd (spec_run o2 (snd (spec_run o1 l)))).
Proof.
  induction o1; intros; cbn [app spec_run].
  - cbn [fst snd app]. destruct (spec_run o2 l); auto.
  - destruct (spec_step a l) as [r l1]. rewrite IHo1. destruct (spec_run o1 l1). cbn [fst snd]. auto.
Qed.

Definition contents (l : list fifo) (h : Z) : list N :=
  match find l h with Some (_, f) => f_items f | None => [] end.

Lemma nth_error_replace : forall l i j f,
  nth_error (replace l i f) j =
  if (i =? j)%nat && (i <? length l)%nat then Some f else nth_error l j.
Proof.
  induction l; intros.
  - destruct i; destruct j; simpl; auto; rewrite andb_false_r; auto.
  - destruct i; destruct j; simpl; auto. rewrite IHl. auto.
Qed.

Lemma contents_replace_other : forall l i f h,
  Z.to_nat h <> i -> contents (replace l i f) h = contents l h.
Proof.
  intros. unfold contents, find. destruct (h <? 0); auto.
  rewrite nth_error_replace. destruct (Nat.eqb_spec i (Z.to_nat h)); [congruence|]. auto.
Qed.

Lemma contents_replace_same : forall l f h g,
  find l h = Some (Z.to_nat h, g) -> contents (replace l (Z.to_nat h) f) h = f_items f.
Proof.
  intros. unfold contents, find in *. destruct (h <? 0); [discriminate|].
  destruct (nth_error l (Z.to_nat h)) eqn:E; [|discriminate].
  rewrite nth_error_replace, Nat.eqb_refl.
  apply nth_error_Some_lt in E. destruct (Nat.ltb_spec (Z.to_nat h) (length l)); [auto|lia].
Qed.

Lemma contents_app_empty : forall l n h, contents (l ++ [mkFifo n []]) h = contents l h.
Proof.
  intros. unfold contents, find. destruct (h <? 0); auto.
  destruct (Nat.ltb_spec (Z.to_nat h) (length l)).
  - rewrite nth_error_app1 by auto. auto.
  - rewrite nth_error_app2 by auto.
    rewrite (proj2 (nth_error_None l (Z.to_nat h))) by auto.
    destruct (Z.to_nat h - length l)%nat; simpl; auto. destruct n0; simpl; auto.
Qed.

Lemma find_index : forall l h i f, find l h = Some (i, f) -> i = Z.to_nat h /\ 0 <= h.
Proof.
  unfold find; intros. destruct (Z.ltb_spec h 0); [discriminate|].
  destruct (nth_error l (Z.to_nat h)); inv H; auto.
Qed.

Definition not_on (h : Z) (o : bop) : Prop :=
  match o with BNew _ => True | BPut h' _ => h' <> h | BGet h' => h' <> h end.

Lemma contents_other : forall o l h,
  not_on h o -> contents (snd (spec_step o l)) h = contents l h.
Proof.
  destruct o; cbn [spec_step not_on]; intros.
  - destruct (_ && _); cbn [snd]; auto. apply contents_app_empty.
  - destruct (find l h) as [[i f]|] eqn:E; auto. apply find_index in E. destruct E; subst.
    destruct (_ <? _); cbn [snd]; auto.
    destruct (Z.ltb_spec h0 0).
    + unfold contents, find. destruct (Z.ltb_spec h0 0); auto; lia.
    + apply contents_replace_other. lia.
  - destruct (find l h) as [[i f]|] eqn:E; auto. apply find_index in E. destruct E; subst.
    destruct (f_items f); cbn [snd]; auto.
    destruct (Z.ltb_spec h0 0).
    + unfold contents, find. destruct (Z.ltb_spec h0 0); auto; lia.
    + apply contents_replace_other. lia.
Qed.

Lemma drain_contents : forall n h l1 l2,
  contents l1 h = contents l2 h ->
  fst (spec_run (repeat (BGet h) n) l1) = fst (spec_run (repeat (BGet h) n) l2).
Proof.
  assert (step : forall l h, spec_step (BGet h) l =
     match contents l h with
     | [] => (RCode no_code, l)
     | c :: q => (RCode c, snd (spec_step (BGet h) l)) end /\
     contents (snd (spec_step (BGet h) l)) h = tl (contents l h)).
  { intros. cbn [spec_step]. unfold contents at 1 3. destruct (find l h) as [[i f]|] eqn:E.
    - pose proof (find_index _ _ _ _ E) as [-> ?].
      destruct (f_items f) eqn:Ef; cbn [snd].
      + split; auto. unfold contents. rewrite E. auto.
      + split; auto. rewrite (contents_replace_same _ _ _ _ E). auto.
    - split; auto. unfold contents. cbn [snd]. rewrite E. auto. }
  induction n; intros; auto.
  cbn [repeat spec_run].
  destruct (step l1 h) as [A1 B1]. destruct (step l2 h) as [A2 B2].
  specialize (IHn h (snd (spec_step (BGet h) l1)) (snd (spec_step (BGet h) l2))
                  ltac:(congruence)).
  destruct (spec_step (BGet h) l1) as [r1 m1]. destruct (spec_step (BGet h) l2) as [r2 m2].
  cbn [snd] in *.
  assert (r1 = r2).
  { rewrite H in A1. destruct (contents l2 h); inv A1; inv A2; auto. }
  destruct (spec_run (repeat (BGet h) n) m1). destruct (spec_run (repeat (BGet h) n) m2).
  cbn [fst] in *. congruence.
Qed.

Lemma isolation : forall b ops o h n,
  wf_storage b -> Forall sane ops -> sane o -> not_on h o ->
  exists rs r ds,
    observe b ops = Some rs /\
    observe b (ops ++ repeat (BGet h) n) = Some (rs ++ ds) /\
    observe b (ops ++ o :: repeat (BGet h) n) = Some (rs ++ r :: ds).
Proof.
  intros b ops o h n Hb Ho Hso Hn.
  assert (HD : Forall sane (repeat (BGet h) n)).
  { apply Forall_forall. intros x Hx. apply repeat_spec in Hx; subst; simpl; auto. }
  rewrite !observe_spec; auto.
  2: { apply Forall_app; split; auto. }
  2: { apply Forall_app; split; auto. }
  rewrite !spec_run_app. cbn [fst].
  set (l := snd (spec_run ops [])).
  exists (fst (spec_run ops [])), (fst (spec_step o l)), (fst (spec_run (repeat (BGet h) n) l)).
  split; [auto|split; [auto|]].
  do 2 f_equal. cbn [spec_run].
  pose proof (contents_other o l h Hn) as HC.
  destruct (spec_step o l) as [r l1]. cbn [fst snd] in *.
  rewrite (drain_contents n h l l1) by congruence.
  destruct (spec_run (repeat (BGet h) n) l1); auto.
Qed.

(** Sizes of the requests that were granted, read off calls and answers. *)
Fixpoint granted (ops : list bop) (rs : list bres) : list Z :=
  match ops, rs with
  | BNew n :: ops', RHandle h :: rs' => if 0 <=? h then n :: granted ops' rs' else granted ops' rs'
  | _ :: ops', _ :: rs' => granted ops' rs'
  | _, _ => []
  end.

Definition total (l : list Z) : Z := fold_right Z.add 0 l.

Lemma caps_step_put_get : forall o l, (forall n, o <> BNew n) ->
  map f_cap (snd (spec_step o l)) = map f_cap l.
Proof.
  assert (HR : forall l i f g, nth_error l i = Some g -> f_cap f = f_cap g ->
     map f_cap (replace l i f) = map f_cap l).
  { induction l; destruct i; simpl; intros; try discriminate.
    - inv H. congruence.
    - f_equal. eapply IHl; eauto. }
  intros. destruct o; [exfalso; eapply H; eauto| |]; cbn [spec_step].
  - destruct (find l h) as [[i f]|] eqn:E; auto.
    destruct (_ <? _); cbn [snd]; auto.
    unfold find in E. destruct (h <? 0); [discriminate|].
    destruct (nth_error l (Z.to_nat h)) eqn:E2; inv E. eapply HR; eauto.
  - destruct (find l h) as [[i f]|] eqn:E; auto.
    destruct (f_items f); cbn [snd]; auto.
    unfold find in E. destruct (h <? 0); [discriminate|].
    destruct (nth_error l (Z.to_nat h)) eqn:E2; inv E. eapply HR; eauto.
Qed.

Lemma granted_spec : forall ops l,
  map f_cap (snd (spec_run ops l)) = map f_cap l ++ granted ops (fst (spec_run ops l)).
Proof.
  induction ops; intros; cbn [spec_run].
  - cbn. rewrite app_nil_r; auto.
  - pose proof (caps_step_put_get a l).
    pose proof (IHops (snd (spec_step a l))).
    destruct a; cbn [spec_step] in *.
    + destruct (_ && _); cbn [fst snd] in *.
      * destruct (spec_run ops (l ++ [mkFifo size []])). cbn [fst snd granted] in *.
        rewrite H0. rewrite map_app, <- app_assoc.
        replace (0 <=? Z.of_nat (length l)) with true by lia. auto.
      * destruct (spec_run ops l). cbn [fst snd granted] in *. rewrite H0. auto.
    + specialize (H ltac:(congruence)).
      destruct (find l h) as [[i f]|]; [destruct (_ <? _)|]; cbn [fst snd] in *;
      match goal with |- context[spec_run ops ?x] => destruct (spec_run ops x) end; cbn [fst snd granted] in *;
      rewrite H0; f_equal; auto.
    + specialize (H ltac:(congruence)).
      destruct (find l h) as [[i f]|]; [destruct (f_items f)|]; cbn [fst snd] in *;
      match goal with |- context[spec_run ops ?x] => destruct (spec_run ops x) end; cbn [fst snd granted] in *;
      rewrite H0; f_equal; auto.
Qed.

Lemma used_total : forall l, used l = total (map f_cap l).
Proof. induction l; simpl; auto. rewrite IHl; auto. Qed.

Lemma allocation : forall b ops n,
  wf_storage b -> Forall sane ops -> 0 <= n ->
  exists rs h,
    observe b ops = Some rs /\
    observe b (ops ++ [BNew n]) = Some (rs ++ [RHandle h]) /\
    let sizes := granted ops rs in
    if (length sizes <? 4)%nat && (total sizes + n <=? 144)
    then h = Z.of_nat (length sizes) else h = -1.
Proof.
  intros b ops n Hb Ho Hn.
  rewrite !observe_spec; auto.
  2: { apply Forall_app; split; auto. }
  rewrite spec_run_app. cbn [fst spec_run spec_step].
  pose proof (granted_spec ops []) as HG. cbn [map app] in HG.
  set (l := snd (spec_run ops [])) in *.
  exists (fst (spec_run ops [])).
  assert (HL : length l = length (granted ops (fst (spec_run ops [])))).
  { rewrite <- HG, map_length; auto. }
  rewrite used_total, HG, HL. cbv zeta. unfold max_buffers, total_room.
  destruct (_ && _); cbn [fst]; eexists; split; [reflexivity|split;[reflexivity|]| reflexivity | split;[reflexivity|]]; auto.
Qed.
