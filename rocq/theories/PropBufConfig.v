(** The buffer module for every size of the pool, number of buffers and size of
    each buffer (C148). *)
From Coq Require Import List NArith ZArith Arith Bool Lia.
From Coq Require Import ZifyBool ZifyNat ZifyN.
From Verif Require Import Base Lib Buffer BufferSpec BufferProofs.
Import ListNotations.
Local Open Scope Z_scope.
Local Open Scope outcome_scope.

(** ** Model *)
(** asdf_buffer.c 57-67 with ASDF_BUFFER_POOL_SIZE = [P] (asdf_config.h 57) and
    ASDF_BUFFER_NUM_HANDLES = [K] (asdf_buffer.h 38): static storage, all zero. *)
Definition cb_zero (P K : Z) : bufs := mkBufs (repeat 0%N (Z.to_nat P)) (repeat (mkBuffer 0 0 0 0 0) (Z.to_nat K)) 0 0.
(** asdf_buffer.c 126-144; the other functions (165-202) do not mention the two
    settings and are those of Buffer.v.  next_handle is an int8_t, so the model is
    for K <= 127. *)
Definition cb_new (P K : Z) (size : Z) (b : bufs) : outcome (Z * bufs) :=
  if next_handle b <? K then
    room <- int16 (P - pool_next b) ;;
    if size <=? room then
      let handle := next_handle b in
      if (pool_next b <? 0) || (P <? pool_next b) then Bad UBufOob else
      bs <- zset UBufOob (buffers b) handle (mkBuffer (pool_next b) size 0 0 0) ;;
      nxt <- int16 (pool_next b + size) ;;
      Ok (handle, mkBufs (pool b) bs nxt (handle + 1))
    else Ok (BUFFER_INVALID, b)
  else Ok (BUFFER_INVALID, b).
(** asdf_buffer.c 126-202: one call, a list of calls. *)
Definition cb_step (P K : Z) (op : bop) (b : bufs) : outcome (bres * bufs) :=
  match op with
  | BNew n => '(h, b1) <- cb_new P K n b ;; Ok (RHandle h, b1)
  | BPut h c => b1 <- buffer_put h c b ;; Ok (RUnit, b1)
  | BGet h => '(c, b1) <- buffer_get h b ;; Ok (RCode c, b1)
  end.
Fixpoint cb_run (P K : Z) (ops : list bop) (b : bufs) : outcome (list bres) :=
  match ops with
  | [] => Ok []
  | op :: t => '(r, b1) <- cb_step P K op b ;; rs <- cb_run P K t b1 ;; Ok (r :: rs)
  end.

(** ** Specification: queues by position.  The 256th code waiting empties its
    queue. *)
Definition c_step (P K : Z) (op : bop) (l : list fifo) : bres * list fifo :=
  match op with
  | BNew n =>
      if (Z.of_nat (length l) <? K) && (used l + n <=? P) then (RHandle (Z.of_nat (length l)), l ++ [mkFifo n []]) else (RHandle (-1), l)
  | BPut h c =>
      match find l h with
      | Some (i, f) =>
          let q := f_items f ++ [c] in
          if Z.of_nat (length (f_items f)) <? f_cap f
          then (RUnit, replace l i (mkFifo (f_cap f) (if (length q =? 256)%nat then [] else q)))
          else (RUnit, l)
      | None => (RUnit, l)
      end
  | BGet h => spec_step (BGet h) l
  end.
Fixpoint c_answers (P K : Z) (ops : list bop) (l : list fifo) : list bres :=
  match ops with
  | [] => []
  | op :: t => let '(r, l1) := c_step P K op l in r :: c_answers P K t l1
  end.
(** Bounded queues as in C01, for the two settings: no code is lost. *)
Definition q_step (P K : Z) (op : bop) (l : list fifo) : bres * list fifo :=
  match op with
  | BNew n =>
      if (Z.of_nat (length l) <? K) && (used l + n <=? P) then (RHandle (Z.of_nat (length l)), l ++ [mkFifo n []]) else (RHandle (-1), l)
  | _ => spec_step op l
  end.
Fixpoint q_answers (P K : Z) (ops : list bop) (l : list fifo) : list bres :=
  match ops with
  | [] => []
  | op :: t => let '(r, l1) := q_step P K op l in r :: q_answers P K t l1
  end.
(** Requests of at most 255 places. *)
Definition modest (op : bop) : Prop := match op with BNew n => 0 <= n <= 255 | _ => True end.

(** ** Proofs *)
Definition ring (f : fifo) : Z := Z.min (f_cap f) 256.
Definition cbrep (p : list N) (base : Z) (f : fifo) (d : buffer) : Prop :=
  b_buf d = base /\ b_size d = f_cap f /\ 0 <= f_cap f /\
  b_count d = Z.of_nat (length (f_items f)) /\
  Z.of_nat (length (f_items f)) <= Z.min (f_cap f) 255 /\
  (0 < f_cap f -> 0 <= b_tail d < ring f /\ b_head d = (b_tail d + b_count d) mod ring f) /\
  (forall k, (k < length (f_items f))%nat ->
     nth_error p (Z.to_nat (base + (b_tail d + Z.of_nat k) mod ring f)) = nth_error (f_items f) k).
Fixpoint cbsrep (p : list N) (base : Z) (l : list fifo) (ds : list buffer) : Prop :=
  match l with
  | [] => True
  | f :: l' => match ds with [] => False | d :: ds' => cbrep p base f d /\ cbsrep p (base + f_cap f) l' ds' end
  end.
Lemma cbsrep_caps : forall l p base ds, cbsrep p base l ds -> caps_nonneg l.
Proof.
  induction l; intros; [constructor|]. destruct ds; simpl in H; [tauto|]. destruct H as [H1 H2].
  constructor; [apply H1 | eapply IHl; eauto].
Qed.
Lemma cbrep_frame : forall p base f d i c, cbrep p base f d -> 0 <= base -> 0 <= i -> (i < base \/ base + f_cap f <= i) ->
  cbrep (upd p (Z.to_nat i) c) base f d.
Proof.
  intros p base f d i c (A1&A2&A3&A4&A5&A6&A7) Hb Hi Hd. unfold cbrep. repeat (split; [assumption|]).
  intros k Hk. rewrite nth_error_upd_other; [apply A7; auto|]. unfold ring in *.
  assert (H : 0 < Z.min (f_cap f) 256) by lia. pose proof (Z.mod_pos_bound (b_tail d + Z.of_nat k) _ H). lia.
Qed.
Lemma cbsrep_frame : forall l p base ds i c, cbsrep p base l ds -> 0 <= base -> 0 <= i -> (i < base \/ base + used l <= i) ->
  cbsrep (upd p (Z.to_nat i) c) base l ds.
Proof.
  induction l; simpl; intros; auto. destruct ds; auto. destruct H as [HA HB].
  pose proof (cbsrep_caps _ _ _ _ HB) as HC. apply used_nonneg in HC. assert (0 <= f_cap a) by apply HA.
  split; [apply cbrep_frame; auto; lia|apply IHl; auto; lia].
Qed.
Lemma cbsrep_nth : forall l p base ds i f, cbsrep p base l ds -> nth_error l i = Some f ->
  exists d, nth_error ds i = Some d /\ cbrep p (base + used (firstn i l)) f d.
Proof.
  induction l; intros. destruct i; discriminate.
  destruct ds; simpl in H; [tauto|]. destruct H as [HA HB].
  destruct i; simpl in *.
  - inv H0. exists b; split; auto. replace (base + 0) with base by lia. auto.
  - destruct (IHl _ _ _ _ _ HB H0) as [d [H1 H2]]. exists d; split; auto.
    replace (base + (f_cap a + used (firstn i l))) with (base + f_cap a + used (firstn i l)) by lia. auto.
Qed.
Lemma cbsrep_replace : forall l p base ds i f f' d' j c, cbsrep p base l ds -> 0 <= base -> nth_error l i = Some f -> f_cap f' = f_cap f ->
  base + used (firstn i l) <= j < base + used (firstn i l) + f_cap f -> cbrep (upd p (Z.to_nat j) c) (base + used (firstn i l)) f' d' ->
  cbsrep (upd p (Z.to_nat j) c) base (replace l i f') (upd ds i d').
Proof.
  induction l; intros p base ds i f f' d' j c HR Hb Hn Hc Hj Hrep.
  destruct i; discriminate.
  destruct ds; simpl in HR; [tauto|]. destruct HR as [HA HB].
  assert (0 <= f_cap a) by apply HA.
  pose proof (used_nonneg _ (cbsrep_caps _ _ _ _ HB)).
  destruct i; simpl in *.
  - inv Hn. split.
    + replace (base + 0) with base in Hrep by lia. auto.
    + rewrite Hc. apply cbsrep_frame; auto; lia.
  - assert (HU: 0 <= used (firstn i l)).
    { destruct (used_firstn l i f (cbsrep_caps _ _ _ _ HB) Hn). lia. }
    split.
    + apply cbrep_frame; auto; lia.
    + apply IHl with (f := f); auto; try lia.
      replace (base + f_cap a + used (firstn i l)) with (base + (f_cap a + used (firstn i l))) by lia. auto.
Qed.
Lemma cbsrep_replace_get : forall l p base ds i f f' d', cbsrep p base l ds -> nth_error l i = Some f -> f_cap f' = f_cap f ->
  cbrep p (base + used (firstn i l)) f' d' -> cbsrep p base (replace l i f') (upd ds i d').
Proof.
  induction l; intros p base ds i f f' d' HR Hn Hc Hrep.
  destruct i; discriminate.
  destruct ds; simpl in HR; [tauto|]. destruct HR as [HA HB].
  destruct i; simpl in *.
  - inv Hn. split.
    + replace (base + 0) with base in Hrep by lia. auto.
    + rewrite Hc. auto.
  - split; auto. eapply IHl; eauto.
    replace (base + f_cap a + used (firstn i l)) with (base + (f_cap a + used (firstn i l))) by lia. auto.
Qed.
Lemma cbsrep_app : forall l p base ds f d, cbsrep p base l ds -> (length l < length ds)%nat -> cbrep p (base + used l) f d ->
  cbsrep p base (l ++ [f]) (upd ds (length l) d).
Proof.
  induction l; simpl; intros.
  - destruct ds; simpl in *; [lia|]. split; auto. replace (base + 0) with base in H1 by lia. auto.
  - destruct ds; [tauto|]. destruct H. simpl in *. split; auto. apply IHl; auto. lia.
    replace (base + f_cap a + used l) with (base + (f_cap a + used l)) by lia. auto.
Qed.
Lemma c_advance : forall x f, 0 < f_cap f -> 0 <= x < ring f -> advance x (f_cap f) = Ok ((x + 1) mod ring f).
Proof.
  intros x f H0 H. unfold advance, ring in *. destruct (Z.eqb_spec (f_cap f) 0); [lia|]. rewrite Z.rem_mod_nonneg by lia. f_equal.
  destruct (Z.le_gt_cases (f_cap f) 256).
  - rewrite Z.min_l by lia. apply Z.mod_small. pose proof (Z.mod_pos_bound (x + 1) (f_cap f)). lia.
  - rewrite Z.min_r by lia. rewrite (Z.mod_small (x + 1) (f_cap f)) by lia. reflexivity.
Qed.

Section Settings.
Variable P K : Z.
Hypothesis Psize : 0 <= P <= 32767.
Hypothesis Ksize : 0 <= K <= 127.
Definition CR (l : list fifo) (b : bufs) : Prop :=
  Z.of_nat (length (pool b)) = P /\ Z.of_nat (length (buffers b)) = K /\
  next_handle b = Z.of_nat (length l) /\ Z.of_nat (length l) <= K /\
  pool_next b = used l /\ used l <= P /\ cbsrep (pool b) 0 l (buffers b).
Lemma c_find : forall l b h, CR l b ->
  match find l h with
  | Some (i, f) => handle_valid h b = true /\ i = Z.to_nat h /\ 0 <= h /\ nth_error l i = Some f
  | None => handle_valid h b = false
  end.
Proof.
  intros l b h (HP&HB&HN&HL&HU&HU2&HR). unfold find, handle_valid.
  destruct (Z.ltb_spec h 0).
  - destruct (Z.leb_spec 0 h); auto; lia.
  - destruct (nth_error l (Z.to_nat h)) eqn:E.
    + pose proof (nth_error_Some_lt _ _ _ _ E).
      split; [|repeat split; auto; lia]. rewrite HN. apply andb_true_iff; split; lia.
    + apply nth_error_None in E. rewrite HN. apply andb_false_iff. right; lia.
Qed.
Lemma c_refines : forall op l b, CR l b -> sane op ->
  exists b', cb_step P K op b = Ok (fst (c_step P K op l), b') /\ CR (snd (c_step P K op l)) b'.
Proof.
  intros op l b HRR Hs. pose proof HRR as (HP&HB&HN&HL&HU&HU2&HR).
  pose proof (cbsrep_caps _ _ _ _ HR) as HC. pose proof (used_nonneg _ HC) as HUN.
  destruct op; cbn [cb_step c_step sane] in *.
  - unfold cb_new. rewrite HN, HU.
    destruct (Z.ltb_spec (Z.of_nat (length l)) K); cbn [andb bind].
    2: { eexists; split; [reflexivity|]. auto. }
    unfold int16, int16_ok.
    replace ((-32768 <=? P - used l) && (P - used l <=? 32767)) with true by lia.
    cbn [bind].
    destruct (Z.leb_spec size (P - used l)); destruct (Z.leb_spec (used l + size) P); try lia.
    2: { eexists; split; [reflexivity|]. auto. }
    replace ((used l <? 0) || (P <? used l)) with false by lia.
    rewrite zset_ok by lia. cbn [bind].
    replace ((-32768 <=? used l + size) && (used l + size <=? 32767)) with true by lia.
    cbn [bind fst snd]. eexists; split; [reflexivity|].
    unfold CR. cbn [pool buffers next_handle pool_next]. rewrite app_length, used_app, upd_length. cbn [length f_cap].
    repeat split; auto; try lia.
    rewrite Nat2Z.id. apply cbsrep_app; auto; try lia.
    unfold cbrep, ring. cbn [b_buf b_size b_count b_tail b_head f_cap f_items length Z.of_nat].
    split; [lia|]. split; [reflexivity|]. split; [lia|]. split; [reflexivity|]. split; [lia|]. split; [|intros k Hk; lia].
    intros H3. split; [lia|]. rewrite Z.mod_small by lia. reflexivity.
  - pose proof (c_find l b h HRR) as HF.
    unfold buffer_put. destruct (find l h) as [[i f]|].
    2: { rewrite HF. cbn [bind fst snd]. eexists; split; [reflexivity|]; auto. }
    destruct HF as (HV&->&Hh&Hn). rewrite HV.
    destruct (cbsrep_nth _ _ _ _ _ _ HR Hn) as [d [Hd Hrep]].
    destruct (used_firstn _ _ _ HC Hn) as [HU3 HU4].
    rewrite (zget_some _ _ _ _ _ Hh Hd). cbn [bind].
    pose proof Hrep as (A1&A2&A3&A4&A5&A6&A7). cbn [Z.add] in *. cbv zeta.
    rewrite A4, A2.
    destruct (Z.ltb_spec (Z.of_nat (length (f_items f))) (f_cap f)).
    2: { cbn [bind fst snd]. eexists; split; [reflexivity|]; auto. }
    destruct A6 as [At Ah]; [lia|].
    assert (RP : 0 < ring f /\ ring f <= f_cap f /\ ring f <= 256) by (unfold ring in *; lia). destruct RP as (RP&RC&R2).
    pose proof (Z.mod_pos_bound (b_tail d + b_count d) (ring f) RP) as HM.
    rewrite zset_ok by lia. cbn [bind].
    rewrite (c_advance _ f) by lia. cbn [bind].
    pose proof (nth_error_Some_lt _ _ _ _ Hd).
    rewrite zset_ok by lia. cbn [bind fst snd].
    eexists; split; [reflexivity|].
    unfold CR. cbn [pool buffers next_handle pool_next].
    rewrite replace_length, !upd_length.
    rewrite (used_replace _ _ f) by auto.
    repeat (split; [assumption|]).
    rewrite A1. eapply cbsrep_replace with (f := f); auto; try lia.
    set (n := Z.of_nat (length (f_items f))) in *.
    rewrite app_length. cbn [length].
    assert (AH : (b_head d + 1) mod ring f = (b_tail d + (n + 1)) mod ring f).
    { rewrite Ah, A4. apply mod_shift; lia. }
    unfold cbrep. change (ring (mkFifo (f_cap f) ?q)) with (ring f). cbn [b_buf b_size b_head b_tail b_count f_cap f_items].
    destruct (Nat.eqb_spec (length (f_items f) + 1) 256) as [E|E].
    + assert (N : n = 255) by lia. assert (RG : ring f = 256) by (unfold ring; lia). rewrite N. change ((255 + 1) mod 256) with 0. cbn [length Z.of_nat].
      split; [reflexivity|]. split; [reflexivity|]. split; [lia|]. split; [reflexivity|]. split; [lia|]. split; [|intros k Hk; lia].
      intros _. unfold ring in *. cbn [f_cap]. split; [exact At|]. rewrite AH, N. unfold ring in RG. rewrite RG.
      replace (b_tail d + (255 + 1)) with (b_tail d + 0 + 1 * 256) by lia. apply Z.mod_add. lia.
    + rewrite app_length. cbn [length]. rewrite (Z.mod_small (n + 1) 256) by lia.
      split; [reflexivity|]. split; [reflexivity|]. split; [lia|]. split; [lia|]. split; [lia|]. split.
      { intros _. unfold ring at 1 2. cbn [f_cap]. fold (ring f). split; [exact At|]. exact AH. }
      intros k Hk. unfold ring. cbn [f_cap]. fold (ring f). destruct (Nat.eq_dec k (length (f_items f))).
      * subst k. fold n. rewrite nth_error_app2, Nat.sub_diag by lia. cbn [nth_error].
        rewrite Ah, A4. apply nth_error_upd_same. rewrite A4 in HM. lia.
      * rewrite nth_error_app1 by lia. rewrite nth_error_upd_other.
        { apply A7; lia. }
        rewrite Ah, A4.
        pose proof (Z.mod_pos_bound (b_tail d + Z.of_nat k) (ring f) RP).
        rewrite A4 in HM.
        intro E3. apply Z2Nat.inj in E3; try lia.
        assert (E2 : (b_tail d + n) mod ring f = (b_tail d + Z.of_nat k) mod ring f) by lia.
        assert (Hm : (n - Z.of_nat k) mod ring f = 0).
        { replace (n - Z.of_nat k) with ((b_tail d + n) - (b_tail d + Z.of_nat k)) by lia.
          rewrite Zminus_mod, E2, Z.sub_diag. apply Z.mod_0_l. lia. }
        rewrite Z.mod_small in Hm by (unfold ring in *; lia). lia.
  - pose proof (c_find l b h HRR) as HF.
    unfold buffer_get. cbn [spec_step]. destruct (find l h) as [[i f]|].
    2: { rewrite HF. cbn [bind fst snd]. eexists; split; [reflexivity|]; auto. }
    destruct HF as (HV&->&Hh&Hn). rewrite HV.
    destruct (cbsrep_nth _ _ _ _ _ _ HR Hn) as [d [Hd Hrep]].
    destruct (used_firstn _ _ _ HC Hn) as [HU3 HU4].
    rewrite (zget_some _ _ _ _ _ Hh Hd). cbn [bind].
    pose proof Hrep as (A1&A2&A3&A4&A5&A6&A7). cbn [Z.add] in *.
    rewrite A4.
    destruct (f_items f) as [|c q] eqn:Eq; cbn [length] in *.
    { cbn [Z.of_nat Z.eqb bind fst snd]. eexists; split; [reflexivity|]; auto. }
    destruct (Z.eqb_spec (Z.of_nat (S (length q))) 0); [lia|].
    destruct A6 as [At Ah]; [lia|].
    assert (RP : 0 < ring f /\ ring f <= f_cap f) by (unfold ring in *; lia). destruct RP as (RP&RC).
    pose proof (A7 0%nat ltac:(lia)) as H0. cbn [nth_error] in H0.
    replace (b_tail d + Z.of_nat 0) with (b_tail d) in H0 by lia.
    rewrite Z.mod_small in H0 by lia.
    rewrite A1. rewrite (zget_some _ _ _ _ c) by (auto; lia). cbn [bind].
    rewrite A2, (c_advance _ f) by lia. cbn [bind].
    pose proof (nth_error_Some_lt _ _ _ _ Hd).
    rewrite zset_ok by lia. cbn [bind fst snd].
    eexists; split; [reflexivity|].
    unfold CR. cbn [pool buffers next_handle pool_next].
    rewrite replace_length, !upd_length.
    rewrite (used_replace _ _ f) by auto.
    repeat (split; [assumption|]).
    eapply cbsrep_replace_get with (f := f); auto; try lia.
    unfold cbrep, ring. cbn [b_buf b_size b_head b_tail b_count f_cap f_items]. fold (ring f).
    pose proof (Z.mod_pos_bound (b_tail d + 1) (ring f) RP).
    rewrite (Z.mod_small (_ - 1) 256) by lia.
    repeat split; auto; try lia.
    + rewrite Ah, A4. rewrite Zplus_mod_idemp_l. f_equal. lia.
    + intros k Hk. specialize (A7 (S k) ltac:(lia)). cbn [nth_error] in A7.
      rewrite <- A7. rewrite Zplus_mod_idemp_l. replace (b_tail d + 1 + Z.of_nat k) with (b_tail d + Z.of_nat (S k)) by lia. reflexivity.
Qed.
Lemma c_runs : forall ops l b, CR l b -> Forall sane ops -> cb_run P K ops b = Ok (c_answers P K ops l).
Proof.
  induction ops as [|op ops IH]; intros l b HR HS; [reflexivity|]. inv HS. cbn [cb_run c_answers].
  destruct (c_refines op l b HR H1) as [b1 [E1 R1]]. rewrite E1. cbn [bind]. rewrite (IH _ _ R1 H2). cbn [bind].
  destruct (c_step P K op l). reflexivity.
Qed.
Lemma CR_zero : CR [] (cb_zero P K).
Proof. unfold CR, cb_zero. cbn. rewrite !repeat_length. repeat split; auto; lia. Qed.
Lemma c_is_q : forall ops l, Forall (fun f => Z.of_nat (length (f_items f)) <= f_cap f <= 255) l -> Forall modest ops ->
  c_answers P K ops l = q_answers P K ops l.
Proof.
  assert (RE : forall l i f, Forall (fun f => Z.of_nat (length (f_items f)) <= f_cap f <= 255) l ->
    Z.of_nat (length (f_items f)) <= f_cap f <= 255 -> Forall (fun f => Z.of_nat (length (f_items f)) <= f_cap f <= 255) (replace l i f)).
  { intros l. induction l as [|x l IH]; intros [|i] f F G; cbn [replace]; inv F; constructor; auto. }
  assert (FI : forall l h i f, Forall (fun f => Z.of_nat (length (f_items f)) <= f_cap f <= 255) l -> find l h = Some (i, f) ->
    Z.of_nat (length (f_items f)) <= f_cap f <= 255).
  { intros l h i f F E. unfold find in E. destruct (h <? 0); [discriminate|]. destruct (nth_error l (Z.to_nat h)) as [g|] eqn:EN; [|discriminate]. injection E as _ ->.
    rewrite Forall_forall in F. apply F. eapply nth_error_In; eauto. }
  induction ops as [|op ops IH]; intros l HF HM; [reflexivity|]. inv HM. cbn [c_answers q_answers]. destruct op as [n|h c|h]; cbn [c_step q_step spec_step modest] in *.
  - destruct (_ && _); f_equal; apply IH; auto. apply Forall_app. split; [exact HF|constructor; [cbn; lia|constructor]].
  - destruct (find l h) as [[i f]|] eqn:E; [|f_equal; apply IH; auto]. pose proof (FI _ _ _ _ HF E) as G.
    destruct (Z.ltb_spec (Z.of_nat (length (f_items f))) (f_cap f)); [|f_equal; apply IH; auto]. cbv zeta.
    rewrite app_length. cbn [length]. destruct (Nat.eqb_spec (length (f_items f) + 1) 256); [lia|]. f_equal. apply IH; auto. apply RE; auto. cbn [f_items f_cap]. rewrite app_length. cbn [length]. lia.
  - destruct (find l h) as [[i f]|] eqn:E; [|f_equal; apply IH; auto]. pose proof (FI _ _ _ _ HF E) as G.
    destruct (f_items f) as [|c q] eqn:Eq; [f_equal; apply IH; auto|]. f_equal. apply IH; auto. apply RE; auto. cbn [f_items f_cap] in *. cbn [length] in G. lia.
Qed.
End Settings.

(** ** C148 *)
(** Every pool of up to 32767 places and every number of buffers up to 127: all
    calls with requests of at most 255 places are answered as by bounded queues;
    a request is granted exactly if there is a free buffer and room. *)
Theorem C148_every_setting : forall P K ops, 0 <= P <= 32767 -> 0 <= K <= 127 -> Forall modest ops ->
  cb_run P K ops (cb_zero P K) = Ok (q_answers P K ops []).
Proof.
  intros P K ops HP HK HM. rewrite (c_runs P K HP ops [] _ (CR_zero P K HP HK)).
  - f_equal. apply c_is_q; auto.
  - rewrite Forall_forall in *. intros op I. specialize (HM op I). destruct op; cbn in *; [lia|exact HM..].
Qed.
Print Assumptions C148_every_setting.

(** Larger requests too are never undefined, but then the 256th code waiting
    empties the queue. *)
Theorem C148_large_buffers : forall P K ops, 0 <= P <= 32767 -> 0 <= K <= 127 -> Forall sane ops ->
  cb_run P K ops (cb_zero P K) = Ok (c_answers P K ops []).
Proof. intros P K ops HP HK HS. exact (c_runs P K HP ops [] _ (CR_zero P K HP HK) HS). Qed.
Print Assumptions C148_large_buffers.

(** With the shipped settings it is the module of C01. *)
Theorem C148_shipped : forall ops, cb_run 144 4 ops (cb_zero 144 4) = match buf_run ops (buffer_init bufs_zero) with Ok (rs, _) => Ok rs | Bad u => Bad u end.
Proof.
  intros ops. change (cb_zero 144 4) with bufs_zero. change (buffer_init bufs_zero) with bufs_zero. generalize bufs_zero.
  induction ops as [|op ops IH]; intros b; [reflexivity|]. cbn [cb_run buf_run]. change (cb_step 144 4 op b) with (buf_step op b).
  destruct (buf_step op b) as [[r b1]|u]; [|reflexivity]. cbn [bind]. rewrite IH. destruct (buf_run ops b1) as [[rs b2]|u]; reflexivity.
Qed.
Print Assumptions C148_shipped.

(** 255 places are the most that work: in every larger buffer 256 codes put one
    after the other are all lost. *)
Theorem C148_large_refuted : forall P K n cs, 0 <= P <= 32767 -> 0 < K <= 127 -> 256 <= n <= P -> length cs = 256%nat ->
  cb_run P K (BNew n :: map (BPut 0) cs ++ [BGet 0]) (cb_zero P K) = Ok (RHandle 0 :: map (fun _ => RUnit) cs ++ [RCode no_code]) /\
  (forall c cs', cs = c :: cs' -> q_answers P K (BNew n :: map (BPut 0) cs ++ [BGet 0]) [] = RHandle 0 :: map (fun _ => RUnit) cs ++ [RCode c]).
Proof.
  intros P K n cs HP HK Hn HL.
  assert (S0 : (Z.of_nat (@length fifo []) <? K) && (used [] + n <=? P) = true) by (cbn; lia).
  split.
  - rewrite C148_large_buffers; [|lia|lia|].
    + cbn [c_answers c_step]. rewrite S0. cbn [app length Z.of_nat]. do 2 f_equal.
      assert (X : forall cs q, (length q + length cs = 256)%nat -> cs <> [] ->
        c_answers P K (map (BPut 0) cs ++ [BGet 0]) [mkFifo n q] = map (fun _ => RUnit) cs ++ [RCode no_code]).
      { clear -Hn. induction cs as [|c cs IH]; intros q E NE; [congruence|]. cbn [map app c_answers c_step find nth_error Z.ltb Z.compare Z.to_nat f_items f_cap length] in *. cbv zeta.
        replace (Z.of_nat (length q) <? n) with true by lia. cbn [replace]. f_equal. rewrite app_length. cbn [length].
        destruct cs as [|c' cs].
        - replace (length q + 1 =? 256)%nat with true by (cbn [length] in E; lia). reflexivity.
        - replace (length q + 1 =? 256)%nat with false by (cbn [length] in E; lia). apply IH; [|discriminate]. rewrite app_length. cbn [length] in *. lia. }
      apply X; [cbn [length]; lia|]. destruct cs; [discriminate HL|discriminate].
    + constructor; [cbn; lia|]. apply Forall_app. split; [|constructor; [exact I|constructor]]. apply Forall_map, Forall_forall. intros x _. exact I.
  - intros c cs' ->. cbn [map app q_answers q_step]. rewrite S0. cbn [app length Z.of_nat]. f_equal.
    assert (X : forall cs q d, (length q + length cs < 256)%nat ->
      q_answers P K (map (BPut 0) cs ++ [BGet 0]) [mkFifo n (d :: q)] = map (fun _ => RUnit) cs ++ [RCode d]).
    { clear -Hn. induction cs as [|x cs IH]; intros q d E; cbn [map app q_answers q_step spec_step find nth_error Z.ltb Z.compare Z.to_nat f_items f_cap] in *; [reflexivity|].
      cbn [length] in *. replace (Z.of_nat (S (length q)) <? n) with true by lia. cbn [replace app]. f_equal. apply IH. rewrite app_length. cbn [length]. lia. }
    cbn [spec_step find nth_error Z.ltb Z.compare Z.to_nat f_items f_cap length Z.of_nat replace app] in *. replace (0 <? n) with true by lia. f_equal.
    change ([] ++ [c]) with [c]. apply X. cbn [length] in *. lia.
Qed.
Print Assumptions C148_large_refuted.

(** A pool of 300 places, three buffers: the third fills the pool, the fourth is
    refused, a code put into the full buffer of one place is dropped. *)
Example C148_example :
  let ops := [BNew 44; BNew 1; BNew 255; BNew 0; BPut 1 65; BPut 1 66; BPut 2 67; BGet 1; BGet 1; BGet 2; BGet 3] in
  Forall modest ops /\
  cb_run 300 3 ops (cb_zero 300 3) =
  Ok [RHandle 0; RHandle 1; RHandle 2; RHandle (-1); RUnit; RUnit; RUnit; RCode 65; RCode 160; RCode 67; RCode 160].
Proof. cbv zeta. split; [repeat constructor; cbn; lia|vm_compute; reflexivity]. Qed.
