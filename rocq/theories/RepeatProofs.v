(** Repeat timing: histories, specification and lemmas. *)
From Coq Require Import List NArith ZArith Arith Bool Lia.
From Coq Require Import ZifyBool ZifyNat ZifyN.
From Verif Require Import Base Lib Repeat.
Import ListNotations.
Ltac Zify.zify_post_hook ::= Z.div_mod_to_equations.
Local Open Scope N_scope.

(** Calls to the repeat module. *)
Inductive rop := OReset | OAutoOff | OAutoOn | OActivate | ODeactivate | OTick.

Definition rep_step (o : rop) (r : rep) : list bool * rep :=
  match o with
  | OReset => ([], repeat_reset_count r)
  | OAutoOff => ([], repeat_auto_off r)
  | OAutoOn => ([], repeat_auto_on r)
  | OActivate => ([], repeat_activate r)
  | ODeactivate => ([], repeat_deactivate r)
  | OTick => let '(b, r1) := repeat_tick r in ([b], r1)
  end.

Fixpoint rep_run (ops : list rop) (r : rep) : list bool * rep :=
  match ops with
  | [] => ([], r)
  | o :: t => let '(bs, r1) := rep_step o r in
              let '(bs2, r2) := rep_run t r1 in (bs ++ bs2, r2)
  end.

(** What the caller observes after power-on: the answers of the asdf_repeat
    calls, in order. *)
Definition answers (ops : list rop) : list bool := fst (rep_run ops (repeat_init rep_zero)).

(** ** Specification: history functions *)

(** Autorepeat currently selected?  The last selection wins; default on. *)
Definition selected (h : list rop) : bool :=
  fold_left (fun b o => match o with OAutoOn => true | OAutoOff => false | _ => b end) h true.

(** REPEAT key not held (no press without a later release). *)
Definition released (h : list rop) : bool :=
  fold_left (fun b o => match o with OActivate => false | ODeactivate => true | _ => b end) h true.

(** The n-th call after a restart (n = 1, 2, ...) reports a repeat with initial
    delay d and period 66. *)
Definition fires (d : nat) (n : nat) : bool :=
  (d <=? n)%nat && ((n - d) mod 66 =? 0)%nat.

(** ** Invariant *)
Definition base_of (b : bool) : rstate := if b then RAuto else ROff.

Lemma rep_run_app : forall a b r,
  rep_run (a ++ b) r = (fst (rep_run a r) ++ fst (rep_run b (snd (rep_run a r))),
                        snd (rep_run b (snd (rep_run a r)))).
Proof.
  induction a; intros; cbn [app rep_run].
  - cbn. destruct (rep_run b r); auto.
  - destruct (rep_step a r). rewrite IHa. destruct (rep_run a0 r0). cbn [fst snd].
    rewrite app_assoc. auto.
Qed.

Lemma answers_app : forall a b,
  answers (a ++ b) = answers a ++ fst (rep_run b (snd (rep_run a (repeat_init rep_zero)))).
Proof. intros. unfold answers. rewrite rep_run_app. auto. Qed.

Record rinv (sel rel : bool) (r : rep) : Prop := {
  ri_base : r_base r = base_of sel;
  ri_rel : rel = true -> r_state r = r_base r;
  ri_st : r_state r = ROn \/ r_state r = r_base r;
  ri_off : r_state r = ROff -> r_timer r = 0
}.

Lemma rinv_step : forall o sel rel r,
  rinv sel rel r ->
  rinv (match o with OAutoOn => true | OAutoOff => false | _ => sel end)
       (match o with OActivate => false | ODeactivate => true | _ => rel end)
       (snd (rep_step o r)).
Proof.
  intros o sel rel [st ba ti] [H1 H2 H3 H4]; cbn [r_state r_base r_timer] in *.
  destruct o; cbn [rep_step snd];
    unfold repeat_reset_count, repeat_auto_off, repeat_auto_on, repeat_activate,
      repeat_deactivate, repeat_tick; cbn [r_state r_base r_timer].
  - constructor; cbn; auto. intros ->; auto.
  - destruct st; cbn; constructor; cbn; auto; try discriminate.
    intros. rewrite H2 in * by auto. rewrite <- H2 in H1 by auto. destruct sel; discriminate.
  - destruct st; cbn; constructor; cbn; auto; try discriminate.
    intros. rewrite <- H2 in H1 by auto. destruct sel; discriminate.
  - destruct (_ || _); constructor; cbn; auto; discriminate.
  - constructor; cbn; auto. intros ->; auto.
  - destruct (N.eqb_spec ti 0); cbn.
    + constructor; cbn; auto.
    + destruct (N.eqb_spec (ti - 1) 0); cbn; constructor; cbn; auto; intros E; rewrite H4 in *; auto; lia.
Qed.

Lemma rinv_run : forall h sel rel r, rinv sel rel r ->
  rinv (fold_left (fun b o => match o with OAutoOn => true | OAutoOff => false | _ => b end) h sel)
       (fold_left (fun b o => match o with OActivate => false | ODeactivate => true | _ => b end) h rel)
       (snd (rep_run h r)).
Proof.
  induction h; intros; cbn [fold_left rep_run]; auto.
  apply (rinv_step a) in H. destruct (rep_step a r) as [bs r1]. cbn [snd] in H.
  apply IHh in H. destruct (rep_run h r1); auto.
Qed.

Lemma rinv_init : rinv true true (repeat_init rep_zero).
Proof. constructor; cbn; auto; discriminate. Qed.

Lemma rinv_reach : forall h, rinv (selected h) (released h) (snd (rep_run h (repeat_init rep_zero))).
Proof. intros. apply rinv_run, rinv_init. Qed.

(** ** Cadence *)
Lemma ticks_from : forall n st ba (d : nat), (0 < d)%nat ->
  fst (rep_run (repeat OTick n) (mkRep st ba (N.of_nat d))) = map (fires d) (seq 1 n).
Proof.
  assert (G : forall n st ba d i, (0 < d)%nat ->
    fst (rep_run (repeat OTick n) (mkRep st ba (N.of_nat d))) =
    map (fires (d + i)%nat) (seq (S i) n)).
  { induction n; intros; auto.
    cbn [repeat rep_run rep_step seq map]. unfold repeat_tick; cbn [r_timer r_state r_base].
    destruct (N.eqb_spec (N.of_nat d) 0); [lia|].
    destruct (N.eqb_spec (N.of_nat d - 1) 0).
    - assert (d = 1)%nat by lia; subst d.
      specialize (IHn st ba 66%nat (S i)). change (N.of_nat 66) with (rval ROn) in IHn.
      destruct (rep_run (repeat OTick n) (mkRep st ba (rval ROn))).
      cbn [fst app] in *. rewrite IHn by lia. f_equal.
      + unfold fires. lia.
      + apply map_ext_in. intros a Ha. apply in_seq in Ha. unfold fires.
        destruct (Nat.leb_spec (66 + S i) a); destruct (Nat.leb_spec (1 + i) a); try lia; cbn [andb].
    - specialize (IHn st ba (d - 1)%nat (S i)).
      replace (N.of_nat (d - 1)) with (N.of_nat d - 1) in IHn by lia.
      destruct (rep_run (repeat OTick n) (mkRep st ba (N.of_nat d - 1))).
      cbn [fst app] in *. rewrite IHn by lia. f_equal.
      + unfold fires. lia.
      + replace (d - 1 + S i)%nat with (d + i)%nat by lia. auto. }
  intros. specialize (G n st ba d 0%nat H). rewrite Nat.add_0_r in G. auto.
Qed.

Lemma reset_ticks : forall n r d, rval (r_state r) = N.of_nat d -> (0 < d)%nat ->
  fst (rep_run (OReset :: repeat OTick n) r) = map (fires d) (seq 1 n).
Proof.
  intros. cbn [rep_run rep_step]. unfold repeat_reset_count. rewrite H.
  rewrite <- (ticks_from n (r_state r) (r_base r) d H0).
  destruct (rep_run _ _); auto.
Qed.

Lemma autorepeat_cadence : forall h n,
  selected h = true -> released h = true ->
  answers (h ++ OReset :: repeat OTick n) = answers h ++ map (fires 525) (seq 1 n).
Proof.
  intros. rewrite answers_app. f_equal. pose proof (rinv_reach h) as [A B C D].
  apply reset_ticks; [|lia]. rewrite B, A, H by auto. auto.
Qed.

Lemma never_fires_when_off : forall h,
  selected h = false -> released h = true ->
  answers (h ++ [OTick]) = answers h ++ [false].
Proof.
  intros. rewrite answers_app. f_equal. pose proof (rinv_reach h) as [A B C D].
  cbn [rep_run rep_step]. unfold repeat_tick. rewrite D by (rewrite B, A, H by auto; auto). auto.
Qed.

Lemma off_forever : forall h ops,
  selected h = false -> released h = true ->
  (forall o, In o ops -> o <> OActivate /\ o <> OAutoOn) ->
  Forall (fun b => b = false) (fst (rep_run ops (snd (rep_run h (repeat_init rep_zero))))).
Proof.
  intros h ops Hs Hr. pose proof (rinv_reach h) as HI. rewrite Hs, Hr in HI. clear Hs Hr.
  revert HI. generalize (snd (rep_run h (repeat_init rep_zero))).
  induction ops; intros r HI Ho; cbn [rep_run]; [constructor|].
  pose proof (rinv_step a _ _ _ HI) as HI2.
  assert (Ha := Ho a (or_introl eq_refl)).
  replace (match a with OAutoOn => true | OAutoOff => false | _ => false end) with false in HI2
    by (destruct a; tauto).
  replace (match a with OActivate => false | ODeactivate => true | _ => true end) with true in HI2
    by (destruct a; tauto).
  assert (HT : Forall (fun b => b = false) (fst (rep_step a r))).
  { destruct HI as [A B C D]. destruct a; cbn; auto.
    unfold repeat_tick. rewrite D by (rewrite B, A by auto; auto). cbn. auto. }
  destruct (rep_step a r) as [bs r1]. cbn [snd fst] in *.
  specialize (IHops r1 HI2 (fun o h => Ho o (or_intror h))).
  destruct (rep_run ops r1). cbn [fst] in *. apply Forall_app; auto.
Qed.

(** REPEAT pressed in a phase where the press is honoured. *)
Lemma ticks_state : forall k st ba t, N.of_nat k < t \/ t = 0 ->
  snd (rep_run (repeat OTick k) (mkRep st ba t)) = mkRep st ba (t - N.of_nat k).
Proof.
  induction k; intros.
  - cbn. f_equal; lia.
  - cbn [repeat rep_run rep_step]. unfold repeat_tick; cbn [r_timer r_state r_base].
    destruct (N.eqb_spec t 0).
    + subst. specialize (IHk st ba 0). destruct (rep_run (repeat OTick k) _). cbn [snd] in *.
      rewrite IHk by lia. f_equal; lia.
    + destruct (N.eqb_spec (t - 1) 0); [lia|].
      specialize (IHk st ba (t - 1)). destruct (rep_run (repeat OTick k) _). cbn [snd] in *.
      rewrite IHk by lia. f_equal; lia.
Qed.

Lemma on_stays : forall mid r, r_state r = ROn -> r_timer r <= 66 -> ~ In ODeactivate mid ->
  r_state (snd (rep_run mid r)) = ROn /\ r_timer (snd (rep_run mid r)) <= 66.
Proof.
  induction mid; intros; cbn [rep_run]; auto.
  assert (r_state (snd (rep_step a r)) = ROn /\ r_timer (snd (rep_step a r)) <= 66).
  { destruct r as [st ba ti]; cbn [r_state r_timer] in *; subst st.
    destruct a; cbn [rep_step snd]; unfold repeat_reset_count, repeat_auto_off, repeat_auto_on,
      repeat_activate, repeat_deactivate, repeat_tick; cbn [r_state r_base r_timer rstate_eqb rval];
      cbn [r_state r_timer]; try (split; auto; lia).
    - destruct (66 <? ti); cbn; split; auto; lia.
    - exfalso; apply H1; left; auto.
    - destruct (N.eqb_spec ti 0); cbn; [split; auto|].
      destruct (N.eqb_spec (ti - 1) 0); cbn; split; auto; lia. }
  destruct (rep_step a r) as [bs r1]. cbn [snd] in *.
  specialize (IHmid r1 (proj1 H2) (proj2 H2) (fun h => H1 (or_intror h))).
  destruct (rep_run mid r1); auto.
Qed.

Lemma repeat_key_partial : forall h k mid n,
  released h = true -> selected h = false \/ (k < 459)%nat -> ~ In ODeactivate mid ->
  answers (h ++ (OReset :: repeat OTick k) ++ (OActivate :: mid) ++ OReset :: repeat OTick n) =
  answers (h ++ (OReset :: repeat OTick k) ++ (OActivate :: mid)) ++ map (fires 66) (seq 1 n).
Proof.
  intros h k mid n H H0 HM. pose proof (rinv_reach h) as [A B C D].
  rewrite !app_assoc. rewrite answers_app. f_equal.
  rewrite !rep_run_app. cbn [snd]. set (r := snd (rep_run h (repeat_init rep_zero))) in *.
  assert (HS : r_state r = base_of (selected h)) by (rewrite B by auto; auto).
  assert (HT : snd (rep_run (OReset :: repeat OTick k) r) =
               mkRep (r_state r) (r_base r) (rval (r_state r) - N.of_nat k)).
  { cbn [rep_run rep_step]. unfold repeat_reset_count.
    pose proof (ticks_state k (r_state r) (r_base r) (rval (r_state r))) as G.
    destruct (rep_run (repeat OTick k) _). cbn [snd] in *. apply G.
    rewrite HS. destruct (selected h); cbn [base_of rval]; lia. }
  rewrite HT.
  assert (HA : repeat_activate (mkRep (r_state r) (r_base r) (rval (r_state r) - N.of_nat k))
               = mkRep ROn (r_base r) (rval ROn)).
  { unfold repeat_activate. cbn [r_state r_base r_timer]. rewrite HS.
    destruct (selected h); cbn [base_of rval rstate_eqb].
    - destruct (N.ltb_spec 66 (525 - N.of_nat k)); auto. lia.
    - rewrite orb_true_r. auto. }
  apply reset_ticks; [|lia].
  cbn [rep_run rep_step]. rewrite HA.
  destruct (on_stays mid (mkRep ROn (r_base r) (rval ROn))) as [E _]; auto.
  { cbn. lia. }
  destruct (rep_run mid (mkRep ROn (r_base r) (rval ROn))). cbn [snd] in *. rewrite E. auto.
Qed.

(** The state after releasing REPEAT only depends on the current selection. *)
Lemma release_restores : forall h ops,
  answers (h ++ ODeactivate :: ops) =
  answers h ++ answers ((if selected h then OAutoOn else OAutoOff) :: ops).
Proof.
  intros. rewrite answers_app. f_equal. pose proof (rinv_reach h) as [A B C D].
  cbn [rep_run rep_step]. unfold repeat_deactivate. rewrite A.
  unfold answers. destruct (selected h); cbn [rep_run rep_step];
  unfold repeat_auto_on, repeat_auto_off, repeat_init; cbn [r_state rstate_eqb base_of];
  reflexivity.
Qed.
