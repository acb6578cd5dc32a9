(** REPEAT mode over whole runs: C32. *)
From Coq Require Import List NArith ZArith Arith Bool Lia.
From Coq Require Import ZifyBool ZifyNat ZifyN.
From Verif Require Import Base Lib Buffer BufferSpec BufferProofs Repeat Devices DevSpec DevProofs
     Modifiers Hook KeymapData Asdf KeySpec KeyRef Obs Frames PropModState.
Import ListNotations.

(** ** C32 *)
Definition in_repeat_mode (s : kb) : bool := rstate_eqb (r_state (k_rep s)) ROn.

Definition rep_codes (k : N) (m r c : nat) (code : N) : bool :=
  match decode code with
  | ARepeat => (2 <=? k)%N || ((r =? 5) && (c =? 1))
  | AMapsel n => (r =? 8) && (c =? N.to_nat n)
  | _ => (2 <=? k)%N || negb ((r =? 5) && (c =? 1))
  end.
Lemma rep_codes_ok : all_codes rep_codes = true.
Proof. vm_compute. reflexivity. Qed.

(** Mode switches 1 to 3 stay open: keyboards 0 and 1. *)
Definition classic_only (rd : nat -> N) : Prop :=
  reading rd 8 1 = false /\ reading rd 8 2 = false /\ reading rd 8 3 = false.

Definition rep_ok (d : bool) (r : rep) : Prop := r_base r <> ROn /\ (r_state r = ROn -> d = true).
Definition RepInv (a : akb) : Prop :=
  last_low a /\ (a_cur a <= 1)%N /\ a_dn a 8 1 = false /\ a_dn a 8 2 = false /\ a_dn a 8 3 = false /\
  rep_ok (a_dn a 5 1) (a_rep a).

Lemma rep_ok_tick : forall d r, rep_ok d r -> rep_ok d (snd (repeat_tick r)).
Proof. intros d r [A B]. unfold repeat_tick, rep_ok. destruct (r_timer r =? 0)%N; [auto|]. cbn zeta. destruct (_ =? 0)%N; auto. Qed.
Lemma rep_ok_reset : forall d r, rep_ok d r -> rep_ok d (repeat_reset_count r).
Proof. intros d r [A B]. split; auto. Qed.
Lemma rep_ok_on : forall d r, rep_ok d r -> rep_ok d (repeat_auto_on r).
Proof.
  intros d r [A B]. unfold repeat_auto_on, rep_ok. destruct (r_state r) eqn:S; cbn; split; auto; try discriminate.
Qed.
Lemma rep_ok_off : forall d r, rep_ok d r -> rep_ok d (repeat_auto_off r).
Proof.
  intros d r [A B]. unfold repeat_auto_off, rep_ok. destruct (r_state r) eqn:S; cbn; split; auto; try discriminate.
Qed.

Lemma press_rep : forall d code a, decode code <> ARepeat -> rep_ok d (a_rep a) -> rep_ok d (a_rep (apress code a)).
Proof.
  intros d code a H R. unfold apress. destruct (0xA0 <? code)%N.
  - destruct (decode code) eqn:D; try (rewrite on_repeat by congruence; auto; fail).
    unfold aaction_on. rewrite D. apply rep_ok_on; auto.
  - destruct (a_last a =? code)%N; auto.
Qed.
Lemma release_rep : forall d code a, decode code <> ARepeat -> rep_ok d (a_rep a) -> rep_ok d (a_rep (arelease code a)).
Proof.
  intros d code a H R. unfold arelease. destruct (0xA0 <? code)%N.
  - destruct (decode code) eqn:D; try (rewrite off_repeat by congruence; auto; fail).
    unfold aaction_off. rewrite D. apply rep_ok_off; auto.
  - destruct (a_last a =? code)%N; auto.
Qed.
Lemma held_rep : forall d code a, last_low a -> rep_ok d (a_rep a) -> rep_ok d (a_rep (aheld code a)).
Proof.
  intros d code a L H. unfold aheld. destruct (N.eqb_spec code (a_last a)); auto.
  pose proof (rep_ok_tick _ _ H) as T. destruct (repeat_tick (a_rep a)) as [due r]. cbn [snd] in T.
  destruct due; auto. apply press_rep; auto.
  unfold last_low in L. destruct (N.eq_dec code 0xA0); [subst code; rewrite e0; cbn; discriminate|].
  rewrite decode_high by lia. discriminate.
Qed.
Lemma select_le1 : forall n b a, n = 0%N -> (a_cur a <= 1)%N ->
  (a_cur (aselect (if (b : bool) then N.setbit (a_cur a) n else N.clearbit (a_cur a) n) a) <= 1)%N.
Proof.
  intros n b a -> H. assert (C : a_cur a = 0%N \/ a_cur a = 1%N) by lia.
  assert (X : forall i, (i < 2)%N -> (a_cur (aselect i a) <= 1)%N) by (intros; rewrite select_cur by lia; lia).
  destruct C as [C|C]; rewrite C; destruct b; apply X; cbn; lia.
Qed.

Lemma not_at : forall (r c r' c' : nat), ~ (r = r' /\ c = c') -> r <> r' \/ c <> c'.
Proof. intros. lia. Qed.

Lemma rep_inv : forall rds a, Forall classic_only rds -> arun rds = Some a -> RepInv a.
Proof.
  intros rds a. revert rds a. intros rds a. apply ainv.
  - unfold RepInv, last_low, rep_ok. cbn. repeat split; try lia; try discriminate.
  - intros x H. unfold RepInv, last_low in *. destruct (asend_dn x) as [-> _].
    rewrite send_last, send_cur, send_rep. exact H.
  - intros x y H. exact H.
  - intros rd r c x _ (A&B&C&D&E&F) Hr Hc Hk _ _. unfold RepInv.
    destruct (aheld_dn (code_now x r c) x) as [-> _]. rewrite held_cur by auto.
    repeat (split; [assumption || apply held_last_low; assumption|]). apply held_rep; auto.
  - intros rd r c x (P1&P2&P3) (A&B&C&D&E&F) Hr Hc Hk HR HD.
    pose proof (code_now_check _ rep_codes_ok x r c Hk Hr Hc) as CC. unfold rep_codes in CC.
    unfold RepInv. destruct (apress_dn (code_now x r c) (accept r c true x)) as [-> _].
    assert (N1 : r <> 8 \/ c <> 1) by (apply not_at; intros [-> ->]; congruence).
    assert (N2 : r <> 8 \/ c <> 2) by (apply not_at; intros [-> ->]; congruence).
    assert (N3 : r <> 8 \/ c <> 3) by (apply not_at; intros [-> ->]; congruence).
    cbn [a_dn accept put_dn]. rewrite (set2_other _ r c true 8 1 N1), (set2_other _ r c true 8 2 N2), (set2_other _ r c true 8 3 N3).
    split; [apply press_last_low; exact A|]. split; [|split; [auto|split; [auto|split; [auto|]]]].
    + destruct (decode (code_now x r c)) eqn:DC; try (rewrite press_cur by (intros; congruence); auto; fail).
      rewrite (press_act _ _ _ DC) by discriminate. unfold aaction_on. rewrite DC.
      apply (select_le1 n true (accept r c true x)); auto. pose proof (decode_mapsel _ _ DC). lia.
    + assert (G : rep_ok (set2 (a_dn x) r c true 5 1) (a_rep (accept r c true x))).
      { cbn [a_rep accept put_dn put_ct]. unfold rep_ok, set2 in *. destruct ((5 =? r) && (1 =? c)); tauto. }
      destruct (decode (code_now x r c)) eqn:DC; try (apply press_rep; [congruence|exact G]).
      rewrite (press_act _ _ _ DC) by discriminate. unfold aaction_on. rewrite DC. cbn [a_rep put_rep].
      assert (r = 5 /\ c = 1) as [-> ->] by lia. rewrite set2_same in *. destruct G as [G1 G2].
      clear CC. unfold repeat_activate. destruct (_ || _); [split; auto|exact (conj G1 G2)].
  - intros rd r c x (P1&P2&P3) (A&B&C&D&E&F) Hr Hc Hk HR HD.
    pose proof (code_now_check _ rep_codes_ok x r c Hk Hr Hc) as CC. unfold rep_codes in CC.
    unfold RepInv. destruct (arelease_dn (code_now x r c) (accept r c false x)) as [-> _].
    assert (N1 : r <> 8 \/ c <> 1) by (apply not_at; intros [-> ->]; congruence).
    assert (N2 : r <> 8 \/ c <> 2) by (apply not_at; intros [-> ->]; congruence).
    assert (N3 : r <> 8 \/ c <> 3) by (apply not_at; intros [-> ->]; congruence).
    cbn [a_dn accept put_dn]. rewrite (set2_other _ r c false 8 1 N1), (set2_other _ r c false 8 2 N2), (set2_other _ r c false 8 3 N3).
    split; [apply release_last_low; exact A|]. split; [|split; [auto|split; [auto|split; [auto|]]]].
    + destruct (decode (code_now x r c)) eqn:DC; try (rewrite release_cur by (intros; congruence); auto; fail).
      rewrite (release_act _ _ _ DC) by discriminate. unfold aaction_off. rewrite DC.
      apply (select_le1 n false (accept r c false x)); auto. pose proof (decode_mapsel _ _ DC). lia.
    + destruct (decode (code_now x r c)) eqn:DC;
        try (rewrite set2_other by lia; apply release_rep; [congruence|exact F]).
      rewrite (release_act _ _ _ DC) by discriminate. unfold aaction_off. rewrite DC. cbn [a_rep put_rep].
      destruct F as [F1 F2]. unfold repeat_deactivate. split; cbn; auto.
Qed.

(** Keyboards 0 and 1: REPEAT mode only while the REPEAT key is down, so it
    ends no later than when all keys are up.  Missing: keyboards 2 and 3. *)
Theorem C32_repeat_mode_ends_partial : forall rds s, Forall classic_only rds -> run rds = Ok s ->
  in_repeat_mode s = true -> down s 5 1 = true.
Proof.
  intros rds s F H M. destruct (reach _ _ H) as [a [A RL]]. pose proof (rep_inv _ _ F A) as (_&_&_&_&_&_&I).
  rewrite (down_ok _ _ _ _ RL) by lia. apply I. unfold in_repeat_mode in M. rewrite (rl_rep _ _ RL) in M.
  destruct (r_state (a_rep a)); auto; discriminate.
Qed.
Print Assumptions C32_repeat_mode_ends_partial.

Example C32_example :
  Forall classic_only (hold 12 [(5, 1)] ++ hold 12 []) /\
  obs in_repeat_mode (run (hold 12 [(5, 1)])) = Some true /\
  obs in_repeat_mode (run (hold 12 [(5, 1)] ++ hold 12 [])) = Some false.
Proof.
  split; [|vm_compute; auto]. apply Forall_app. split; apply Forall_forall; intros x X;
  apply repeat_spec in X; subst x; repeat split.
Qed.

(** Keyboard 2: REPEAT pressed with CAPS LOCK on, CAPS LOCK switched off,
    everything released: REPEAT mode stays. *)
Definition stuck_repeat : list (nat -> N) :=
  hold 12 [(8, 1)] ++ hold 12 [(8, 1); (5, 4)] ++ hold 12 [(8, 1); (5, 4); (0, 0)] ++ hold 12 [(8, 1)].
Theorem C32_repeat_mode_ends_refuted : exists rds s, run rds = Ok s /\
  (forall r c, r < 9 -> c < 8 -> down s r c = true -> r = 8 /\ c = 1) /\ in_repeat_mode s = true.
Proof.
  exists stuck_repeat.
  assert (X : obs (fun s => (forallb (fun p => negb (down s (fst p) (snd p)) || (fst p =? 8) && (snd p =? 1)) (grid 0 9), in_repeat_mode s))
    (run stuck_repeat) = Some (true, true)) by (vm_compute; reflexivity).
  apply obs_some in X. destruct X as [s [E X]]. exists s. split; auto.
  assert (X1 : forallb (fun p => negb (down s (fst p) (snd p)) || (fst p =? 8) && (snd p =? 1)) (grid 0 9) = true) by congruence.
  assert (X2 : in_repeat_mode s = true) by congruence. split; auto. clear X E.
  intros r c Hr Hc D. rewrite forallb_forall in X1. specialize (X1 (r, c)). cbn [fst snd] in X1.
  rewrite D in X1. cbn [negb orb] in X1.
  assert (I : In (r, c) (grid 0 9)) by (unfold grid; apply in_prod_iff; rewrite !in_seq; lia).
  specialize (X1 I). lia.
Qed.
Print Assumptions C32_repeat_mode_ends_refuted.

