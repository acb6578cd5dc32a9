(** The autorepeat switch (row 8, column 7): C58. *)
From Coq Require Import List NArith ZArith Arith Bool Lia.
From Coq Require Import ZifyBool ZifyNat ZifyN.
From Verif Require Import Base Lib Buffer BufferSpec BufferProofs Repeat Devices DevSpec DevProofs
     Modifiers Hook KeymapData Asdf KeySpec KeyRef Obs Frames PropModState PropRepeatMode PropQueues PropHold.
Import ListNotations.

(** What a held key does when REPEAT is not in use. *)
Definition auto_mode (on : bool) : rstate := if on then RAuto else ROff.

(** ** Proof *)
Definition auto_codes (k : N) (m r c : nat) (code : N) : bool :=
  match decode code with AAutorepeat => (r =? 8) && (c =? 7) | _ => negb ((r =? 8) && (c =? 7)) end.
Lemma auto_codes_ok : all_codes auto_codes = true.
Proof. vm_compute. reflexivity. Qed.

Section Switch.
Variable F : bool -> rstate -> Prop.
Hypothesis F_on : F true RAuto.
Hypothesis F_off : F false ROff.

Definition SwInv (a : akb) : Prop :=
  last_low a /\ (r_state (a_rep a) = ROn \/ r_state (a_rep a) = r_base (a_rep a)) /\ F (a_dn a 8 7) (r_base (a_rep a)).
Definition sw_ok (d : bool) (q : rep) : Prop := (r_state q = ROn \/ r_state q = r_base q) /\ F d (r_base q).

Lemma sw_tick : forall d q, sw_ok d q -> sw_ok d (snd (repeat_tick q)).
Proof. intros d q H. unfold repeat_tick. destruct (r_timer q =? 0)%N; auto. cbv zeta. destruct (r_timer q - 1 =? 0)%N; exact H. Qed.
Lemma sw_press : forall d code a, decode code <> AAutorepeat -> sw_ok d (a_rep a) -> sw_ok d (a_rep (apress code a)).
Proof.
  intros d code a N H. unfold apress. destruct (0xA0 <? code)%N.
  - destruct (decode code) eqn:DC; try (rewrite on_repeat by congruence; exact H).
    unfold aaction_on. rewrite DC. cbn [a_rep put_rep]. unfold repeat_activate.
    destruct (_ || _); [|exact H]. destruct H as [H1 H2]. split; auto.
  - cbv zeta. destruct (a_last a =? code)%N; exact H.
Qed.
Lemma sw_release : forall d code a, decode code <> AAutorepeat -> sw_ok d (a_rep a) -> sw_ok d (a_rep (arelease code a)).
Proof.
  intros d code a N H. unfold arelease. destruct (0xA0 <? code)%N.
  - destruct (decode code) eqn:DC; try (rewrite off_repeat by congruence; exact H).
    unfold aaction_off. rewrite DC. cbn [a_rep put_rep]. destruct H as [H1 H2]. split; cbn; auto.
  - destruct (a_last a =? code)%N; exact H.
Qed.
Lemma sw_held : forall d code a, last_low a -> sw_ok d (a_rep a) -> sw_ok d (a_rep (aheld code a)).
Proof.
  intros d code a L H. unfold aheld. destruct (N.eqb_spec code (a_last a)); auto.
  pose proof (sw_tick d (a_rep a) H) as X. destruct (repeat_tick (a_rep a)) as [due q]. cbn [snd] in X.
  destruct due; auto. apply sw_press; auto. unfold last_low in L.
  destruct (N.eq_dec code 0xA0); [subst code; rewrite e0; cbn; discriminate|]. rewrite decode_high by lia. discriminate.
Qed.

Lemma sw_inv : forall rds x a, SwInv x -> (a_cur x < 6)%N -> Forall (fun _ => True) rds -> aticks rds x = Some a -> SwInv a.
Proof.
  apply ainv_from.
  - intros x H. unfold SwInv, last_low in *. destruct (asend_dn x) as [-> _]. rewrite send_last, send_rep. exact H.
  - intros y x H. exact H.
  - intros rd r c x _ [A B] Hr Hc Hk _ _. unfold SwInv. destruct (aheld_dn (code_now x r c) x) as [-> _].
    split; [apply held_last_low; auto|]. apply (sw_held (a_dn x 8 7)); auto.
  - intros rd r c x _ [A B] Hr Hc Hk _ _. unfold SwInv. destruct (apress_dn (code_now x r c) (accept r c true x)) as [-> _].
    pose proof (code_now_check _ auto_codes_ok x r c Hk Hr Hc) as CC. unfold auto_codes in CC.
    split; [apply press_last_low; exact A|]. cbn [a_dn accept put_dn put_ct].
    destruct (decode (code_now x r c)) eqn:DC; try (rewrite set2_other by lia; apply sw_press; [congruence|exact B]).
    assert (r = 8 /\ c = 7) as [-> ->] by lia. rewrite set2_same, (press_act _ _ _ DC) by discriminate. unfold aaction_on. rewrite DC.
    cbn [a_rep put_rep accept put_dn put_ct]. unfold repeat_auto_on. destruct B as [B1 B2].
    destruct (r_state (a_rep x)); cbn; auto.
  - intros rd r c x _ [A B] Hr Hc Hk _ _. unfold SwInv. destruct (arelease_dn (code_now x r c) (accept r c false x)) as [-> _].
    pose proof (code_now_check _ auto_codes_ok x r c Hk Hr Hc) as CC. unfold auto_codes in CC.
    split; [apply release_last_low; exact A|]. cbn [a_dn accept put_dn put_ct].
    destruct (decode (code_now x r c)) eqn:DC; try (rewrite set2_other by lia; apply sw_release; [congruence|exact B]).
    assert (r = 8 /\ c = 7) as [-> ->] by lia. rewrite set2_same, (release_act _ _ _ DC) by discriminate. unfold aaction_off. rewrite DC.
    cbn [a_rep put_rep accept put_dn put_ct]. unfold repeat_auto_off. destruct B as [B1 B2].
    destruct (r_state (a_rep x)); cbn; auto.
Qed.
End Switch.

(** Full claim: while REPEAT is not in use, held keys repeat iff the switch is
    closed.  Proved: from the first time the switch was accepted closed, the
    mode is the one of the switch, whatever else happens; and before that it is
    autorepeat.  Missing: the switch open since power-up, refuted below. *)
Theorem C58_follows_switch_partial : forall r1 r2 s0 s, run r1 = Ok s0 -> down s0 8 7 = true -> run (r1 ++ r2) = Ok s ->
  in_repeat_mode s = false -> r_state (k_rep s) = auto_mode (down s 8 7).
Proof.
  intros r1 r2 s0 s H0 D0 H M. destruct (reach _ _ H0) as [a0 [A0 R0]]. destruct (reach _ _ H) as [a [A RL]].
  unfold arun in *. rewrite aticks_app, A0 in A. cbn [obind] in A.
  assert (I1 : SwInv (fun d b => d = true -> b = RAuto) a0).
  { refine (sw_inv (fun d b => d = true -> b = RAuto) _ _ r1 aboot a0 _ _ (True_all _) A0); [reflexivity|discriminate| |reflexivity].
    split; [exact (N.le_refl 0xA0)|]. split; [right; reflexivity|]. intros X. discriminate X. }
  destruct I1 as (L1 & S1 & B1). rewrite (down_ok _ _ _ _ R0) in D0 by lia.
  assert (I2 : SwInv (fun d b => b = auto_mode d) a).
  { refine (sw_inv (fun d b => b = auto_mode d) _ _ r2 a0 a _ (rl_lt _ _ R0) (True_all _) A); [reflexivity|reflexivity|].
    split; auto. split; auto. rewrite D0. auto. }
  destruct I2 as (_ & S2 & B2). rewrite (down_ok _ _ _ _ RL), (rl_rep _ _ RL) by lia. unfold in_repeat_mode in M. rewrite (rl_rep _ _ RL) in M.
  destruct S2 as [S2|S2]; [rewrite S2 in M; discriminate|]. congruence.
Qed.
Print Assumptions C58_follows_switch_partial.

(** With the mode off, a character key held from rest is typed once. *)
Theorem C58_off_types_once_partial : forall pre s r c rds, run pre = Ok s -> (k_cur s < 4)%N -> r < 9 -> c < 8 ->
  down s r c = false -> (key_code s r c < 0xA0)%N -> k_last s = 0xA0%N ->
  key_queue s = [] -> msg_queue s = [] -> r_state (k_rep s) = auto_mode false ->
  others_differ s r c -> others_coded s r c -> Forall (also s r c) rds ->
  exists s', ticks rds s = Ok s' /\
    sent s' = sent s ++ (if length rds <=? count s r c then [] else [key_code s r c]).
Proof.
  intros pre s r c rds H Hk Hr Hc D LOW HL HQK HQM HT HO HA HF. destruct (reach _ _ H) as [a [A RL]].
  destruct (count_ok _ _ r c RL ltac:(lia) Hc) as [CK CB].
  destruct (up_ticks rds r c (fun x => x = key_code s r c \/ x = 0xA0%N) (key_code s r c) (a_ct a r c) (a_rep a) a Hr Hc) as (a'&E&L); auto.
  - lia.
  - eapply Forall_impl; [|exact HF]. intros rd HS. split; [|apply HS].
    apply (steady_intro _ s); auto. intros r' c' H1 H2 H3 H4 [H5|H5]; [apply (HO r' c')|apply (HA r' c')]; auto.
  - constructor; auto.
    + rewrite <- (down_ok _ _ _ _ RL) by lia. auto.
    + rewrite (key_code_ok _ _ _ _ RL). auto.
    + rewrite <- (rl_last _ _ RL). auto.
    + rewrite <- (msg_queue_ok _ _ RL). auto.
    + rewrite <- (key_queue_ok _ _ RL). auto.
  - pose proof (ticks_sim rds _ _ RL) as X. unfold sim in X. rewrite E in X. destruct X as [s' [E' RL']].
    exists s'. split; auto. rewrite (sent_ok _ _ RL), (sent_ok _ _ RL'), L, sends_app, sends_repeat. f_equal.
    rewrite <- (rl_rep _ _ RL), HT. cbn [rval auto_mode]. rewrite <- CK, Nat2N.id.
    destruct (Nat.leb_spec (length rds) (count s r c)).
    + replace (length rds - count s r c) with 0 by lia. reflexivity.
    + destruct (length rds - count s r c) as [|n] eqn:EN; [lia|]. cbn [emitted]. change (next_p 0) with false. change (next_t 0) with 0%N.
      rewrite emitted_off. reflexivity.
Qed.
Print Assumptions C58_off_types_once_partial.

(** Switch closed and opened again, then a key held for 800 ticks. *)
Example C58_example :
  obs (fun s => (down s 8 7, in_repeat_mode s)) (run (hold 12 [(8, 7)])) = Some (true, false) /\
  obs (fun s => (down s 8 7, r_state (k_rep s), k_last s, key_queue s, msg_queue s)) (run (hold 12 [(8, 7)] ++ hold 12 [])) =
    Some (false, ROff, 160%N, [], []) /\
  obs sent (run (hold 12 [(8, 7)] ++ hold 12 [] ++ hold 800 [(1, 1)])) = Some [112%N] /\
  obs sent (run (hold 812 [(8, 7); (1, 1)])) = Some [112; 112; 112; 112; 112; 112]%N.
Proof. vm_compute. auto. Qed.

(** The switch open since power-up: held keys repeat all the same. *)
Theorem C58_follows_switch_refuted : exists rds s, run rds = Ok s /\ Forall (fun rd => reading rd 8 7 = false) rds /\
  in_repeat_mode s = false /\ r_state (k_rep s) = auto_mode true /\ sent s = [112; 112]%N.
Proof.
  exists (hold 560 [(1, 1)]).
  assert (X : obs (fun s => (in_repeat_mode s, r_state (k_rep s), sent s)) (run (hold 560 [(1, 1)])) = Some (false, RAuto, [112; 112]%N))
    by (vm_compute; reflexivity).
  apply obs_some in X. destruct X as [s [E X]]. exists s. split; auto.
  apply pair_inj in X. destruct X as [X X3]. apply pair_inj in X. destruct X as [X1 X2]. repeat split; auto.
  apply Forall_forall. intros rd H. apply repeat_spec in H. subst rd. reflexivity.
Qed.
Print Assumptions C58_follows_switch_refuted.
