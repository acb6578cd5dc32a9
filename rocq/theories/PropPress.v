(** Pressing and holding a key from any quiet state: C30, the whole law. *)
From Coq Require Import List NArith ZArith Arith Bool Lia.
From Coq Require Import ZifyBool ZifyNat ZifyN.
From Verif Require Import Base Lib Buffer BufferSpec BufferProofs Repeat Devices DevSpec DevProofs
     Modifiers Hook KeymapData Asdf KeySpec KeyRef Obs Frames PropModState PropQueues PropHold.
Import ListNotations.

(** ** Specification *)
(** Codes received after [n] ticks of a key accepted by scan [k] that first
    repeats [t] ticks later, then every 66; [t] zero: it does not repeat. *)
Definition typed_after (k t n : nat) : nat :=
  if n <=? k then 0 else if (t =? 0) || (n <=? k + t) then 1 else 2 + (n - (k + t + 1)) / 66.
(** The delay before the first repeat of [code]: as the mode says, except that a
    press of the code pressed last does not restart the running count. *)
Definition first_delay (s : kb) (code : N) : nat :=
  if (k_last s =? code)%N then N.to_nat (r_timer (k_rep s))
  else match r_state (k_rep s) with RAuto => 525 | ROn => 66 | ROff => 0 end.
(** No other key that is down is repeating. *)
Definition others_idle (s : kb) (r c : nat) : Prop :=
  forall r' c', r' < 9 -> c' < 8 -> ~ (r' = r /\ c' = c) -> down s r' c' = true -> key_code s r' c' <> k_last s.

(** ** Proof *)
Record Up' (r c : nat) (x code : N) (k : N) (q : rep) (a : akb) : Prop := mkUp' {
  u_dn : a_dn a r c = false;
  u_code : code_now a r c = code;
  u_last : a_last a = x;
  u_low : (code < 0xA0)%N;
  u_qm : a_qm a = [];
  u_qk : a_qk a = [];
  u_ct : a_ct a r c = k;
  u_rep : a_rep a = q
}.
Definition start (x code : N) (q : rep) : N := if (x =? code)%N then r_timer q else rval (r_state q).

Lemma up'_tick : forall rd r c (L : N -> Prop) x code k q a, r < 9 -> c < 8 -> L code -> L x -> Steady rd r c L a -> reading rd r c = true ->
  Up' r c x code k q a ->
  exists a', atick rd a = Some a' /\ Steady rd r c L a' /\ a_cur a' = a_cur a /\ a_mod a' = a_mod a /\
    (forall r' c', ~ (r' = r /\ c' = c) -> a_dn a' r' c' = a_dn a r' c') /\ a_log a' = a_log a /\
    if (k =? 1)%N then Down r c code true (start x code q) a' else Up' r c x code (k - 1) q a'.
Proof.
  intros rd r c L x code k q a Hr Hc HLC HL0 ST RD [D1 D2 D3 D4 D5 D6 D7 D8].
  assert (SA : asend a = a) by (unfold asend; rewrite D5, D6; auto).
  set (b := if (k =? 1)%N then
              (if (x =? code)%N then put_qk [code] (accept r c true a)
               else put_rep (repeat_reset_count q) (put_last code (put_qk [code] (accept r c true a))))
            else put_ct (set2 (a_ct a) r c (k - 1)%N) a).
  assert (KS : key_step rd r c a = Some b).
  { unfold key_step, acode. rewrite RD, D1, D7. cbn [Bool.eqb]. unfold b. destruct (k =? 1)%N; [|reflexivity].
    cbv zeta. cbn [a_cur a_mod put_dn put_ct]. replace (a_cur a <? 4)%N with true by (destruct ST; lia). cbn [obind].
    change (code_at _ _ _ _) with (code_now a r c). rewrite D2. unfold apress. replace (0xA0 <? code)%N with false by lia.
    cbv zeta. cbn [a_last a_qk a_rep put_dn put_ct put_qk]. rewrite D3, D6, D8. destruct (x =? code)%N; reflexivity. }
  assert (BF : a_cur b = a_cur a /\ a_mod b = a_mod a /\ (forall r' c', ~ (r' = r /\ c' = c) -> a_dn b r' c' = a_dn a r' c') /\
     a_log b = a_log a /\ L (a_last b)).
  { unfold b. destruct (k =? 1)%N; [destruct (x =? code)%N|]; cbn [a_cur a_mod a_dn a_last a_log put_qk put_rep put_last accept put_dn put_ct]; rewrite ?D3; auto 10;
    repeat split; auto; intros r' c' Hn; apply set2_other; apply not_at'; tauto. }
  destruct BF as (B1&B2&B3&B4&B5).
  assert (SB : Steady rd r c L b) by (apply (steady_same _ _ _ _ a); auto).
  exists b. split.
  { rewrite (one_key_tick rd r c L); rewrite ?SA, ?D3; auto. intros b' E. rewrite KS in E. inv E. auto. }
  repeat (split; auto). unfold b, start in *. destruct (N.eqb_spec k 1); [destruct (N.eqb_spec x code) as [EX|EX]|].
  - constructor; auto; cbn [a_dn a_last a_rep put_qk accept put_dn put_ct]; [apply set2_same|congruence|rewrite D8; reflexivity].
  - constructor; auto. cbn [a_dn put_rep put_last put_qk accept put_dn]. apply set2_same.
  - constructor; auto. cbn [a_ct put_ct]. unfold set2. rewrite !Nat.eqb_refl. reflexivity.
Qed.

Lemma up'_ticks : forall rds r c (L : N -> Prop) x code k q a, r < 9 -> c < 8 -> L code -> L x -> (0 < k)%N ->
  Forall (fun rd => Steady rd r c L a /\ reading rd r c = true) rds ->
  Up' r c x code k q a ->
  exists a', aticks rds a = Some a' /\
    rev (a_log a') = rev (a_log a) ++
      repeat (EvSend code) (emitted (length rds - N.to_nat k) true (start x code q)).
Proof.
  induction rds as [|rd rds IH]; intros r c L x code k q a Hr Hc HLC HL0 Hk HF HU.
  - exists a. split; auto. cbn. rewrite app_nil_r. auto.
  - inv HF. destruct H1 as [ST RD]. destruct (up'_tick _ _ _ _ _ _ _ _ _ Hr Hc HLC HL0 ST RD HU) as (b&E&SB&E1&E2&E3&EL&EB).
    assert (HFB : Forall (fun rd => Steady rd r c L b /\ reading rd r c = true) rds).
    { eapply Forall_impl; [|exact H2]. intros rd' [S' R']. split; auto. apply (steady_same _ _ _ _ a); auto. }
    cbn [aticks length]. rewrite E. cbn [obind]. rewrite <- EL. destruct (N.eqb_spec k 1).
    + subst k. change (N.to_nat 1) with 1. replace (S (length rds) - 1) with (length rds) by lia.
      exact (down_ticks rds r c L code true _ b Hr Hc HLC HFB EB).
    + destruct (IH r c L x code (k - 1)%N q b Hr Hc HLC HL0 ltac:(lia) HFB EB) as (a'&E'&L'). exists a'. split; auto.
      rewrite L'. replace (length rds - N.to_nat (k - 1)) with (S (length rds) - N.to_nat k) by lia. reflexivity.
Qed.

Lemma emitted_typed : forall k t n, emitted (n - k) true t = typed_after k (N.to_nat t) n.
Proof.
  intros k t n. unfold typed_after. destruct (Nat.leb_spec n k); [replace (n - k) with 0 by lia; reflexivity|].
  destruct (Nat.eqb_spec (N.to_nat t) 0) as [Z|Z].
  - replace t with 0%N by lia. cbn [orb]. destruct (n - k) as [|m] eqn:M; [lia|]. cbn [emitted next_p next_t]. change (next_t 0) with 0%N.
    change (next_p 0) with false. rewrite emitted_off. reflexivity.
  - rewrite emitted_on by lia. rewrite Nat.min_r by lia. cbn [orb]. destruct (Nat.leb_spec n (k + N.to_nat t)).
    + replace (n - k <=? N.to_nat t) with true by lia. reflexivity.
    + replace (n - k <=? N.to_nat t) with false by lia. replace (n - k - 1 - N.to_nat t) with (n - (k + N.to_nat t + 1)) by lia. lia.
Qed.

(** ** C30 *)
(** The whole law: in whatever way the state was reached and whatever key was
    pressed last, in autorepeat, REPEAT mode or neither, a key pressed and held
    while nothing is queued and no other key repeats is received exactly so. *)
Theorem C30_press_law_partial : forall pre s r c rds, run pre = Ok s -> (k_cur s < 4)%N -> r < 9 -> c < 8 ->
  down s r c = false -> (key_code s r c < 0xA0)%N -> key_queue s = [] -> msg_queue s = [] ->
  others_differ s r c -> others_idle s r c -> Forall (also s r c) rds ->
  exists s', ticks rds s = Ok s' /\
    events s' = events s ++ repeat (EvSend (key_code s r c)) (typed_after (count s r c) (first_delay s (key_code s r c)) (length rds)).
Proof.
  intros pre s r c rds H Hk Hr Hc D LOW HQK HQM HO HA HF. destruct (reach _ _ H) as [a [A RL]].
  destruct (count_ok _ _ r c RL ltac:(lia) Hc) as [CK CB].
  destruct (up'_ticks rds r c (fun x => x = key_code s r c \/ x = k_last s) (k_last s) (key_code s r c) (a_ct a r c) (a_rep a) a Hr Hc) as (a'&E&L); auto.
  - lia.
  - eapply Forall_impl; [|exact HF]. intros rd HS. split; [|apply HS].
    apply (steady_intro _ s); auto. intros r' c' H1 H2 H3 H4 [H5|H5]; [apply (HO r' c')|apply (HA r' c')]; auto.
  - constructor; auto.
    + rewrite <- (down_ok _ _ _ _ RL) by lia. auto.
    + rewrite (key_code_ok _ _ _ _ RL). auto.
    + rewrite <- (rl_last _ _ RL). auto.
    + rewrite <- (msg_queue_ok _ _ RL). auto.
    + rewrite <- (key_queue_ok _ _ RL). auto.
  - pose proof (ticks_sim rds _ _ RL) as X. unfold sim in X. rewrite E in X. destruct X as [s' [E' RL']].
    exists s'. split; auto. rewrite (events_ok _ _ RL), (events_ok _ _ RL'), L. do 2 f_equal.
    rewrite <- CK, Nat2N.id, emitted_typed. f_equal. unfold start, first_delay. rewrite <- (rl_rep _ _ RL).
    destruct (k_last s =? key_code s r c)%N; [reflexivity|]. destruct (r_state (k_rep s)); reflexivity.
Qed.
Print Assumptions C30_press_law_partial.

(** So after any history whatever, with every key up, the full delay applies
    unless the key carries the code pressed last.  Missing: that key, whose press
    lets the old count run on, see C30_new_press_full_delay_refuted. *)
Theorem C30_other_code_full_delay_partial : forall pre s r c rds, run pre = Ok s -> (k_cur s < 4)%N ->
  all_up s -> key_queue s = [] -> msg_queue s = [] -> r < 9 -> c < 8 -> (key_code s r c < 0xA0)%N ->
  r_state (k_rep s) = RAuto -> key_code s r c <> k_last s -> Forall (also s r c) rds ->
  exists s', ticks rds s = Ok s' /\ sent s' = sent s ++ repeat (key_code s r c) (typed (count s r c) (length rds)).
Proof.
  intros pre s r c rds H Hk UP QK QM Hr Hc LOW HT HL HF.
  destruct (C30_press_law_partial pre s r c rds) as (s'&E&L); auto.
  - intros r' c' H1 H2 _ D. rewrite UP in D by auto. discriminate D.
  - intros r' c' H1 H2 _ D. rewrite UP in D by auto. discriminate D.
  - exists s'. split; [exact E|]. unfold sent. rewrite L, sends_app, sends_repeat. do 2 f_equal.
    unfold first_delay. rewrite HT. replace (k_last s =? key_code s r c)%N with false by (clear -HL; lia).
    unfold typed_after, typed. change (525 =? 0) with false. cbn [orb]. rewrite <- Nat.add_assoc. reflexivity.
Qed.
Print Assumptions C30_other_code_full_delay_partial.

(** "p" left behind as the last code (the witness of C30_new_press_full_delay_refuted):
    pressed again, it repeats after the 126 ticks left on the count; "]" (6, 1) gets
    the full delay.  With REPEAT (5, 1) held the delay is 66. *)
Definition leaves_p : list (nat -> N) := hold 400 [(1, 1)] ++ hold 12 [(1, 1); (0, 1)] ++ hold 12 [(0, 1)] ++ hold 12 [].
Example C30_law_example :
  obs (fun s => (k_last s, key_code s 1 1, key_code s 6 1, closed_check s (matrix []), key_queue s, count s 1 1)) (run leaves_p) =
    Some (112%N, 112%N, 93%N, true, [], 10) /\
  obs (fun s => (first_delay s 112, first_delay s 93)) (run leaves_p) = Some (126, 525) /\
  map (fun n => obs sent (run (leaves_p ++ hold n [(1, 1)]))) [10; 11; 136; 137; 202; 203] =
  map (fun k => Some (112%N :: repeat 112%N k)) (map (typed_after 10 126) [10; 11; 136; 137; 202; 203]) /\
  map (typed_after 10 126) [10; 11; 136; 137; 202; 203] = [0; 1; 1; 2; 2; 3] /\
  obs (fun s => (first_delay s 112, k_last s)) (run (hold 20 [(5, 1)])) = Some (66, 160%N) /\
  map (fun n => obs sent (run (hold 20 [(5, 1)] ++ hold n [(5, 1); (1, 1)]))) [10; 11; 76; 77; 143] =
  map (fun k => Some (repeat 112%N k)) (map (typed_after 10 66) [10; 11; 76; 77; 143]).
Proof. vm_compute. auto 10. Qed.
