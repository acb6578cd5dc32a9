(** Holding a key, end to end: C29-C31. *)
From Coq Require Import List NArith ZArith Arith Bool Lia.
From Coq Require Import ZifyBool ZifyNat ZifyN.
From Verif Require Import Base Lib Buffer BufferSpec BufferProofs Repeat Devices DevSpec DevProofs
     Modifiers Hook KeymapData Asdf KeySpec KeyRef Obs Frames PropModState PropQueues.
Import ListNotations.

(** ** One key, the others steady *)
(** [L]: the codes that may be the repeating one meanwhile. *)
Definition Steady (rd : nat -> N) (r c : nat) (L : N -> Prop) (a : akb) : Prop :=
  (a_cur a < 4)%N /\
  forall r' c', r' < 9 -> c' < 8 -> ~ (r' = r /\ c' = c) ->
    reading rd r' c' = a_dn a r' c' /\
    (a_dn a r' c' = true -> ~ L (code_now a r' c')).

Lemma steady_same : forall rd r c L a b, Steady rd r c L a -> a_cur b = a_cur a -> a_mod b = a_mod a ->
  (forall r' c', ~ (r' = r /\ c' = c) -> a_dn b r' c' = a_dn a r' c') -> Steady rd r c L b.
Proof.
  intros rd r c L a b [C H] EC EM ED. split; [rewrite EC; auto|]. intros r' c' Hr Hc Hn.
  unfold code_now. rewrite EC, EM, (ED r' c' Hn). apply (H r' c' Hr Hc Hn).
Qed.

Lemma other_key : forall rd r c L a r' c', Steady rd r c L a -> L (a_last a) ->
  r' < 9 -> c' < 8 -> ~ (r' = r /\ c' = c) -> key_step rd r' c' a = Some a.
Proof.
  intros rd r c L a r' c' [C H] HL Hr Hc Hn. destruct (H r' c' Hr Hc Hn) as [H1 H2].
  unfold key_step, acode. rewrite H1. rewrite eqb_reflx. destruct (a_dn a r' c'); auto.
  replace (a_cur a <? 4)%N with true by lia. cbn [obind]. specialize (H2 eq_refl).
  fold (code_now a r' c'). unfold aheld. destruct (N.eqb_spec (code_now a r' c') (a_last a)); auto. exfalso. apply H2. congruence.
Qed.

Lemma one_key : forall rd r c L ps a, Steady rd r c L a -> L (a_last a) ->
  (forall b, key_step rd r c a = Some b -> Steady rd r c L b /\ L (a_last b)) ->
  NoDup ps -> Forall (fun p => fst p < 9 /\ snd p < 8) ps ->
  keys_step rd ps a = if existsb (fun p => (fst p =? r) && (snd p =? c)) ps then key_step rd r c a else Some a.
Proof.
  intros rd r c L.
  assert (REST : forall ps a, Steady rd r c L a -> L (a_last a) ->
    Forall (fun p => fst p < 9 /\ snd p < 8) ps -> ~ In (r, c) ps -> keys_step rd ps a = Some a).
  { induction ps as [|[r' c'] ps IH]; intros a ST HL HF HN; [reflexivity|]. inv HF. cbn [fst snd] in H1.
    rewrite keys_cons. rewrite (other_key rd r c L); auto; try tauto.
    - cbn [obind]. apply IH; auto. intros HI. apply HN. right; auto.
    - intros [-> ->]. apply HN. left; auto. }
  induction ps as [|[r' c'] ps IH]; intros a ST HL HS ND HF; [reflexivity|]. inv HF. cbn [fst snd] in H1. inv ND.
  rewrite keys_cons. cbn [existsb fst snd].
  destruct (Nat.eqb_spec r' r), (Nat.eqb_spec c' c); cbn [andb orb];
    try (rewrite (other_key rd r c L) by (auto; try tauto); cbn [obind]; apply IH; auto).
  subst r' c'. destruct (key_step rd r c a) as [b|] eqn:E; auto. cbn [obind]. destruct (HS b eq_refl). apply REST; auto.
Qed.

Lemma one_key_tick : forall rd r c L a, r < 9 -> c < 8 -> Steady rd r c L (asend a) ->
  L (a_last a) ->
  (forall b, key_step rd r c (asend a) = Some b -> Steady rd r c L b /\ L (a_last b)) ->
  atick rd a = key_step rd r c (asend a).
Proof.
  intros rd r c L a Hr Hc ST HL HS. unfold atick, ascan.
  rewrite (one_key rd r c L); auto; [|rewrite send_last; auto|apply NoDup_grid|apply (grid_bounds 0 9 9); lia].
  replace (existsb _ _) with true; [|symmetry; apply in_grid; lia].
  destruct (key_step rd r c (asend a)) as [b|] eqn:E; auto. cbn [obind]. destruct (HS b eq_refl) as [[C _] _].
  rewrite rows_9 by auto. apply keys_none.
Qed.

(** ** A key that stays down *)
Record Down (r c : nat) (code : N) (p : bool) (t : N) (a : akb) : Prop := mkDown {
  dw_dn : a_dn a r c = true;
  dw_code : code_now a r c = code;
  dw_last : a_last a = code;
  dw_low : (code < 0xA0)%N;
  dw_qm : a_qm a = [];
  dw_qk : a_qk a = if p then [code] else [];
  dw_t : r_timer (a_rep a) = t
}.

Definition next_p (t : N) : bool := (t =? 1)%N.
Definition next_t (t : N) : N := if (t =? 1)%N then 66%N else (t - 1)%N.

Lemma repeat_tick_next : forall q, exists q', repeat_tick q = (next_p (r_timer q), q') /\ r_timer q' = next_t (r_timer q) /\
  r_state q' = r_state q /\ r_base q' = r_base q.
Proof.
  intros [st ba t]. unfold repeat_tick, next_p, next_t. cbn [r_timer r_state r_base].
  destruct (N.eqb_spec t 0); [subst; eexists; cbn; auto|].
  destruct (N.eqb_spec t 1); [subst; eexists; cbn; auto|].
  destruct (N.eqb_spec (t - 1) 0); [lia|]. eexists; cbn; auto.
Qed.

Lemma down_tick : forall rd r c (L : N -> Prop) code p t a, r < 9 -> c < 8 -> L code -> Steady rd r c L a -> reading rd r c = true ->
  Down r c code p t a ->
  exists a', atick rd a = Some a' /\ Steady rd r c L a' /\ Down r c code (next_p t) (next_t t) a' /\
    a_cur a' = a_cur a /\ a_mod a' = a_mod a /\ a_dn a' = a_dn a /\
    rev (a_log a') = rev (a_log a) ++ (if p then [EvSend code] else []).
Proof.
  intros rd r c L code p t a Hr Hc HLC ST RD [D1 D2 D3 D4 D5 D6 D7].
  assert (SD : a_dn (asend a) = a_dn a) by apply asend_dn.
  assert (STS : Steady rd r c L (asend a)).
  { apply (steady_same _ _ _ _ a); auto; [apply send_cur|apply send_mod|]. intros r' c' _. rewrite SD. auto. }
  assert (CN : code_now (asend a) r c = code) by (unfold code_now; rewrite send_cur, send_mod; exact D2).
  destruct (repeat_tick_next (a_rep (asend a))) as [q [Q1 [Q2 _]]]. rewrite send_rep, D7 in Q1, Q2.
  assert (QK : a_qk (asend a) = []).
  { unfold asend. rewrite D5, D6. destruct p; [|exact D6]. destruct (code <? 0xA0)%N; reflexivity. }
  assert (QM : a_qm (asend a) = []).
  { unfold asend. rewrite D5, D6. destruct p; [|exact D5]. destruct (code <? 0xA0)%N; exact D5. }
  assert (LG : rev (a_log (asend a)) = rev (a_log a) ++ (if p then [EvSend code] else [])).
  { unfold asend. rewrite D5, D6. destruct p; [|rewrite app_nil_r; reflexivity].
    replace (code <? 0xA0)%N with true by lia. reflexivity. }
  set (b := if next_p t then put_qk [code] (put_rep q (asend a)) else put_rep q (asend a)).
  assert (KS : key_step rd r c (asend a) = Some b).
  { unfold key_step, acode. rewrite RD, SD, D1. cbn [Bool.eqb]. rewrite send_cur. replace (a_cur a <? 4)%N with true by (destruct ST; lia).
    cbn [obind]. f_equal.
    replace (code_at (a_cur a) (map_now (a_mod (asend a))) r c) with code by (rewrite send_mod; symmetry; exact D2).
    unfold aheld. rewrite send_last, D3, N.eqb_refl. rewrite send_rep. rewrite Q1. unfold b. destruct (next_p t); auto.
    unfold apress. replace (0xA0 <? code)%N with false by lia. cbn [a_last a_qk put_rep put_qk].
    rewrite send_last, D3, N.eqb_refl, QK. reflexivity. }
  assert (BF : a_cur b = a_cur a /\ a_mod b = a_mod a /\ a_dn b = a_dn a /\ a_last b = code /\ a_qm b = [] /\ a_log b = a_log (asend a) /\
     r_timer (a_rep b) = next_t t /\ a_qk b = if next_p t then [code] else []).
  { unfold b. destruct (next_p t); cbn [a_cur a_mod a_dn a_last a_qm a_log a_rep a_qk put_qk put_rep];
      rewrite send_cur, send_mod, SD, send_last, QM, ?QK; auto 10. }
  clearbody b. destruct BF as (B1&B2&B3&B4&B5&B6&B7&B8).
  assert (SB : Steady rd r c L b).
  { apply (steady_same _ _ _ _ a); auto. intros r' c' _. rewrite B3. auto. }
  exists b. split.
  { rewrite (one_key_tick rd r c L); auto; [rewrite D3; auto|]. intros b' E. rewrite KS in E. inv E. rewrite B4. auto. }
  split; auto. split; [|rewrite B6; auto].
  constructor; auto; [rewrite B3; auto|]. unfold code_now. rewrite B1, B2. exact D2.
Qed.

Lemma sends_repeat : forall x n, sends (repeat (EvSend x) n) = repeat x n.
Proof. intros x. induction n as [|n IH]; [reflexivity|]. cbn [repeat]. rewrite <- IH. reflexivity. Qed.

(** Codes sent in [n] ticks with a code waiting ([p]) and [t] ticks on the timer. *)
Fixpoint emitted (n : nat) (p : bool) (t : N) : nat :=
  match n with 0 => 0 | S n => (if p then 1 else 0) + emitted n (next_p t) (next_t t) end.

Lemma down_ticks : forall rds r c (L : N -> Prop) code p t a, r < 9 -> c < 8 -> L code ->
  Forall (fun rd => Steady rd r c L a /\ reading rd r c = true) rds ->
  Down r c code p t a ->
  exists a', aticks rds a = Some a' /\
    rev (a_log a') = rev (a_log a) ++ repeat (EvSend code) (emitted (length rds) p t).
Proof.
  induction rds as [|rd rds IH]; intros r c L code p t a Hr Hc HLC HF HD.
  - exists a. split; auto. cbn. rewrite app_nil_r. auto.
  - inv HF. destruct H1 as [ST RD]. destruct (down_tick _ _ _ _ _ _ _ _ Hr Hc HLC ST RD HD) as (b&E&SB&DB&E1&E2&E3&EL).
    destruct (IH r c L code (next_p t) (next_t t) b Hr Hc HLC) as (a'&E'&L'); [|exact DB|].
    { eapply Forall_impl; [|exact H2]. intros rd' [S' R']. split; auto.
      apply (steady_same _ _ _ _ a); auto. intros r' c' _. rewrite E3. auto. }
    exists a'. cbn [aticks length emitted]. rewrite E. cbn [obind]. split; auto. rewrite L', EL, <- app_assoc. f_equal.
    destruct p; auto.
Qed.

(** ** Closed form *)
Lemma emitted_off : forall n, emitted n false 0 = 0.
Proof. induction n; auto. Qed.
Lemma emitted_on : forall n p t, (0 < t)%N ->
  emitted n p t = (if p then Nat.min n 1 else 0) + (if n <=? N.to_nat t then 0 else 1 + (n - 1 - N.to_nat t) / 66).
Proof.
  induction n as [|n IH]; intros p t Ht; [destruct p; reflexivity|].
  cbn [emitted]. unfold next_p, next_t. destruct (N.eqb_spec t 1).
  - rewrite IH by lia. subst t. change (N.to_nat 66) with 66. change (N.to_nat 1) with 1.
    destruct n as [|n]; [destruct p; reflexivity|].
    replace (if p then Nat.min (S (S n)) 1 else 0) with (if p then 1 else 0) by (destruct p; auto).
    replace (S (S n) <=? 1) with false by lia. replace (S (S n) - 1 - 1) with n by lia.
    destruct (Nat.leb_spec (S n) 66).
    + rewrite Nat.div_small by lia. lia.
    + replace (n / 66) with ((S n - 1 - 66 + 1 * 66) / 66) by (apply (f_equal (fun x => x / 66)); lia). rewrite Nat.div_add by lia. lia.
  - rewrite IH by lia. replace (N.to_nat (t - 1)) with (N.to_nat t - 1) by lia.
    replace (if p then Nat.min (S n) 1 else 0) with (if p then 1 else 0) by (destruct p; lia).
    replace (n <=? N.to_nat t - 1) with (S n <=? N.to_nat t) by lia.
    replace (S n - 1 - N.to_nat t) with (n - 1 - (N.to_nat t - 1)) by lia. destruct (S n <=? N.to_nat t); lia.
Qed.

(** ** C31 *)
(** Only the keys that are down are closed, or these and (r, c). *)
Definition same_keys (s : kb) (rd : nat -> N) : Prop :=
  forall r c, r < 9 -> c < 8 -> reading rd r c = down s r c.
Definition also (s : kb) (r c : nat) (rd : nat -> N) : Prop :=
  reading rd r c = true /\
  forall r' c', r' < 9 -> c' < 8 -> ~ (r' = r /\ c' = c) -> reading rd r' c' = down s r' c'.
(** The other keys that are down carry codes other than that of (r, c). *)
Definition others_differ (s : kb) (r c : nat) : Prop :=
  forall r' c', r' < 9 -> c' < 8 -> ~ (r' = r /\ c' = c) -> down s r' c' = true ->
    key_code s r' c' <> key_code s r c.
(** ... and none of them is without a code. *)
Definition others_coded (s : kb) (r c : nat) : Prop :=
  forall r' c', r' < 9 -> c' < 8 -> ~ (r' = r /\ c' = c) -> down s r' c' = true -> key_code s r' c' <> 0xA0%N.

Lemma steady_intro : forall a s rd r c (L : N -> Prop), Rel a s -> (k_cur s < 4)%N -> r < 9 -> c < 8 -> also s r c rd -> 
  (forall r' c', r' < 9 -> c' < 8 -> ~ (r' = r /\ c' = c) -> down s r' c' = true -> ~ L (key_code s r' c')) ->
  Steady rd r c L a.
Proof.
  intros a s rd r c L RL Hk Hr Hc [_ HA] HO. split; [rewrite <- (rl_cur _ _ RL); auto|].
  intros r' c' Hr' Hc' Hn. rewrite (HA r' c' Hr' Hc' Hn), <- (down_ok _ _ _ _ RL) by lia. split; auto.
  intros D. rewrite <- (key_code_ok _ _ _ _ RL). apply HO; auto.
Qed.

(** Codes sent by a key that repeats with [t] ticks left on the timer. *)
Definition repeats (t n : nat) : nat := if n <=? t then 0 else 1 + (n - 1 - t) / 66.

(** The pace of a repeating key is decided by the repeat timer alone, whatever
    other keys are down, provided they carry other codes.  Missing: two keys with
    the same code, see below. *)
Theorem C31_repeat_pace_partial : forall pre s r c rds, run pre = Ok s -> (k_cur s < 4)%N -> r < 9 -> c < 8 ->
  down s r c = true -> (key_code s r c < 0xA0)%N -> k_last s = key_code s r c ->
  key_queue s = [] -> msg_queue s = [] -> (0 < r_timer (k_rep s))%N ->
  others_differ s r c -> Forall (same_keys s) rds ->
  exists s', ticks rds s = Ok s' /\
    sent s' = sent s ++ repeat (key_code s r c) (repeats (N.to_nat (r_timer (k_rep s))) (length rds)).
Proof.
  intros pre s r c rds H Hk Hr Hc D LOW HL HQK HQM HT HO HF. destruct (reach _ _ H) as [a [A RL]].
  destruct (down_ticks rds r c (eq (key_code s r c)) (key_code s r c) false (r_timer (k_rep s)) a Hr Hc eq_refl) as (a'&E&L).
  - eapply Forall_impl; [|exact HF]. intros rd HS. split; [|rewrite HS; auto].
    apply (steady_intro _ s); auto; [|intros r' c' H1 H2 H3 H4 H5; apply (HO r' c' H1 H2 H3 H4); auto].
    split; [rewrite HS; auto|]. intros. apply HS; auto.
  - constructor; auto.
    + rewrite <- (down_ok _ _ _ _ RL) by lia. auto.
    + rewrite (key_code_ok _ _ _ _ RL). auto.
    + rewrite <- HL, (rl_last _ _ RL). auto.
    + rewrite <- (msg_queue_ok _ _ RL). auto.
    + rewrite <- (key_queue_ok _ _ RL). auto.
    + rewrite (rl_rep _ _ RL). auto.
  - pose proof (ticks_sim rds _ _ RL) as X. unfold sim in X. rewrite E in X. destruct X as [s' [E' RL']].
    exists s'. split; auto. rewrite (sent_ok _ _ RL), (sent_ok _ _ RL'), L, emitted_on, sends_app, sends_repeat by auto. reflexivity.
Qed.
Print Assumptions C31_repeat_pace_partial.

(** ** C29 *)
Definition count (s : kb) (r c : nat) : nat := N.to_nat (nth (r * 8 + c) (k_cnt s) 0%N).
Lemma count_ok : forall a s r c, Rel a s -> r < 16 -> c < 8 -> N.of_nat (count s r c) = a_ct a r c /\ 1 <= count s r c <= 10.
Proof.
  intros a s r c RL Hr Hc. unfold count.
  assert (HL : r * 8 + c < length (k_cnt s)) by (rewrite (rl_cntlen _ _ RL); lia).
  destruct (nth_error_ex _ _ _ HL) as [v E]. rewrite (nth_error_nth _ _ _ E).
  destruct (rl_cnt _ _ RL r c v Hc E). lia.
Qed.

Lemma not_at' : forall r c r' c' : nat, ~ (r' = r /\ c' = c) -> r <> r' \/ c <> c'.
Proof. intros. lia. Qed.

Record Up (r c : nat) (code : N) (k : N) (q : rep) (a : akb) : Prop := mkUp {
  up_dn : a_dn a r c = false;
  up_code : code_now a r c = code;
  up_last : a_last a = 0xA0%N;
  up_low : (code < 0xA0)%N;
  up_qm : a_qm a = [];
  up_qk : a_qk a = [];
  up_ct : a_ct a r c = k;
  up_rep : a_rep a = q
}.

Lemma up_tick : forall rd r c (L : N -> Prop) code k q a, r < 9 -> c < 8 -> L code -> L 0xA0%N -> Steady rd r c L a -> reading rd r c = true ->
  Up r c code k q a ->
  exists a', atick rd a = Some a' /\ Steady rd r c L a' /\ a_cur a' = a_cur a /\ a_mod a' = a_mod a /\
    (forall r' c', ~ (r' = r /\ c' = c) -> a_dn a' r' c' = a_dn a r' c') /\ a_log a' = a_log a /\
    if (k =? 1)%N then Down r c code true (rval (r_state q)) a' else Up r c code (k - 1) q a'.
Proof.
  intros rd r c L code k q a Hr Hc HLC HL0 ST RD [D1 D2 D3 D4 D5 D6 D7 D8].
  assert (SA : asend a = a) by (unfold asend; rewrite D5, D6; auto).
  set (b := if (k =? 1)%N then put_rep (repeat_reset_count q) (put_last code (put_qk [code] (accept r c true a)))
            else put_ct (set2 (a_ct a) r c (k - 1)%N) a).
  assert (KS : key_step rd r c a = Some b).
  { unfold key_step, acode. rewrite RD, D1, D7. cbn [Bool.eqb]. unfold b. destruct (k =? 1)%N; [|reflexivity].
    cbv zeta. cbn [a_cur a_mod put_dn put_ct]. replace (a_cur a <? 4)%N with true by (destruct ST; lia). cbn [obind].
    change (code_at _ _ _ _) with (code_now a r c). rewrite D2. unfold apress. replace (0xA0 <? code)%N with false by lia.
    cbv zeta. cbn [a_last a_qk a_rep put_dn put_ct put_qk]. rewrite D3, D6, D8. replace (0xA0 =? code)%N with false by lia. reflexivity. }
  assert (BF : a_cur b = a_cur a /\ a_mod b = a_mod a /\ (forall r' c', ~ (r' = r /\ c' = c) -> a_dn b r' c' = a_dn a r' c') /\
     a_log b = a_log a /\ L (a_last b)).
  { unfold b. destruct (k =? 1)%N; cbn [a_cur a_mod a_dn a_last a_log put_qk put_rep put_last accept put_dn put_ct]; rewrite ?D3; auto 10.
    repeat split; auto. intros r' c' Hn. apply set2_other. apply not_at'; tauto. }
  destruct BF as (B1&B2&B3&B4&B5).
  assert (SB : Steady rd r c L b) by (apply (steady_same _ _ _ _ a); auto).
  exists b. split.
  { rewrite (one_key_tick rd r c L); rewrite ?SA, ?D3; auto. intros b' E. rewrite KS in E. inv E. auto. }
  repeat (split; auto). unfold b in *. destruct (N.eqb_spec k 1).
  - constructor; auto. cbn [a_dn put_rep put_last put_qk accept put_dn]. apply set2_same.
  - constructor; auto. cbn [a_ct put_ct]. unfold set2. rewrite !Nat.eqb_refl. reflexivity.
Qed.

Lemma up_ticks : forall rds r c (L : N -> Prop) code k q a, r < 9 -> c < 8 -> L code -> L 0xA0%N -> (0 < k)%N ->
  Forall (fun rd => Steady rd r c L a /\ reading rd r c = true) rds ->
  Up r c code k q a ->
  exists a', aticks rds a = Some a' /\
    rev (a_log a') = rev (a_log a) ++
      repeat (EvSend code) (emitted (length rds - N.to_nat k) true (rval (r_state q))).
Proof.
  induction rds as [|rd rds IH]; intros r c L code k q a Hr Hc HLC HL0 Hk HF HU.
  - exists a. split; auto. cbn. rewrite app_nil_r. auto.
  - inv HF. destruct H1 as [ST RD]. destruct (up_tick _ _ _ _ _ _ _ _ Hr Hc HLC HL0 ST RD HU) as (b&E&SB&E1&E2&E3&EL&EB).
    assert (HFB : Forall (fun rd => Steady rd r c L b /\ reading rd r c = true) rds).
    { eapply Forall_impl; [|exact H2]. intros rd' [S' R']. split; auto. apply (steady_same _ _ _ _ a); auto. }
    cbn [aticks length]. rewrite E. cbn [obind]. rewrite <- EL. destruct (N.eqb_spec k 1).
    + subst k. change (N.to_nat 1) with 1. replace (S (length rds) - 1) with (length rds) by lia.
      exact (down_ticks rds r c L code true _ b Hr Hc HLC HFB EB).
    + destruct (IH r c L code (k - 1)%N q b Hr Hc HLC HL0 ltac:(lia) HFB EB) as (a'&E'&L'). exists a'. split; auto.
      rewrite L'. replace (length rds - N.to_nat (k - 1)) with (S (length rds) - N.to_nat k) by lia. reflexivity.
Qed.

(** Codes received after [n] ticks when the press is accepted by scan [k]. *)
Definition typed (k n : nat) : nat :=
  if n <=? k then 0 else if n <=? k + 525 then 1 else 2 + (n - (k + 526)) / 66.

(** Holding a key from rest; [count s r c] is 10 unless its contact bounced. *)
Lemma hold_events : forall pre s r c rds, run pre = Ok s -> (k_cur s < 4)%N -> r < 9 -> c < 8 ->
  down s r c = false -> (key_code s r c < 0xA0)%N -> k_last s = 0xA0%N ->
  key_queue s = [] -> msg_queue s = [] -> r_state (k_rep s) = RAuto ->
  others_differ s r c -> others_coded s r c -> Forall (also s r c) rds ->
  exists s', ticks rds s = Ok s' /\
    events s' = events s ++ repeat (EvSend (key_code s r c)) (typed (count s r c) (length rds)).
Proof.
  intros pre s r c rds H Hk Hr Hc D LOW HL HQK HQM HT HO HA HF. destruct (reach _ _ H) as [a [A RL]].
  destruct (count_ok _ _ r c RL ltac:(lia) Hc) as [CK CB].
  destruct (up_ticks rds r c (fun x => x = key_code s r c \/ x = 0xA0%N) (key_code s r c) (a_ct a r c) (a_rep a) a Hr Hc) as (a'&E&L); auto.
  - lia.
  - eapply Forall_impl; [|exact HF]. intros rd HS. split; [|apply HS].
    apply (steady_intro _ s); auto. intros r' c' H1 H2 H3 H4 [H5|H5]; [apply (HO r' c')|apply (HA r' c')]; auto.
  - constructor; auto.
    + rewrite <- (down_ok _ _ _ _ RL) by lia. auto.
    + rewrite (key_code_ok _ _ _ _ RL). auto.
    + rewrite <- (rl_last _ _ RL). auto.
    + rewrite <- (msg_queue_ok _ _ RL). auto.
    + rewrite <- (key_queue_ok _ _ RL). auto.
  - pose proof (ticks_sim rds _ _ RL) as X. unfold sim in X. rewrite E in X. destruct X as [s' [E' RL']].
    exists s'. split; auto. rewrite (events_ok _ _ RL), (events_ok _ _ RL'), L. do 2 f_equal.
    rewrite <- (rl_rep _ _ RL), HT. cbn [rval]. rewrite emitted_on by lia. rewrite <- CK, Nat2N.id. unfold typed.
    change (N.to_nat 525) with 525. generalize (count s r c) (length rds). intros k n.
    destruct (Nat.leb_spec n k); [replace (n - k) with 0 by lia; reflexivity|].
    rewrite Nat.min_r by lia. destruct (Nat.leb_spec n (k + 525)).
    + replace (n - k <=? 525) with true by lia. reflexivity.
    + replace (n - k <=? 525) with false by lia. replace (n - k - 1 - 525) with (n - (k + 526)) by lia. lia.
Qed.
Theorem C29_hold_from_rest : forall pre s r c rds, run pre = Ok s -> (k_cur s < 4)%N -> r < 9 -> c < 8 ->
  down s r c = false -> (key_code s r c < 0xA0)%N -> k_last s = 0xA0%N ->
  key_queue s = [] -> msg_queue s = [] -> r_state (k_rep s) = RAuto ->
  others_differ s r c -> others_coded s r c -> Forall (also s r c) rds ->
  exists s', ticks rds s = Ok s' /\
    events s' = events s ++ repeat (EvSend (key_code s r c)) (typed (count s r c) (length rds)) /\
    sent s' = sent s ++ repeat (key_code s r c) (typed (count s r c) (length rds)).
Proof.
  intros pre s r c rds H Hk Hr Hc D LOW HL HQK HQM HT HO HA HF.
  destruct (hold_events pre s r c rds H Hk Hr Hc D LOW HL HQK HQM HT HO HA HF) as [s' [E EV]].
  exists s'. split; auto. split; auto. unfold sent. rewrite EV, sends_app, sends_repeat. reflexivity.
Qed.
Print Assumptions C29_hold_from_rest.

(** Typing "p" on the classic keyboard from power-on. *)
Example C29_example :
  obs (fun s => (key_code s 1 1, k_last s, key_queue s, msg_queue s, down s 1 1, count s 1 1)) (run (hold 3 [])) = Some (112%N, 160%N, [], [], false, 10) /\
  obs (fun s => r_state (k_rep s)) (run (hold 3 [])) = Some RAuto /\
  map (fun n => obs sent (run (hold 3 [] ++ hold n [(1, 1)]))) [10; 11; 535; 536; 602] =
  map (fun k => Some (repeat 112%N k)) [0; 1; 1; 2; 3] /\
  map (typed 10) [10; 11; 535; 536; 602] = [0; 1; 1; 2; 3].
Proof. vm_compute. auto. Qed.

(** *** No two keys of one map share a code, except under CTRL (and SHIFT on
    keyboard 2) *)
Definition distinct_codes (k : N) (m : nat) : bool :=
  forallb (fun p => forallb (fun q => (fst p =? fst q) && (snd p =? snd q) ||
      negb (code_at k m (fst p) (snd p) =? code_at k m (fst q) (snd q))%N || (0xA0 <=? code_at k m (fst p) (snd p))%N)
    (grid 0 9)) (grid 0 9).
Lemma distinct_ok : forall k m, (k < 4)%N -> m < 3 -> (k = 2%N -> m <> 1) -> distinct_codes k m = true.
Proof.
  intros k m Hk Hm Hx. kcases k; do 3 (destruct m as [|m]; [first [vm_compute; reflexivity | exfalso; apply Hx; reflexivity | lia]|]); lia.
Qed.
Lemma distinct_differ : forall s r c, distinct_codes (k_cur s) (map_in_force s) = true -> r < 9 -> c < 8 ->
  (key_code s r c < 0xA0)%N -> others_differ s r c.
Proof.
  intros s r c H Hr Hc HL r' c' Hr' Hc' Hn _ E. unfold distinct_codes in H. rewrite forallb_forall in H.
  specialize (H (r, c) ltac:(unfold grid; apply in_prod_iff; rewrite !in_seq; lia)). rewrite forallb_forall in H.
  specialize (H (r', c') ltac:(unfold grid; apply in_prod_iff; rewrite !in_seq; lia)). cbn [fst snd] in H.
  unfold key_code in E, HL. rewrite E in H. rewrite N.eqb_refl in H. cbn [negb] in H.
  destruct (Nat.eqb_spec r r'), (Nat.eqb_spec c c'); cbn [andb orb] in H; try lia.
Qed.

(** Without CTRL (and without SHIFT on keyboard 2) no side condition on the
    other keys is needed. *)
Theorem C31_repeat_pace_without_ctrl : forall pre s r c rds, run pre = Ok s -> (k_cur s < 4)%N -> r < 9 -> c < 8 ->
  ctrl_on s = false -> (k_cur s = 2%N -> shift_on s = false) ->
  down s r c = true -> (key_code s r c < 0xA0)%N -> k_last s = key_code s r c ->
  key_queue s = [] -> msg_queue s = [] -> (0 < r_timer (k_rep s))%N -> Forall (same_keys s) rds ->
  exists s', ticks rds s = Ok s' /\
    sent s' = sent s ++ repeat (key_code s r c) (repeats (N.to_nat (r_timer (k_rep s))) (length rds)).
Proof.
  intros pre s r c rds H Hk Hr Hc HC HS D LOW HL HQK HQM HT HF.
  eapply C31_repeat_pace_partial; eauto. apply distinct_differ; auto. unfold map_in_force. rewrite HC.
  apply distinct_ok; auto; [destruct (shift_on s), (caps_on s); lia|].
  intros K. rewrite (HS K). destruct (caps_on s); lia.
Qed.
Print Assumptions C31_repeat_pace_without_ctrl.

(** "p" repeating with "]" (6, 1) held underneath, and alone: same pace. *)
Example C31_example :
  obs (fun s => (down s 6 1, down s 1 1, k_last s, r_timer (k_rep s), key_queue s)) (run (hold 20 [(6, 1)] ++ hold 20 [(6, 1); (1, 1)])) =
    Some (true, true, 112%N, 515%N, []) /\
  obs sent (run (hold 20 [(6, 1)] ++ hold 20 [(6, 1); (1, 1)] ++ hold 582 [(6, 1); (1, 1)])) =
    Some (code_at 0 0 6 1 :: [112; 112; 112]%N) /\ repeats 515 582 = 2.
Proof. vm_compute. auto. Qed.

Lemma bind_Ok : forall A B (a : A) (f : A -> outcome B), bind (Ok a) f = f a.
Proof. reflexivity. Qed.
Lemma pair_inj : forall A B (a a' : A) (b b' : B), (a, b) = (a', b') -> a = a' /\ b = b'.
Proof. intros. split; congruence. Qed.
Definition closed_check (s : kb) (rd : nat -> N) : bool :=
  forallb (fun p => Bool.eqb (reading rd (fst p) (snd p)) (down s (fst p) (snd p))) (grid 0 9).
Lemma closed_check_ok : forall s rd, closed_check s rd = true -> same_keys s rd.
Proof.
  intros s rd H r c Hr Hc. unfold closed_check in H. rewrite forallb_forall in H.
  specialize (H (r, c) ltac:(unfold grid; apply in_prod_iff; rewrite !in_seq; lia)). apply eqb_prop in H. exact H.
Qed.

(** CTRL with the two keys that then both carry CR: twice the pace. *)
Theorem C31_repeat_pace_refuted : exists pre s r c rds s' k,
  run pre = Ok s /\ (k_cur s < 4)%N /\ r < 9 /\ c < 8 /\
  down s r c = true /\ (key_code s r c < 0xA0)%N /\ k_last s = key_code s r c /\
  key_queue s = [] /\ msg_queue s = [] /\ (0 < r_timer (k_rep s))%N /\
  Forall (same_keys s) rds /\ ticks rds s = Ok s' /\
  sent s' = sent s ++ repeat (key_code s r c) k /\
  k > repeats (N.to_nat (r_timer (k_rep s))) (length rds).
Proof.
  set (keys := [(0, 6); (2, 2); (5, 3)]).
  set (pre := hold 12 [(0, 6)] ++ hold 100 [(0, 6); (2, 2)] ++ hold 12 keys).
  assert (X : obs (fun s => (k_cur s, down s 2 2, key_code s 2 2, k_last s, key_queue s, msg_queue s, r_timer (k_rep s), closed_check s (matrix keys)))
     (run pre) = Some (0%N, true, 13%N, 13%N, [], [], 421%N, true)) by (vm_compute; reflexivity).
  assert (Y : obs sent (run pre) = Some [13; 13]%N) by (vm_compute; reflexivity).
  assert (Z : obs sent (run (pre ++ hold 300 keys)) = Some ([13; 13] ++ repeat 13 3)%N) by (vm_compute; reflexivity).
  apply obs_some in X. destruct X as [s [E X]]. rewrite E in Y. cbn [obs] in Y.
  apply obs_some in Z. destruct Z as [s' [E' Z]]. rewrite run_app, E, bind_Ok in E'.
  apply pair_inj in X. destruct X as [X X8]. apply pair_inj in X. destruct X as [X X7]. apply pair_inj in X. destruct X as [X X6].
  apply pair_inj in X. destruct X as [X X5]. apply pair_inj in X. destruct X as [X X4]. apply pair_inj in X. destruct X as [X X3].
  apply pair_inj in X. destruct X as [X1 X2].
  clearbody pre. clearbody keys.
  exists pre, s, 2, 2, (hold 300 keys), s', 3.
  rewrite X1, X2, X3, X4, X5, X6, X7. do 10 (split; [auto; try lia|]). split.
  - apply Forall_forall. intros rd Hrd. unfold hold in Hrd. apply repeat_spec in Hrd. subst rd. apply closed_check_ok; auto.
  - split; [auto|]. split; [clear - Y Z; congruence|]. vm_compute. lia.
Qed.
Print Assumptions C31_repeat_pace_refuted.

(** ** C30 *)
(** Only keys without an action in the plain map of keyboard 0 are closed. *)
Definition no_actions (rd : nat -> N) : Prop :=
  forall r c, r < 9 -> c < 8 -> reading rd r c = true -> (code_at 0 0 r c <= 0xA0)%N.

Record PlainInv (a : akb) : Prop := mkPlain {
  pi_cur : a_cur a = 0%N;
  pi_mod : a_mod a = mods_zero;
  pi_dn : forall r c, r < 9 -> c < 8 -> a_dn a r c = true -> (code_at 0 0 r c <= 0xA0)%N;
  pi_last : a_last a = 0xA0%N \/ exists r c, r < 9 /\ c < 8 /\ a_dn a r c = true /\ code_at 0 0 r c = a_last a;
  pi_low : last_low a;
  pi_rep : r_state (a_rep a) = RAuto
}.

Lemma held_rstate : forall code a, last_low a -> r_state (a_rep (aheld code a)) = r_state (a_rep a).
Proof.
  intros code a H. unfold aheld. destruct (N.eqb_spec code (a_last a)); auto.
  destruct (repeat_tick_next (a_rep a)) as [q (Q1&Q2&Q3&Q4)]. rewrite Q1. destruct (next_p _); auto.
  unfold apress. unfold last_low in H. replace (0xA0 <? code)%N with false by lia. cbn [a_last put_rep put_qk].
  replace (a_last a =? code)%N with true by lia. auto.
Qed.

Lemma plain_inv : forall rds a, Forall no_actions rds -> arun rds = Some a -> PlainInv a.
Proof.
  apply ainv.
  - constructor; try reflexivity; [discriminate|left; reflexivity|exact (N.le_refl 0xA0)].
  - intros a [A1 A2 A3 A4 A5 A6]. destruct (asend_dn a) as [SD _].
    constructor; unfold last_low; rewrite ?send_cur, ?send_mod, ?send_last, ?send_rep, ?SD; auto.
  - intros x a [A1 A2 A3 A4 A5 A6]. constructor; auto.
  - intros rd r c a Hrd [A1 A2 A3 A4 A5 A6] Hr Hc Hk RD D.
    assert (HD : a_dn (aheld (code_now a r c) a) = a_dn a) by (destruct (held_form (code_now a r c) a A5) as [q [-> | ->]]; auto).
    constructor; rewrite ?HD, ?held_cur, ?held_mod, ?held_last, ?held_rstate by auto; auto. apply held_last_low; auto.
  - intros rd r c a Hrd [A1 A2 A3 A4 A5 A6] Hr Hc Hk RD D.
    assert (CN : code_now a r c = code_at 0 0 r c) by (unfold code_now; rewrite A1, A2; reflexivity). rewrite CN.
    pose proof (Hrd r c Hr Hc RD) as LOW.
    assert (DD : forall r' c', r' < 9 -> c' < 8 -> set2 (a_dn a) r c true r' c' = true -> (code_at 0 0 r' c' <= 0xA0)%N).
    { intros r' c' Hr' Hc'. unfold set2. destruct (Nat.eqb_spec r' r), (Nat.eqb_spec c' c); cbn [andb]; subst; auto. }
    unfold apress. replace (0xA0 <? code_at 0 0 r c)%N with false by lia. cbv zeta. cbn [a_last accept put_dn put_ct].
    destruct (N.eqb_spec (a_last a) (code_at 0 0 r c)).
    + constructor; auto. right. exists r, c. cbn [a_dn a_last put_qk accept put_dn put_ct]. rewrite set2_same. auto.
    + constructor; auto. right. exists r, c. cbn [a_dn a_last put_qk put_rep put_last accept put_dn put_ct]. rewrite set2_same. auto.
  - intros rd r c a Hrd [A1 A2 A3 A4 A5 A6] Hr Hc Hk RD D.
    assert (CN : code_now a r c = code_at 0 0 r c) by (unfold code_now; rewrite A1, A2; reflexivity). rewrite CN.
    pose proof (A3 r c Hr Hc D) as LOW.
    assert (DD : forall r' c', r' < 9 -> c' < 8 -> set2 (a_dn a) r c false r' c' = true -> (code_at 0 0 r' c' <= 0xA0)%N).
    { intros r' c' Hr' Hc'. unfold set2. destruct (_ && _); [discriminate|auto]. }
    unfold arelease. replace (0xA0 <? code_at 0 0 r c)%N with false by lia. cbn [a_last accept put_dn put_ct].
    destruct (N.eqb_spec (a_last a) (code_at 0 0 r c)) as [EQ|NE].
    + constructor; auto; try (left; reflexivity); exact (N.le_refl 0xA0).
    + constructor; auto. destruct A4 as [A4|(r'&c'&Hr'&Hc'&D'&E')]; [left; exact A4|]. right. exists r', c'.
      cbn [a_dn a_last accept put_dn put_ct]. repeat split; auto. rewrite set2_other; auto.
      assert (~ (r' = r /\ c' = c)) by (intros [-> ->]; congruence). lia.
Qed.

Definition all_up (s : kb) : Prop := forall r c, r < 9 -> c < 8 -> down s r c = false.

(** After any history of keys without actions, once all keys are up and the
    queues are drained, a new press gets the full delay.  Missing: histories in
    which the map changes between a press and its release, see below. *)
Theorem C30_new_press_full_delay_partial : forall pre s r c rds, run pre = Ok s -> Forall no_actions pre ->
  all_up s -> key_queue s = [] -> msg_queue s = [] -> r < 9 -> c < 8 -> (key_code s r c < 0xA0)%N ->
  Forall (also s r c) rds ->
  exists s', ticks rds s = Ok s' /\ sent s' = sent s ++ repeat (key_code s r c) (typed (count s r c) (length rds)).
Proof.
  intros pre s r c rds H HN UP QK QM Hr Hc LOW HF. destruct (reach _ _ H) as [a [A RL]].
  destruct (plain_inv _ _ HN A) as [A1 A2 A3 A4 A5 A6].
  destruct (C29_hold_from_rest pre s r c rds) as (s'&E&_&S'); eauto.
  - rewrite (rl_cur _ _ RL), A1. reflexivity.
  - rewrite (rl_last _ _ RL). destruct A4 as [A4|(r'&c'&Hr'&Hc'&D'&E')]; auto.
    rewrite <- (down_ok _ _ _ _ RL), UP in D' by lia. discriminate.
  - rewrite (rl_rep _ _ RL). auto.
  - intros r' c' Hr' Hc' _ D. rewrite UP in D by auto. discriminate.
  - intros r' c' Hr' Hc' _ D. rewrite UP in D by auto. discriminate.
Qed.
Print Assumptions C30_new_press_full_delay_partial.

Example C30_example :
  obs (fun s => (key_queue s, msg_queue s, k_last s, r_timer (k_rep s), sent s)) (run (hold 400 [(1, 1)] ++ hold 40 [])) =
    Some ([], [], 160%N, 135%N, [112%N]) /\
  obs sent (run (hold 400 [(1, 1)] ++ hold 40 [] ++ hold 535 [(1, 1)])) = Some [112; 112]%N.
Proof. vm_compute. auto. Qed.

(** "p" pressed, SHIFT pressed, "p" released (now under SHIFT), SHIFT released:
    everything is up, but pressing "p" again repeats early. *)
Theorem C30_new_press_full_delay_refuted : exists pre s r c rds s' k,
  run pre = Ok s /\ (k_cur s < 4)%N /\ all_up s /\ key_queue s = [] /\ msg_queue s = [] /\
  r_state (k_rep s) = RAuto /\ r < 9 /\ c < 8 /\ (key_code s r c < 0xA0)%N /\
  Forall (also s r c) rds /\ ticks rds s = Ok s' /\
  sent s' = sent s ++ repeat (key_code s r c) k /\ k > typed (count s r c) (length rds).
Proof.
  set (pre := hold 400 [(1, 1)] ++ hold 12 [(1, 1); (0, 1)] ++ hold 12 [(0, 1)] ++ hold 12 []).
  assert (X : obs (fun s => (k_cur s, key_code s 1 1, key_queue s, msg_queue s, r_state (k_rep s), count s 1 1, closed_check s (matrix [])))
     (run pre) = Some (0%N, 112%N, [], [], RAuto, 10, true)) by (vm_compute; reflexivity).
  assert (Y : obs sent (run pre) = Some [112]%N) by (vm_compute; reflexivity).
  assert (Z : obs sent (run (pre ++ hold 200 [(1, 1)])) = Some ([112] ++ repeat 112 2)%N) by (vm_compute; reflexivity).
  apply obs_some in X. destruct X as [s [E X]]. rewrite E in Y. cbn [obs] in Y.
  apply obs_some in Z. destruct Z as [s' [E' Z]]. rewrite run_app, E, bind_Ok in E'.
  apply pair_inj in X. destruct X as [X X7]. apply pair_inj in X. destruct X as [X X6].
  apply pair_inj in X. destruct X as [X X5]. apply pair_inj in X. destruct X as [X X4]. apply pair_inj in X. destruct X as [X X3].
  apply pair_inj in X. destruct X as [X1 X2].
  assert (UP : all_up s).
  { intros r c Hr Hc. rewrite <- (closed_check_ok _ _ X7 r c Hr Hc). unfold reading, matrix. cbn [fold_right]. apply N.bits_0. }
  clearbody pre.
  exists pre, s, 1, 1, (hold 200 [(1, 1)]), s', 2.
  rewrite X1, X2, X3, X4, X5, X6. do 9 (split; [auto; try lia|]). split.
  - apply Forall_forall. intros rd Hrd. unfold hold in Hrd. apply repeat_spec in Hrd. subst rd. split; [reflexivity|].
    intros r' c' Hr Hc Hn. rewrite UP by auto. unfold reading, matrix. cbn [fold_right fst snd].
    destruct (Nat.eqb_spec 1 r'); [|apply N.bits_0]. rewrite N.setbit_neq by lia. apply N.bits_0.
  - split; [auto|]. split; [clear - Y Z; congruence|]. vm_compute. lia.
Qed.
Print Assumptions C30_new_press_full_delay_refuted.
