(** Typing in continuous time, however long computing takes: C94. *)
From Coq Require Import List NArith ZArith Arith Bool Lia.
From Coq Require Import ZifyBool ZifyNat ZifyN.
From Verif Require Import Base Lib Buffer BufferSpec BufferProofs Repeat Devices DevSpec DevProofs
     Modifiers Hook KeymapData Asdf KeySpec KeyRef Obs Frames PropModState PropQueues PropHold PropTyping PropBounce PropDebounce.
From Verif Require Import System Timed PropTimed Jitter PropJitter.
Import ListNotations.

(** ** Specification *)
(** The keys stay as in [D] from time [a] until [z] (excluded). *)
Definition rests (W : nat -> nat -> N) (D : nat -> nat -> bool) (a z : nat) : Prop :=
  a <= z /\ forall t, a <= t < z -> shows D (W t).
(** From [a] until [z] the contact (r, c) goes to [b]: it may bounce for 7 ms and
    then keeps still for at least [11 * G] ms; the other keys stay as in [D]. *)
Definition moves (W : nat -> nat -> N) (G : nat) (D : nat -> nat -> bool) (r c : nat) (b : bool) (a z : nat) : Prop :=
  a + 7 + 11 * G <= z /\ forall t, a <= t < z -> exists v, shows (set2 D r c v) (W t) /\ (a + 7 <= t -> v = b).

(** Someone types on keyboard [k] from time [a] to time [z]: waits, keystrokes of
    at most half a second, modifier keys going down and up.  [D], [m]: keys held
    and modifiers before; [D'], [m']: afterwards; [x], [x']: the code that would
    repeat, 0xA0 for none; [out]: what the host is to receive.  No scans, no
    ticks: only times in milliseconds. *)
Inductive script (W : nat -> nat -> N) (G : nat) (k : N) : nat -> N -> (nat -> nat -> bool) -> modes -> nat -> list N ->
    N -> (nat -> nat -> bool) -> modes -> Prop :=
| s_done : forall a x D m, script W G k a x D m a [] x D m
| s_wait : forall a b z x D m out x' D' m', rests W D a b -> actions_only k m D ->
    script W G k b x D m z out x' D' m' -> script W G k a x D m z out x' D' m'
| s_stroke : forall a b d z x D m r c out x' D' m', r < 9 -> c < 8 -> D r c = false ->
    (code_of k m r c < 0xA0)%N -> code_of k m r c <> x -> actions_only k m D ->
    moves W G D r c true a b -> b <= a + 500 -> moves W G D r c false b d ->
    script W G k d 0xA0 D m z out x' D' m' ->
    script W G k a x D m z (code_of k m r c :: out) x' D' m'
| s_press : forall a b z x D m r c m1 out x' D' m', r < 9 -> c < 8 -> D r c = false ->
    mod_press (decode (code_of k m r c)) m = Some m1 ->
    actions_only k m D -> actions_only k m1 (set2 D r c true) ->
    moves W G D r c true a b ->
    script W G k b x (set2 D r c true) m1 z out x' D' m' ->
    script W G k a x D m z out x' D' m'
| s_release : forall a b z x D m r c m1 out x' D' m', r < 9 -> c < 8 -> D r c = true ->
    mod_release (decode (code_of k m r c)) m = Some m1 ->
    actions_only k m D -> actions_only k m1 (set2 D r c false) ->
    moves W G D r c false a b ->
    script W G k b x (set2 D r c false) m1 z out x' D' m' ->
    script W G k a x D m z out x' D' m'.

(** ** Scans of moving keys *)
Lemma first_true : forall (f : nat -> bool) m p, f (p + m) = true ->
  exists q, p <= q <= p + m /\ f q = true /\ forall i, p <= i < q -> f i = false.
Proof.
  intros f. induction m as [|m IH]; intros p H.
  - exists p. rewrite Nat.add_0_r in H. split; [lia|]. split; [exact H|]. intros; lia.
  - destruct (f p) eqn:E; [exists p; split; [lia|]; split; [exact E|]; intros; lia|].
    destruct (IH (S p)) as (q&Q1&Q2&Q3); [replace (S p + m) with (p + S m) by lia; exact H|].
    exists q. split; [lia|]. split; [exact Q2|]. intros i Hi. destruct (Nat.eq_dec i p) as [-> |]; [exact E|]. apply Q3. lia.
Qed.
Lemma times_le : forall b l, times b l <= length l.
Proof.
  intros b l. unfold times. induction l as [|x l IH]; [reflexivity|]. cbn [filter length]. destruct (Bool.eqb b x); cbn [length]; lia.
Qed.
Lemma times_none : forall b l, (forall x, In x l -> x = negb b) -> times b l = 0.
Proof.
  intros b l H. induction l as [|x l IH]; [reflexivity|]. rewrite times_cons, IH by (intros; apply H; right; auto).
  rewrite (H x) by (left; auto). destruct b; reflexivity.
Qed.
Lemma times_all : forall b l, (forall x, In x l -> x = b) -> times b l = length l.
Proof.
  intros b l H. induction l as [|x l IH]; [reflexivity|]. rewrite times_cons, IH by (intros; apply H; right; auto).
  rewrite (H x) by (left; auto). cbn [length]. destruct b; reflexivity.
Qed.
Lemma map_seq_split : forall A (f : nat -> A) p m l, map f (seq p (m + l)) = map f (seq p m) ++ map f (seq (p + m) l).
Proof. intros. rewrite seq_app, map_app. reflexivity. Qed.

Section Scans.
Context (W : nat -> nat -> N) (G n top : nat) (E : nat -> nat) (T : nat -> nat -> nat) (Z : nat).
Hypothesis scan_in : forall i, n <= i < top -> in_order (T i) (E i) (E (S i)).
Hypothesis progress : forall i j, n <= i <= j -> j <= top -> E i + (j - i) <= E j + 1.
Hypothesis step_le : forall i, n <= i < top -> E i < Z -> E (S i) <= E i + G.
Hypothesis steps_up : forall i j, n <= i <= j -> j <= top -> E i <= E j.
Hypothesis enough : Z <= E top.
Let rd (i : nat) : nat -> N := reads_at W (T i).

(** The scans that end in the time from [a] to [z]. *)
Lemma next_scan : forall p z, n <= p < top -> E p <= z -> z <= Z ->
  exists q, p <= q < top /\ E q <= z <= E (S q) /\ forall i, p <= i < q -> E (S i) < z.
Proof.
  intros p z Hp Hz HZ. destruct (first_true (fun i => z <=? E (S i)) (top - 1 - p) p) as (q&Q1&Q2&Q3).
  { replace (S (p + (top - 1 - p))) with top by lia. apply Nat.leb_le. lia. }
  exists q. split; [lia|]. split; [|intros i Hi; specialize (Q3 i Hi); cbv beta in Q3; lia].
  cbv beta in Q2. split; [|lia]. destruct (Nat.eq_dec q p) as [-> |NE]; [exact Hz|]. specialize (Q3 (q - 1) ltac:(lia)). cbv beta in Q3.
  replace (S (q - 1)) with q in Q3 by lia. lia.
Qed.

(** Before [a] and not longer ago than a scan takes, only (r, c) may differ from
    [D]. *)
Definition nearly (D : nat -> nat -> bool) (r c a : nat) : Prop :=
  forall t, E n <= t < a -> a <= t + G -> exists v, shows (set2 D r c v) (W t).
Definition settled (D : nat -> nat -> bool) (a : nat) : Prop :=
  forall t, E n <= t < a -> a <= t + G -> shows D (W t).
Lemma shows_same : forall D r c v rd, D r c = v -> shows D rd -> shows (set2 D r c v) rd.
Proof.
  intros D r c v rd0 HD HS r' c' Hr Hc. rewrite (HS r' c' Hr Hc). unfold set2. destruct (Nat.eqb_spec r' r); destruct (Nat.eqb_spec c' c); cbn [andb]; congruence.
Qed.
Lemma settled_nearly : forall D r c a, settled D a -> nearly D r c a.
Proof. intros D r c a H t H1 H2. exists (D r c). apply shows_same; auto. Qed.

Lemma scan_reads : forall D r c i, (forall q, exists v, shows (set2 D r c v) (W (T i q))) -> shows (set2 D r c (reading (W (T i r)) r c)) (rd i).
Proof.
  intros D r c i H r' c' Hr Hc. unfold rd, reads_at. change (reading (fun r0 => W (T i r0) r0) r' c') with (reading (W (T i r')) r' c').
  unfold set2. destruct (Nat.eqb_spec r' r) as [-> |N1]; [destruct (Nat.eqb_spec c' c) as [-> |N2]; [reflexivity|]|]; cbn [andb].
  - destruct (H r) as [v Hv]. rewrite (Hv r c' Hr Hc). apply set2_other. (clear -N2; lia).
  - destruct (H r') as [v Hv]. rewrite (Hv r' c' Hr Hc). apply set2_other. (clear -N1; lia).
Qed.

(** A contact change, as scanned. *)
Lemma segment : forall D r c b a z p, r < 9 -> c < 8 -> moves W G D r c b a z -> nearly D r c a -> z <= Z ->
  n <= p < top -> E p <= a <= E (S p) ->
  exists q bs, p <= q < top /\ E q <= z <= E (S q) /\ readings D r c bs (map rd (seq p (q - p))) /\ settles b bs /\
    length bs <= z - a + 2 /\ settled (set2 D r c b) z.
Proof.
  intros D r c b a z p Hr Hc [LEN HM] HN HZ Hp [Ea Eb].
  destruct (next_scan p z Hp ltac:(lia) HZ) as (q&Q1&Q2&Q3).
  exists q, (map (fun i => reading (W (T i r)) r c) (seq p (q - p))).
  (* every scan in the segment reads between [E p] and [z] *)
  assert (RNG : forall i w, p <= i < q -> E i <= T i w /\ T i w < z /\ a <= T i w + G /\ E n <= T i w).
  { intros i w Hi. destruct (scan_in i ltac:(lia)) as [S1 _]. specialize (S1 w). specialize (Q3 i Hi).
    pose proof (steps_up p i ltac:(lia) ltac:(lia)). pose proof (steps_up n p ltac:(lia) ltac:(lia)).
    pose proof (step_le p ltac:(lia) ltac:(lia)). lia. }
  assert (SOME : forall i w, p <= i < q -> exists v, shows (set2 D r c v) (W (T i w))).
  { intros i w Hi. destruct (RNG i w Hi) as (R1&R2&R3&R4). destruct (Nat.le_gt_cases a (T i w)) as [L|L].
    - destruct (HM (T i w) ltac:(lia)) as [v [Hv _]]. eauto.
    - apply HN; lia. }
  assert (GOOD : forall i, p <= i < q -> a + 7 <= E i -> reading (W (T i r)) r c = b).
  { intros i Hi HE. destruct (RNG i r Hi) as (R1&R2&_). destruct (HM (T i r) ltac:(lia)) as [v [Hv HB]].
    rewrite (Hv r c Hr Hc), set2_same. apply HB. lia. }
  split; [lia|]. split; [lia|]. split; [|split; [split|split]].
  - unfold readings. clear LEN HM HN HZ Hp Ea Eb Q1 Q2 Q3 RNG GOOD. remember (q - p) as k eqn:EK. assert (K : forall i, In i (seq p k) -> p <= i < q).
    { intros i IN. apply in_seq in IN. lia. }
    clear EK. induction (seq p k) as [|i l IH]; [constructor|]. cbn [map]. constructor.
    + apply scan_reads. intros w. apply SOME. apply K. left. reflexivity.
    + apply IH. intros j Hj. apply K. right. exact Hj.
  - (* ten readings of the new state *)
    destruct (first_true (fun i => a + 7 <=? E i) (q - p) p) as (g&G1&G2&G3).
    { replace (p + (q - p)) with q by lia. apply Nat.leb_le. pose proof (step_le q ltac:(lia)). lia. }
    cbv beta in G2. apply Nat.leb_le in G2.
    assert (EG : E g <= a + 6 + G).
    { destruct (Nat.eq_dec g p) as [-> |NE]; [lia|]. specialize (G3 (g - 1) ltac:(lia)). cbv beta in G3.
      pose proof (step_le (g - 1) ltac:(lia) ltac:(lia)) as SL. replace (S (g - 1)) with g in SL by lia. lia. }
    assert (TEN : forall j, j <= 10 -> g + j <= q /\ E (g + j) <= a + 6 + G + j * G).
    { induction j as [|j IH]; intros Hj; [rewrite Nat.add_0_r; lia|]. destruct (IH ltac:(lia)) as [I1 I2].
      assert (NQ : g + j <> q). { intros EQ. rewrite EQ in I2. assert (j * G <= 9 * G) by (apply Nat.mul_le_mono_r; lia). pose proof (step_le q ltac:(lia) ltac:(lia)). lia. }
      assert (J : j * G <= 9 * G) by (apply Nat.mul_le_mono_r; lia).
      split; [lia|]. pose proof (step_le (g + j) ltac:(lia) ltac:(lia)) as SL. replace (g + S j) with (S (g + j)) by lia.
      replace (S j * G) with (j * G + G) by (cbn [Nat.mul]; lia). lia. }
    destruct (TEN 10 ltac:(lia)) as [TQ _].
    replace (q - p) with ((g - p) + (10 + (q - g - 10))) by lia. rewrite !map_seq_split, !times_app.
    rewrite (times_all b (map _ (seq (p + (g - p)) 10))); [rewrite map_length, seq_length; lia|].
    intros v IN. apply in_map_iff in IN. destruct IN as [i [<- IN]]. apply in_seq in IN. apply GOOD; [lia|].
    pose proof (steps_up g i ltac:(lia) ltac:(lia)). lia.
  - (* at most nine of the old one *)
    destruct (Nat.le_gt_cases (q - p) 9) as [L|L].
    { etransitivity; [apply times_le|]. rewrite map_length, seq_length. exact L. }
    replace (q - p) with (9 + (q - p - 9)) by lia. rewrite map_seq_split, times_app.
    rewrite (times_none (negb b) (map _ (seq (p + 9) _))).
    + pose proof (times_le (negb b) (map (fun i => reading (W (T i r)) r c) (seq p 9))) as TL. rewrite map_length, seq_length in TL. lia.
    + intros v IN. apply in_map_iff in IN. destruct IN as [i [<- IN]]. apply in_seq in IN. rewrite negb_involutive. apply GOOD; [lia|].
      pose proof (progress (S p) i ltac:(lia) ltac:(lia)). lia.
  - rewrite map_length, seq_length. destruct (Nat.eq_dec q p) as [-> |NE]; [lia|].
    pose proof (progress (S p) q ltac:(lia) ltac:(lia)). lia.
  - intros t H1 H2. destruct (Nat.eq_dec G 0) as [-> |NG]; [lia|]. destruct (HM t ltac:(nia)) as [v [Hv HB]].
    rewrite <- (HB ltac:(nia)). exact Hv.
Qed.

Lemma shows_back : forall D r c v rd0, D r c = v -> shows (set2 D r c v) rd0 -> shows D rd0.
Proof.
  intros D r c v rd0 HD HS r' c' Hr Hc. rewrite (HS r' c' Hr Hc). unfold set2. destruct (Nat.eqb_spec r' r); destruct (Nat.eqb_spec c' c); cbn [andb]; congruence.
Qed.
Lemma settled_back : forall D r c v a, D r c = v -> settled (set2 D r c v) a -> settled D a.
Proof. intros D r c v a HD H t H1 H2. apply (shows_back D r c v); auto. Qed.
Lemma settled_any : forall D r c v a, settled (set2 D r c v) a -> nearly D r c a.
Proof. intros D r c v a H t H1 H2. exists v. auto. Qed.

Lemma wait_scans : forall k x D m p q out x' D' m' rest, actions_only k m D -> p <= q ->
  (forall i, p <= i < q -> shows D (rd i)) -> bouncing k x D m rest out x' D' m' ->
  bouncing k x D m (map rd (seq p (q - p)) ++ rest) out x' D' m'.
Proof.
  intros k x D m p q out x' D' m' rest HA Hpq HS HB. remember (q - p) as l eqn:EL. revert p EL Hpq HS.
  induction l as [|l IH]; intros p EL Hpq HS; [exact HB|]. cbn [seq map app]. constructor; [apply HS; lia|exact HA|].
  apply IH; [lia|lia|]. intros i Hi. apply HS. lia.
Qed.
Lemma rd_split : forall p q u, p <= q <= u -> map rd (seq p (u - p)) = map rd (seq p (q - p)) ++ map rd (seq q (u - q)).
Proof. intros p q u H. replace (u - p) with ((q - p) + (u - q)) by lia. rewrite map_seq_split. repeat f_equal. lia. Qed.

Lemma script_scans : forall k a x D m z out x' D' m', script W G k a x D m z out x' D' m' ->
  a <= z /\ forall p, n <= p < top -> E p <= a <= E (S p) -> settled D a -> z <= Z ->
  exists q, p <= q < top /\ E q <= z <= E (S q) /\ bouncing k x D m (map rd (seq p (q - p))) out x' D' m'.
Proof.
  intros k a x D m z out x' D' m' HS. induction HS as
    [a x D m|a b z x D m out x' D' m' [HL HR] HA HS [IL IH]
    |a b d z x D m r c out x' D' m' Hr Hc HD HK HX HA M1 HB M2 HS [IL IH]
    |a b z x D m r c m1 out x' D' m' Hr Hc HD HM HA HA1 M1 HS [IL IH]
    |a b z x D m r c m1 out x' D' m' Hr Hc HD HM HA HA1 M1 HS [IL IH]].
  - split; [lia|]. intros p Hp HE _ _. exists p. rewrite Nat.sub_diag. split; [lia|]. split; [exact HE|]. constructor.
  - split; [lia|]. intros p Hp HE HT HZ. destruct (next_scan p b Hp ltac:(lia) ltac:(lia)) as (q&Q1&Q2&Q3).
    assert (ST : settled D b).
    { intros t H1 H2. destruct (Nat.le_gt_cases a t); [apply HR; lia|apply HT; lia]. }
    destruct (IH q ltac:(lia) Q2 ST HZ) as (u&U1&U2&U3). exists u. split; [lia|]. split; [exact U2|].
    rewrite (rd_split p q u) by lia. apply wait_scans; [exact HA|lia| |exact U3].
    intros i Hi r c Hr Hc. destruct (scan_in i ltac:(lia)) as [S1 _]. specialize (S1 r). specialize (Q3 i Hi).
    pose proof (steps_up p i ltac:(lia) ltac:(lia)). pose proof (steps_up n p ltac:(lia) ltac:(lia)).
    pose proof (step_le p ltac:(lia) ltac:(lia)).
    change (reading (rd i) r c) with (reading (W (T i r)) r c).
    destruct (Nat.le_gt_cases a (T i r)); [apply HR; auto; lia|apply HT; auto; lia].
  - pose proof M1 as [L1 _]. pose proof M2 as [L2 _]. split; [lia|]. intros p Hp HE HT HZ.
    destruct (segment D r c true a b p Hr Hc M1 (settled_nearly _ _ _ _ HT) ltac:(lia) Hp HE) as (q&bs1&Q1&Q2&R1&S1&B1&T1).
    destruct (segment D r c false b d q Hr Hc M2 (settled_any _ _ _ _ _ T1) ltac:(lia) ltac:(lia) Q2) as (u&bs2&U1&U2&R2&S2&B2&T2).
    destruct (IH u ltac:(lia) U2 (settled_back _ _ _ _ _ HD T2) HZ) as (v&V1&V2&V3).
    exists v. split; [lia|]. split; [exact V2|]. rewrite (rd_split p q v), (rd_split q u v) by lia.
    apply (b_stroke k x D m r c bs1 bs2); auto. rewrite times_app. destruct S2 as [_ S2]. cbn [negb] in S2.
    pose proof (times_le true bs1). lia.
  - pose proof M1 as [L1 _]. split; [lia|]. intros p Hp HE HT HZ.
    destruct (segment D r c true a b p Hr Hc M1 (settled_nearly _ _ _ _ HT) ltac:(lia) Hp HE) as (q&bs1&Q1&Q2&R1&S1&B1&T1).
    destruct (IH q ltac:(lia) Q2 T1 HZ) as (v&V1&V2&V3).
    exists v. split; [lia|]. split; [exact V2|]. rewrite (rd_split p q v) by lia. apply (b_press k x D m r c m1 bs1); auto.
  - pose proof M1 as [L1 _]. split; [lia|]. intros p Hp HE HT HZ.
    destruct (segment D r c false a b p Hr Hc M1 (settled_nearly _ _ _ _ HT) ltac:(lia) Hp HE) as (q&bs1&Q1&Q2&R1&S1&B1&T1).
    destruct (IH q ltac:(lia) Q2 T1 HZ) as (v&V1&V2&V3).
    exists v. split; [lia|]. split; [exact V2|]. rewrite (rd_split p q v) by lia. apply (b_release k x D m r c m1 bs1); auto.
Qed.
End Scans.

(** ** C94 *)
Lemma script_le : forall W G k a x D m z out x' D' m', script W G k a x D m z out x' D' m' -> a <= z.
Proof.
  intros W G k a x D m z out x' D' m' HS. induction HS; unfold rests, moves in *; lia.
Qed.
Lemma readings_from : forall W T n m, readings_of W T (n + m) = readings_of W T n ++ map (fun i => reads_at W (T i)) (seq n m).
Proof. intros W T n m. unfold readings_of. rewrite seq_app, map_app. reflexivity. Qed.

(** With the two highest selector switches off no time ever brings an error. *)
Lemma jreal_total : forall P W, (forall t, dips_off (W t)) -> forall n, exists s x, jreal P W n = Ok (s, x).
Proof.
  intros P W HD n. pose proof (jtrace P W n) as X. destruct (jreal P W n) as [[s x]|u]; [exists s, x; reflexivity|].
  destruct X as [T X]. exfalso. destruct (C52_no_undefined_behaviour (readings_of W T n)) as [s E]; [|congruence].
  unfold readings_of. apply Forall_forall. intros rd IN. apply in_map_iff in IN. destruct IN as [i [<- _]]. apply (HD (T i 8)).
Qed.

Theorem C94_typing_in_continuous_time : forall P W G n s x0 Z x o x' D' m',
  (forall t, dips_off (W t)) -> jreal P W n = Ok (s, x0) -> (k_cur s < 4)%N -> calm x s ->
  (forall i, n <= i -> ended P W i < Z -> ended P W (S i) <= ended P W i + G) ->
  script W G (k_cur s) (now (jc x0)) x (down s) (modes_of s) Z o x' D' m' ->
  exists N s' c', n <= N /\ jreal P W N = Ok (s', c') /\ ended P W N <= Z <= ended P W (S N) /\
    sent s' = sent s ++ o /\ map snd (stamps (jc c')) = rev (sent s') /\
    calm x' s' /\ k_cur s' = k_cur s /\ modes_of s' = m' /\ forall r c, r < 9 -> c < 8 -> down s' r c = D' r c.
Proof.
  intros P W G n s x0 Z x o x' D' m' HD HJ HK HC HG HS.
  pose proof (ended_ok _ _ _ _ _ HJ) as EN. set (top := n + (Z - now (jc x0)) + 1).
  assert (AZ : now (jc x0) <= Z).
  { exact (script_le _ _ _ _ _ _ _ _ _ _ _ _ HS). }
  destruct (jreal_total P W HD top) as (st&xt&ET). pose proof (jtrace P W top) as X. rewrite ET in X. destruct X as (T&RT&F1&F2&_&_).
  assert (PR : forall i j, i <= j -> ended P W i + (j - i) <= ended P W j + 1).
  { clear -HD. intros i j Hij. destruct (jreal_total P W HD i) as (si&xi&Ei). destruct (jreal_total P W HD j) as (sj&xj&Ej).
    rewrite (ended_ok _ _ _ _ _ Ei), (ended_ok _ _ _ _ _ Ej). replace j with (i + (j - i)) in Ej by lia.
    pose proof (ended_ge P W _ _ _ _ _ _ Ei Ej) as PD. unfold paid, jt in PD. destruct (flag (jc xj)); lia. }
  destruct (script_scans W G n top (ended P W) T Z) with (k := k_cur s) (a := now (jc x0)) (x := x) (D := down s) (m := modes_of s) (z := Z)
    (out := o) (x' := x') (D' := D') (m' := m') as [_ Y].
  - intros i Hi. apply F1. (clear -Hi; lia).
  - intros i j Hij _. apply PR. (clear -Hij; lia).
  - intros i Hi HZ. apply HG; [(clear -Hi; lia)|exact HZ].
  - intros i j Hij Hj. apply (ended_mono P W top st xt); [exact ET|(clear -Hij Hj; lia)].
  - specialize (PR n top). rewrite EN in PR. unfold top in *. clear -PR AZ. lia.
  - exact HS.
  - destruct (Y n) as (q&Q1&Q2&QB).
    + unfold top. clear. lia.
    + rewrite EN. split; [lia|]. rewrite <- EN. apply (ended_mono P W top st xt); [exact ET|unfold top; clear; lia].
    + intros t Ht. rewrite EN in Ht. (clear -Ht; lia).
    + (clear; lia).
    + destruct (F2 n) as (sn&xn&En&Rn); [unfold top; clear; lia|]. assert (sn = s) by congruence. subst sn.
      destruct (F2 q) as (s'&c'&Eq&Rq); [(clear -Q1; lia)|].
      destruct (C78_bouncing_typist _ _ _ _ _ _ _ _ Rn HK HC QB) as (s2&E2&R2).
      assert (s2 = s').
      { replace q with (n + (q - n)) in Rq by (clear -Q1; lia). rewrite readings_from, run_app, Rn in Rq. cbn [bind] in Rq. congruence. }
      subst s2. exists q, s', c'. split; [(clear -Q1; lia)|]. split; [exact Eq|]. split; [exact Q2|].
      destruct R2 as (R2&R3). split; [exact R2|]. split; [|exact R3].
      pose proof (jtrace P W q) as X. rewrite Eq in X. destruct X as (_&_&_&_&ST&_). exact ST.
Qed.
Print Assumptions C94_typing_in_continuous_time.

(** ** Example *)
(** Every fifth piece of computing is interrupted: a scan takes 2 or 3 ms.  "p" is
    pressed at 20 ms and released at 90 ms, both contacts bouncing. *)
Definition slow (k : nat) : nat := if k mod 5 =? 0 then 1 else 0.
Definition hand_keys (t : nat) : list (nat * nat) :=
  if existsb (Nat.eqb t) [20; 22; 23; 26; 91; 95; 96] || ((27 <=? t) && (t <? 90)) then [(1, 1)] else [].
Definition hand_world (t : nat) : nat -> N := matrix (hand_keys t).
Definition shows_b (D : nat -> nat -> bool) (l : list (nat * nat)) : bool :=
  forallb (fun x => Bool.eqb (reading (matrix l) (fst x) (snd x)) (D (fst x) (snd x))) (grid 0 9).
Lemma shows_b_ok : forall D l, shows_b D l = true -> shows D (matrix l).
Proof. intros D l H. pose proof (shows_check l D 1 H) as X. inversion X. assumption. Qed.
Lemma rests_check : forall D a z, a <= z -> forallb (fun t => shows_b D (hand_keys t)) (seq a (z - a)) = true -> rests hand_world D a z.
Proof.
  intros D a z H HF. split; [exact H|]. intros t Ht. apply shows_b_ok. rewrite forallb_forall in HF. apply HF. apply in_seq. lia.
Qed.
Lemma moves_check : forall G D r c b a z, a + 7 + 11 * G <= z ->
  forallb (fun t => shows_b (set2 D r c b) (hand_keys t) || (t <? a + 7) && shows_b (set2 D r c (negb b)) (hand_keys t)) (seq a (z - a)) = true ->
  moves hand_world G D r c b a z.
Proof.
  intros G D r c b a z H HF. split; [exact H|]. intros t Ht. rewrite forallb_forall in HF. specialize (HF t).
  apply orb_true_iff in HF; [|apply in_seq; lia]. destruct HF as [HF|HF].
  - exists b. split; [apply shows_b_ok; exact HF|reflexivity].
  - apply andb_true_iff in HF. destruct HF as [H1 H2]. exists (negb b). split; [apply shows_b_ok; exact H2|]. intros H3. lia.
Qed.

Example C94_example :
  (forall t, dips_off (hand_world t)) /\
  jseen (fun p => (now (jc (snd p)), k_cur (fst p), (k_last (fst p), key_queue (fst p), msg_queue (fst p)), r_state (k_rep (fst p)), modes_of (fst p)))
    (jreal slow hand_world 4) = Some (10, 0%N, (0xA0%N, [], []), RAuto, mkModes false false false) /\
  (forall i, 4 <= i -> ended slow hand_world i < 160 -> ended slow hand_world (S i) <= ended slow hand_world i + 3) /\
  script hand_world 3 0 10 0xA0 (fun _ _ => false) (mkModes false false false) 160 [112%N] 0xA0 (fun _ _ => false) (mkModes false false false) /\
  jseen (fun p => (now (jc (snd p)), stamps (jc (snd p)))) (jreal slow hand_world 72) = Some (160, [(44, 112%N)]).
Proof.
  assert (HD : forall t, dips_off (hand_world t)).
  { intros t. unfold hand_world, hand_keys. destruct (existsb _ _ || _); split; reflexivity. }
  split; [exact HD|]. split; [vm_compute; reflexivity|]. split; [|split; [|vm_compute; reflexivity]].
  - intros i Hi Hz. destruct (Nat.le_gt_cases i 74) as [L|L].
    + assert (F : forallb (fun i => ended slow hand_world (S i) <=? ended slow hand_world i + 3) (seq 4 71) = true) by (vm_compute; reflexivity).
      rewrite forallb_forall in F. apply Nat.leb_le. apply F. apply in_seq. (clear -Hi L; lia).
    + exfalso. destruct (jreal_total slow hand_world HD i) as (s&x&E).
      pose proof (ended_mono slow hand_world i s x 74 i E ltac:(clear -L; lia)) as M.
      assert (K : (160 <=? ended slow hand_world 74) = true) by (vm_compute; reflexivity). apply Nat.leb_le in K. (clear -M K Hz; lia).
  - apply (s_wait _ _ _ 10 20); [apply rests_check; [lia|vm_compute; reflexivity]|apply actions_check; vm_compute; reflexivity|].
    apply (s_stroke hand_world 3 0 20 90 160 160 0xA0 (fun _ _ => false) (mkModes false false false) 1 1 []);
      [lia|lia|reflexivity|reflexivity|discriminate|apply actions_check; vm_compute; reflexivity|
       apply moves_check; [lia|vm_compute; reflexivity]|lia|apply moves_check; [lia|vm_compute; reflexivity]|].
    apply s_done.
Qed.
