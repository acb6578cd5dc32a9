(** Rest and recovery in continuous time, under any keymaps (C117). *)
From Coq Require Import List NArith ZArith Arith Bool Lia.
From Coq Require Import ZifyBool ZifyNat ZifyN.
From Verif Require Import Base Lib Buffer Repeat Devices Modifiers Hook KeymapData Asdf KeySpec Obs PropDebounce
     Custom CustomSpec CustomRef PropCustom PropEvents PropFlow PropExact PropSession.
From Verif Require Import PropModState PropBounce System Timed PropTimed Jitter PropJitter PropHands CustomSystem CustomTime PropAnyTime.
From Verif Require Import PropAnyHands PropAnyRest.
Import ListNotations.

(** ** Specification *)
(** A key that is down for [ms] milliseconds does not repeat. *)
Definition c_brief (fast auto : bool) (ms : nat) : Prop :=
  first_delay fast auto = 0%N \/ (N.of_nat ms + 11 <= first_delay fast auto)%N.

(** Someone uses the keyboard from time [a] to time [z], as [works] says, in
    continuous time: contacts as in [c_moves]; a text is given one pass of at most
    [G] ms for each character. *)
Inductive c_works (R C : nat) (kbs : N -> option (list setup_cmd)) (W : nat -> nat -> N) (G : nat) (fast : bool) :
  nat -> stance -> nat -> list N -> stance -> Prop :=
| cw_done : forall t w, c_works R C kbs W G fast t w t [] w
| cw_wait : forall t b z H e a x out w, c_rests R C W H t b ->
    c_works R C kbs W G fast b (mkSt H e a x) z out w -> c_works R C kbs W G fast t (mkSt H e a x) z out w
| cw_mode : forall t b z H e a x r c out w, r < R -> c < C -> mode_key kbs r c -> modal (negb (H r c)) (code_in kbs e r c) ->
    c_moves R C W G H r c (negb (H r c)) t b ->
    c_works R C kbs W G fast b (mkSt (set2 H r c (negb (H r c))) (after_event kbs e (r, c, negb (H r c))) a x) z out w ->
    c_works R C kbs W G fast t (mkSt H e a x) z out w
| cw_auto : forall t b z H e a x r c out w, r < R -> c < C -> mode_key kbs r c -> decode (code_in kbs e r c) = AAutorepeat ->
    c_moves R C W G H r c (negb (H r c)) t b ->
    c_works R C kbs W G fast b (mkSt (set2 H r c (negb (H r c))) e (negb (H r c)) x) z out w ->
    c_works R C kbs W G fast t (mkSt H e a x) z out w
| cw_tell : forall t b d z H e a x r c m out w, r < R -> c < C -> mode_key kbs r c -> H r c = false ->
    tells kbs e (code_in kbs e r c) = Some m -> length m <= 128 ->
    c_moves R C W G H r c true t b -> c_rests R C W (set2 H r c true) b d -> b + (length m + 1) * G <= d ->
    c_works R C kbs W G fast d (mkSt (set2 H r c true) e a x) z out w ->
    c_works R C kbs W G fast t (mkSt H e a x) z (visible m ++ out) w
| cw_stroke : forall t b d z H e a x r c out w, r < R -> c < C -> H r c = false ->
    (code_in kbs e r c < 0xA0)%N -> code_in kbs e r c <> x ->
    c_moves R C W G H r c true t b -> c_brief fast a (b - t) -> c_moves R C W G H r c false b d ->
    c_works R C kbs W G fast d (mkSt H e a 0xA0) z out w ->
    c_works R C kbs W G fast t (mkSt H e a x) z (code_in kbs e r c :: out) w.

(** ** Proofs *)
Lemma parts : forall (W : nat -> nat -> N) (T : nat -> nat -> nat) p q u, p <= q <= u ->
  map (fun i => reads_at W (T i)) (seq p (u - p)) = map (fun i => reads_at W (T i)) (seq p (q - p)) ++ map (fun i => reads_at W (T i)) (seq q (u - q)).
Proof. intros W T p q u H. replace (u - p) with ((q - p) + (u - q)) by lia. rewrite map_seq_split. repeat f_equal. lia. Qed.
Section Passes.
Context (R C : nat) (W : nat -> nat -> N) (G n top : nat) (E : nat -> nat) (T : nat -> nat -> nat) (Z : nat).
Hypothesis scan_in : forall i, n <= i < top -> in_order (T i) (E i) (E (S i)).
Hypothesis progress : forall i j, n <= i <= j -> j <= top -> E i + (j - i) <= E j + 1.
Hypothesis step_le : forall i, n <= i < top -> E i < Z -> E (S i) <= E i + G.
Hypothesis steps_up : forall i j, n <= i <= j -> j <= top -> E i <= E j.
Hypothesis enough : Z <= E top.
Hypothesis some : 1 <= G.
Let rd (i : nat) : nat -> N := reads_at W (T i).
Let settled := c_settled R C W G n E.

(** The scans of a rest. *)
Lemma rest_scans : forall H a b p, c_rests R C W H a b -> b <= Z -> n <= p < top -> E p <= a <= E (S p) -> settled H a ->
  exists q, p <= q < top /\ E q <= b <= E (S q) /\ (forall i, p <= i < q -> reads R C H (rd i)) /\ settled H b /\
    forall k, a + (k + 1) * G <= b -> k <= q - p.
Proof.
  intros H a b p [HL HR] HZ Hp HE HT.
  destruct (c_next_scan W G n top E T Z scan_in progress step_le steps_up enough p b Hp ltac:(lia) ltac:(lia)) as (q&Q1&Q2&Q3).
  exists q. split; [lia|]. split; [exact Q2|]. split; [|split].
  - intros i Hi r c Hr Hc. destruct (scan_in i ltac:(lia)) as [S1 _]. specialize (S1 r). specialize (Q3 i Hi).
    pose proof (steps_up p i ltac:(lia) ltac:(lia)). pose proof (steps_up n p ltac:(lia) ltac:(lia)).
    pose proof (step_le p ltac:(lia) ltac:(lia)).
    change (reading (rd i) r c) with (reading (W (T i r)) r c).
    destruct (Nat.le_gt_cases a (T i r)); [apply HR; auto; lia|apply HT; auto; lia].
  - intros t H1 H2. destruct (Nat.le_gt_cases a t); [apply HR; lia|apply HT; lia].
  - intros k Hk. assert (GO : forall j, p + j <= q -> E (p + j) <= a + j * G).
    { induction j as [|j IH]; intros Hj; [rewrite Nat.add_0_r; lia|]. specialize (IH ltac:(lia)). specialize (Q3 (p + j) ltac:(lia)).
      pose proof (steps_up (p + j) (S (p + j)) ltac:(lia) ltac:(lia)). pose proof (step_le (p + j) ltac:(lia) ltac:(lia)).
      replace (p + S j) with (S (p + j)) by lia. cbn [Nat.mul]. lia. }
    specialize (GO (q - p) ltac:(lia)). replace (p + (q - p)) with q in GO by lia.
    assert (B : b <= E q + G). { destruct (Nat.le_gt_cases Z (E q)); [lia|]. pose proof (step_le q ltac:(lia) ltac:(lia)). lia. }
    destruct (Nat.le_gt_cases k (q - p)) as [L|L]; [exact L|]. exfalso.
    assert (K : (q - p + 1) * G + G <= (k + 1) * G).
    { replace ((q - p + 1) * G + G) with ((q - p + 2) * G) by lia. apply Nat.mul_le_mono_r. lia. }
    replace ((q - p + 1) * G) with ((q - p) * G + G) in K by lia. lia.
Qed.

Lemma all_reads : forall H p q, (forall i, p <= i < q -> reads R C H (rd i)) -> Forall (reads R C H) (map rd (seq p (q - p))).
Proof. intros H p q HR. apply Forall_forall. intros x HI. apply in_map_iff in HI. destruct HI as [i [<- HI]]. apply in_seq in HI. apply HR. lia. Qed.
Lemma works_wait : forall kbs fast H e a x rds rest out w, Forall (reads R C H) rds ->
  works R C kbs fast (mkSt H e a x) rest out w -> works R C kbs fast (mkSt H e a x) (rds ++ rest) out w.
Proof. intros kbs fast H e a x rds rest out w HF HW. induction HF; cbn [app]; [exact HW|]. apply w_wait; auto. Qed.

Lemma c_works_scans : forall kbs fast t w z out w', c_works R C kbs W G fast t w z out w' ->
  t <= z /\ forall p, n <= p < top -> E p <= t <= E (S p) -> settled (st_held w) t -> z <= Z ->
  exists q, p <= q < top /\ E q <= z <= E (S q) /\ works R C kbs fast w (map rd (seq p (q - p))) out w'.
Proof.
  intros kbs fast t w z out w' HW.
  induction HW as [t w|t b z H e a x out w HR HW [IL IH]|t b z H e a x r c out w Hr Hc HM HP M1 HW [IL IH]
    |t b z H e a x r c out w Hr Hc HM HP M1 HW [IL IH]|t b d z H e a x r c m out w Hr Hc HM HH HT HL M1 HR HD HW [IL IH]
    |t b d z H e a x r c out w Hr Hc HH HX HN M1 HB M2 HW [IL IH]]; cbn [st_held] in *.
  - split; [lia|]. intros p Hp HE _ _. exists p. rewrite Nat.sub_diag. split; [lia|]. split; [exact HE|]. constructor.
  - pose proof HR as [L1 _]. split; [lia|]. intros p Hp HE HT HZ.
    destruct (rest_scans H t b p HR ltac:(lia) Hp HE HT) as (q&Q1&Q2&Q3&Q4&_).
    destruct (IH q ltac:(lia) Q2 Q4 HZ) as (u&U1&U2&U3). exists u. split; [lia|]. split; [exact U2|].
    unfold rd. rewrite (parts W T p q u) by lia. apply works_wait; [apply all_reads; exact Q3|exact U3].
  - pose proof M1 as [L1 _]. split; [lia|]. intros p Hp HE HT HZ.
    destruct (c_segment R C W G n top E T Z scan_in progress step_le steps_up enough H r c _ t b p Hr Hc M1 (c_settled_nearly R C W G n E _ _ _ _ HT) ltac:(lia) Hp HE) as (q&bs1&Q1&Q2&R1&S1&B1&T1).
    destruct (IH q ltac:(lia) Q2 T1 HZ) as (v&V1&V2&V3). exists v. split; [lia|]. split; [exact V2|].
    unfold rd. rewrite (parts W T p q v) by lia. apply (w_mode R C kbs fast H e a x r c bs1); auto.
  - pose proof M1 as [L1 _]. split; [lia|]. intros p Hp HE HT HZ.
    destruct (c_segment R C W G n top E T Z scan_in progress step_le steps_up enough H r c _ t b p Hr Hc M1 (c_settled_nearly R C W G n E _ _ _ _ HT) ltac:(lia) Hp HE) as (q&bs1&Q1&Q2&R1&S1&B1&T1).
    destruct (IH q ltac:(lia) Q2 T1 HZ) as (v&V1&V2&V3). exists v. split; [lia|]. split; [exact V2|].
    unfold rd. rewrite (parts W T p q v) by lia. apply (w_auto R C kbs fast H e a x r c bs1); auto.
  - pose proof M1 as [L1 _]. pose proof HR as [L2 _]. split; [lia|]. intros p Hp HE HT' HZ.
    destruct (c_segment R C W G n top E T Z scan_in progress step_le steps_up enough H r c _ t b p Hr Hc M1 (c_settled_nearly R C W G n E _ _ _ _ HT') ltac:(lia) Hp HE) as (q&bs1&Q1&Q2&R1&S1&B1&T1).
    destruct (rest_scans _ b d q HR ltac:(lia) ltac:(lia) Q2 T1) as (u&U1&U2&U3&U4&U5). specialize (U5 _ HD).
    destruct (IH u ltac:(lia) U2 U4 HZ) as (v&V1&V2&V3). exists v. split; [lia|]. split; [exact V2|].
    unfold rd. rewrite (parts W T p q v), (parts W T q u v) by lia.
    apply (w_tell R C kbs fast H e a x r c bs1); auto; [apply all_reads; exact U3|rewrite map_length, seq_length; exact U5].
  - pose proof M1 as [L1 _]. pose proof M2 as [L2 _]. split; [lia|]. intros p Hp HE HT HZ.
    destruct (c_segment R C W G n top E T Z scan_in progress step_le steps_up enough H r c _ t b p Hr Hc M1 (c_settled_nearly R C W G n E _ _ _ _ HT) ltac:(lia) Hp HE) as (q&bs1&Q1&Q2&R1&S1&B1&T1).
    destruct (c_segment R C W G n top E T Z scan_in progress step_le steps_up enough H r c false b d q Hr Hc M2 (c_settled_any R C W G n E _ _ _ _ _ T1) ltac:(lia) ltac:(lia) Q2) as (u&bs2&U1&U2&R2&S2&B2&T2).
    destruct (IH u ltac:(lia) U2 (c_settled_back R C W G n E _ _ _ _ _ HH T2) HZ) as (v&V1&V2&V3). exists v. split; [lia|]. split; [exact V2|].
    unfold rd. rewrite (parts W T p q v), (parts W T q u v) by lia.
    apply (w_stroke R C kbs fast H e a x r c bs1 bs2); auto. unfold brief. destruct HB as [HB|HB]; [left; exact HB|right].
    rewrite times_app. destruct S2 as [_ S2]. cbn [negb] in S2. pose proof (times_le true bs1). lia.
Qed.
End Passes.

(** ** C117 *)
(** However the keys moved before time [A] and however long passes took then:
    if the keys stay as in [H], no character key held, from [A] to [B], 156 passes'
    time, whoever uses the keyboard from [B] to [Z] gets exactly what they
    type. *)
Theorem C117_recovers_in_continuous_time : forall R C kbs P W G A B Z H,
  sound_firmware R kbs -> same_size R C kbs -> scan_hook_free kbs -> 1 <= G ->
  c_ended kbs P W 0 <= A -> A + 156 * G <= B -> B <= Z ->
  (forall i, A <= c_ended kbs P W (S i) -> c_ended kbs P W i < Z -> c_ended kbs P W (S i) <= c_ended kbs P W i + G) ->
  (forall r c, r < R -> c < C -> H r c = true -> mode_key kbs r c) -> c_rests R C W H A B ->
  exists M s c e fast auto, c_clock kbs P W M = Ok (s, c) /\ c_ended kbs P W M <= B <= c_ended kbs P W (S M) /\
    setting_is e s /\ repeat_mode fast auto s /\
  forall out w, c_works R C kbs W G fast B (mkSt H e auto (k_last s)) Z out w ->
  exists N s' c', c_clock kbs P W N = Ok (s', c') /\ c_ended kbs P W N <= Z <= c_ended kbs P W (S N) /\
    sent s' = sent s ++ out /\ map snd (rev (stamps (jc c'))) = map snd (rev (stamps (jc c))) ++ out /\
    setting_is (st_modes w) s' /\ k_last s' = st_last w /\ repeat_mode fast (st_auto w) s' /\
    forall r c, r < R -> c < C -> down s' r c = st_held w r c.
Proof.
  intros R C kbs P W G A B Z H HS HZ HQ G1 HA HAB HBZ HG HM HR. assert (K0 : kbs 0%N <> None) by (destruct (proj1 HS); congruence).
  assert (TOT : forall n, exists s x, c_clock kbs P W n = Ok (s, x)).
  { intros n. pose proof (c_trace kbs P W K0 n) as X. destruct (c_clock kbs P W n) as [[s x]|u]; [eauto|].
    destruct X as [T X]. destruct (C98_any_keymaps_safe R kbs (readings_of W T n) HS) as [s E]. congruence. }
  set (E := c_ended kbs P W) in *.
  assert (PR : forall i j, i <= j -> E i + (j - i) <= E j + 1).
  { clear -TOT K0. intros i j Hij. destruct (TOT i) as (si&xi&Ei). destruct (TOT j) as (sj&xj&Ej). unfold E.
    rewrite (c_ended_ok _ _ _ _ _ _ Ei), (c_ended_ok _ _ _ _ _ _ Ej). replace j with (i + (j - i)) in Ej by lia.
    pose proof (c_ended_ge kbs P W K0 _ _ _ _ _ _ Ei Ej) as PD. unfold paid, jt in PD. destruct (flag (jc xj)); lia. }
  assert (UP : forall i j, i <= j -> E i <= E j).
  { clear -TOT K0. intros i j Hij. destruct (TOT j) as (sj&xj&Ej). apply (c_ended_mono kbs P W K0 j sj xj); [exact Ej|lia]. }
  (* the first pass of the rest *)
  destruct (first_true (fun i => A <=? E i) (A + 1) 0) as (n&N1&N2&N3).
  { apply Nat.leb_le. pose proof (PR 0 (0 + (A + 1)) ltac:(clear; lia)) as X. clear -X. lia. }
  cbv beta in N2. apply Nat.leb_le in N2.
  assert (EN : E n <= A + G).
  { destruct (Nat.eq_dec n 0) as [-> |NE]; [clear -HA; lia|]. specialize (N3 (n - 1) ltac:(clear -NE; lia)). cbv beta in N3. apply Nat.leb_gt in N3.
    specialize (HG (n - 1)). replace (S (n - 1)) with n in HG by (clear -NE; lia). specialize (HG N2 ltac:(clear -N3 HAB HBZ; lia)). clear -HG N3. lia. }
  set (top := n + Z + 1).
  destruct (TOT top) as (st&xt&ET). pose proof (c_trace kbs P W K0 top) as X. rewrite ET in X. destruct X as (T&g&RT&_&F1&F2&_&_).
  assert (P1 : forall i, n <= i < top -> in_order (T i) (E i) (E (S i))) by (intros i Hi; apply F1; clear -Hi; lia).
  assert (P2 : forall i j, n <= i <= j -> j <= top -> E i + (j - i) <= E j + 1) by (intros i j Hij _; apply PR; clear -Hij; lia).
  assert (P3 : forall i, n <= i < top -> E i < Z -> E (S i) <= E i + G).
  { intros i Hi HiZ. apply HG; [|exact HiZ]. pose proof (UP n (S i) ltac:(clear -Hi; lia)) as X. clear -X N2. lia. }
  assert (P4 : forall i j, n <= i <= j -> j <= top -> E i <= E j) by (intros i j Hij _; apply UP; clear -Hij; lia).
  assert (P5 : Z <= E top) by (pose proof (PR n top ltac:(unfold top; clear; lia)) as X; unfold top in *; clear -X; lia).
  assert (HR' : c_rests R C W H (E n) B).
  { destruct HR as [L HR]. split; [clear -EN HAB G1; lia|]. intros t Ht. apply HR. clear -Ht N2. lia. }
  destruct (rest_scans R C W G n top E T Z P1 P2 P3 P4 P5 G1 H (E n) B n HR' HBZ) as (M&M1&M2&M3&M4&M5).
  { unfold top. clear. lia. }
  { split; [clear; lia|apply UP; clear; lia]. }
  { intros t Ht. clear -Ht. lia. }
  specialize (M5 154 ltac:(clear -EN HAB; lia)).
  destruct (F2 M ltac:(clear -M1; lia)) as (s&c&EM&RM).
  assert (SP : forall q, n <= q -> readings_of W T q = readings_of W T n ++ map (fun i => reads_at W (T i)) (seq n (q - n))).
  { intros q Hq. unfold readings_of. pose proof (parts W T 0 n q ltac:(clear -Hq; lia)) as X. rewrite !Nat.sub_0_r in X. exact X. }
  assert (ST : map snd (rev (stamps (jc c))) = sent s).
  { pose proof (c_trace kbs P W K0 M) as X. rewrite EM in X. destruct X as (_&_&_&_&_&_&X&_). rewrite map_rev, X. apply rev_involutive. }
  rewrite (SP M) in RM by (clear -M1; lia).
  assert (AR : at_rest R C kbs H (map (fun i => reads_at W (T i)) (seq n (M - n)))).
  { split; [exact HM|]. split; [eapply (all_reads R C W G n top E T Z P1 P2 P3 P4 P5 G1); exact M3|]. rewrite map_length, seq_length. exact M5. }
  destruct (C116_recovers R C kbs _ _ H s HS HZ HQ AR RM) as (SI&fast&auto&RP&RC).
  set (e := modes_after R C kbs (readings_of W T n ++ map (fun i => reads_at W (T i)) (seq n (M - n)))) in *. clearbody e.
  exists M, s, c, e, fast, auto. split; [exact EM|]. split; [exact M2|]. split; [exact SI|]. split; [exact RP|].
  intros out w HW.
  destruct (c_works_scans R C W G n top E T Z P1 P2 P3 P4 P5 G1 kbs fast _ _ _ _ _ HW) as [_ Y].
  destruct (Y M ltac:(clear -M1; lia) M2 M4 ltac:(clear; lia)) as (q&Q1&Q2&QW).
  destruct (F2 q ltac:(clear -Q1; lia)) as (s'&c'&Eq&Rq).
  destruct (RC _ _ _ QW) as (s2&R2&A1&A2&A3&A4&A5).
  assert (s2 = s') as ->.
  { rewrite app_assoc, <- (SP M) in R2 by (clear -M1; lia). unfold readings_of in R2 at 1, Rq.
    pose proof (parts W T 0 M q ltac:(clear -Q1; lia)) as X. rewrite !Nat.sub_0_r in X. rewrite <- X in R2. congruence. }
  exists q, s', c'. split; [exact Eq|]. split; [exact Q2|]. split; [exact A1|]. split; [|auto].
  rewrite ST, <- A1. pose proof (c_trace kbs P W K0 q) as X. rewrite Eq in X. destruct X as (_&_&_&_&_&_&X&_). rewrite map_rev, X. apply rev_involutive.
Qed.
Print Assumptions C117_recovers_in_continuous_time.

(** The keyboard of C104, every fifth piece of computing interrupted.  A heap of
    keys until 60 ms, hands off until 530 ms; then HERE IS is struck, the
    autorepeat switch turned on and "b" typed, contacts bouncing. *)
Definition back_keys (t : nat) : list (nat * nat) :=
  if t <? 40 then [(0, 4); (0, 0)] else if t <? 60 then [(0, 6); (0, 7); (0, 1)] else
  (if (530 <=? t) && (t <? 585) && negb (existsb (Nat.eqb t) [531; 534]) || existsb (Nat.eqb t) [586; 588; 590] then [(0, 5)] else []) ++
  (if (625 <=? t) && negb (existsb (Nat.eqb t) [627; 629]) then [(0, 7)] else []) ++
  (if (665 <=? t) && (t <? 705) && negb (existsb (Nat.eqb t) [668; 671]) || existsb (Nat.eqb t) [707; 710] then [(0, 1)] else []).
Definition back_world (t : nat) : nat -> N := matrix (back_keys t).
Fixpoint paced (m : nat) (p : kb * jclk) : bool :=
  match m with
  | 0 => 745 <=? jt (snd p)
  | S m => match cs_tick desk (jwatch slow back_world) (fun _ _ => 0%N) (fst p) (jwait slow (snd p)) with
           | Ok q => (jt (snd q) <=? jt (snd p) + 3) && paced m q
           | Bad _ => false
           end
  end.
Lemma paced_ok : forall m n p, c_clock desk slow back_world n = Ok p -> paced m p = true ->
  (forall i, n <= i < n + m -> c_ended desk slow back_world (S i) <= c_ended desk slow back_world i + 3) /\ 745 <= c_ended desk slow back_world (n + m).
Proof.
  induction m as [|m IH]; intros n p EP HP; cbn [paced] in HP.
  - split; [intros; lia|]. rewrite Nat.add_0_r. unfold c_ended. rewrite EP. destruct p as [s x]. apply Nat.leb_le. exact HP.
  - pose proof (c_clock_S desk slow back_world n) as ES. rewrite EP in ES. cbn [bind] in ES.
    destruct (cs_tick desk (jwatch slow back_world) (fun _ _ => 0%N) (fst p) (jwait slow (snd p))) as [q|u]; [|discriminate HP].
    apply andb_true_iff in HP. destruct HP as [H1 H2]. apply Nat.leb_le in H1. destruct (IH (S n) q ES H2) as [I1 I2].
    replace (n + S m) with (S n + m) by lia. split; [|exact I2]. intros i Hi. destruct (Nat.eq_dec i n) as [-> |NE]; [|apply I1; lia].
    unfold c_ended. rewrite EP, ES. destruct p, q. exact H1.
Qed.
Lemma rests_check : forall H a z, a <= z -> forallb (fun t => row_b H (back_keys t)) (seq a (z - a)) = true -> c_rests 1 8 back_world H a z.
Proof.
  intros H a z L HF. split; [exact L|]. intros t Ht. apply row_b_ok. rewrite forallb_forall in HF. apply HF. apply in_seq. lia.
Qed.
Lemma moves_check : forall H c b a z, a + 7 + 11 * 3 <= z ->
  forallb (fun t => row_b (set2 H 0 c b) (back_keys t) || (t <? a + 7) && row_b (set2 H 0 c (negb b)) (back_keys t)) (seq a (z - a)) = true ->
  c_moves 1 8 back_world 3 H 0 c b a z.
Proof.
  intros H c b a z L HF. split; [exact L|]. intros t Ht. rewrite forallb_forall in HF. specialize (HF t).
  apply orb_true_iff in HF; [|apply in_seq; lia]. destruct HF as [HF|HF].
  - exists b. split; [apply row_b_ok; exact HF|reflexivity].
  - apply andb_true_iff in HF. destruct HF as [H1 H2]. exists (negb b). split; [apply row_b_ok; exact H2|]. intros H3. lia.
Qed.
Example C117_example :
  c_ended desk slow back_world 0 <= 60 /\ 60 + 156 * 3 <= 530 /\
  (forall i, 60 <= c_ended desk slow back_world (S i) -> c_ended desk slow back_world i < 745 -> c_ended desk slow back_world (S i) <= c_ended desk slow back_world i + 3) /\
  c_rests 1 8 back_world (fun _ _ => false) 60 530 /\
  bind (c_clock desk slow back_world 440) (fun p => Ok (jt (snd p), k_last (fst p), sent (fst p), r_state (k_rep (fst p)), (shift_on (fst p), caps_on (fst p), ctrl_on (fst p)))) =
    Ok (530, 98%N, [97; 98]%N, ROff, (false, true, false)) /\
  (exists w, c_works 1 8 desk back_world 3 false 530 (mkSt (fun _ _ => false) (mkSetting 0 false false true false) false 98) 745 [72; 13; 10; 66]%N w) /\
  bind (c_clock desk slow back_world 620) (fun p => Ok (jt (snd p), sent (fst p), stamps (jc (snd p)))) = Ok (745, [97; 98; 72; 13; 10; 66]%N, [(680, 66%N); (545, 10%N); (544, 13%N); (543, 72%N); (53, 98%N); (14, 97%N)]).
Proof.
  split; [vm_compute; lia|]. split; [lia|]. split; [|split; [|split; [|split]]].
  - intros i _ Hi. destruct (c_clock desk slow back_world 0) as [p|u] eqn:E0; [|vm_compute in E0; discriminate E0].
    assert (PC : match c_clock desk slow back_world 0 with Ok p => paced 621 p | Bad _ => false end = true) by (vm_compute; reflexivity).
    rewrite E0 in PC. destruct (paced_ok 621 0 p E0 PC) as [P1 P2]. destruct (Nat.le_gt_cases 621 i) as [L|L]; [|apply P1; clear -L; lia].
    exfalso. assert (K0 : desk 0%N <> None) by discriminate.
    destruct (C110_whole_board_in_real_time 1 8 desk slow back_world i (proj1 desk_sound) (proj1 (proj2 desk_sound))) as (s&c&T&E&_).
    pose proof (c_ended_mono desk slow back_world K0 i s c 621 i E ltac:(clear -L; lia)) as M. clear -M P2 Hi. change (0 + 621) with 621 in P2. lia.
  - apply rests_check; [lia|vm_compute; reflexivity].
  - vm_compute; reflexivity.
  - eexists. change [72; 13; 10; 66]%N with (visible [72; 13; 10] ++ [66])%N.
    eapply (cw_tell 1 8 desk back_world 3 false 530 570 585 745 _ _ _ _ 0 5 [72; 13; 10]%N); [lia|lia|apply low_modes; lia|reflexivity|vm_compute; reflexivity|cbn; lia|
      apply moves_check; [lia|vm_compute; reflexivity]|apply rests_check; [lia|vm_compute; reflexivity]|cbn; lia|].
    eapply (cw_mode 1 8 desk back_world 3 false 585 625 745 _ _ _ _ 0 5); [lia|lia|apply low_modes; lia|vm_compute; reflexivity|apply moves_check; [lia|vm_compute; reflexivity]|].
    eapply (cw_auto 1 8 desk back_world 3 false 625 665 745 _ _ _ _ 0 7); [lia|lia|apply low_modes; lia|vm_compute; reflexivity|apply moves_check; [lia|vm_compute; reflexivity]|].
    match goal with |- c_works _ _ _ _ _ _ _ (mkSt _ ?e _ _) _ _ _ => change [66%N] with [code_in desk e 0 1] end.
    eapply (cw_stroke 1 8 desk back_world 3 false 665 705 745 745 _ _ _ _ 0 1); [lia|lia|reflexivity|reflexivity|vm_compute; discriminate|
      apply moves_check; [lia|vm_compute; reflexivity]|right; vm_compute; discriminate|apply moves_check; [lia|vm_compute; reflexivity]|].
    apply cw_done.
  - vm_compute; reflexivity.
Qed.
