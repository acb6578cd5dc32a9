(** The firmware in real time: C81, C82. *)
From Coq Require Import List NArith ZArith Arith Bool Lia.
From Coq Require Import ZifyBool ZifyNat ZifyN.
From Verif Require Import Base Lib Buffer BufferSpec BufferProofs Repeat Devices DevSpec DevProofs
     Modifiers Hook KeymapData Asdf KeySpec KeyRef Obs Frames PropModState PropQueues PropHold PropTyping PropBounce.
From Verif Require Avr Arch328p Arch2560 PropArch328 PropArch2560.
From Verif Require Import System PropSystem Timed.
Import ListNotations.

(** ** Two machines that give the same readings *)
Section Two.
Context {H1 H2 : Type} (M1 : machine H1) (M2 : machine H2) (Q : H1 -> H2 -> Prop).
Hypothesis call_q : forall e x y, Q x y -> Q (m_call M1 e x) (m_call M2 e y).
Hypothesis read_q : forall m row x y, (row < 16)%N -> Q x y ->
  u8 (fst (m_read M1 m row x)) = u8 (fst (m_read M2 m row y)) /\ Q (snd (m_read M1 m row x)) (snd (m_read M2 m row y)).

Definition same (X : outcome (kb * H1)) (Y : outcome (kb * H2)) : Prop :=
  match X, Y with
  | Ok (s, x), Ok (s', y) => s = s' /\ Q x y /\ exists a, Rel a s
  | Bad u, Bad u' => u = u'
  | _, _ => False
  end.

Lemma perform_q : forall s s' x y, Q x y -> Q (perform M1 s s' x) (perform M2 s s' y).
Proof. intros s s' x y. unfold perform. generalize (fresh s s'). intros l. revert x y. induction l as [|e l IH]; intros x y HQ; cbn [fold_left]; auto. Qed.

Lemma rows_q : forall fuel mm row a s x y, Rel a s -> Q x y -> same (sys_rows M1 fuel mm row s x) (sys_rows M2 fuel mm row s y).
Proof.
  induction fuel as [|fuel IH]; intros mm row a s x y R HQ; [reflexivity|].
  cbn [sys_rows]. rewrite (num_rows_ok _ _ R). cbn [bind].
  destruct (row <? nrows (a_cur a)) eqn:E; [|cbn; eauto].
  apply Nat.ltb_lt in E. pose proof (rows_ge _ (rl_lt _ _ R)) as NR.
  destruct (read_q (mm row) (N.of_nat row) x y ltac:(lia) HQ) as [V HQ1].
  destruct (m_read M1 (mm row) (N.of_nat row) x) as [v x1]. destruct (m_read M2 (mm row) (N.of_nat row) y) as [w y1]. cbn [fst snd] in V, HQ1.
  rewrite V. pose proof (row_sim (fun _ => w) row a s R (rows_nine _ _ (rl_lt _ _ R) E)) as X. cbv beta in X.
  destruct (lget UScanOob (k_stable s) row) as [st|u]; cbn [bind] in *; [|reflexivity].
  destruct (keys_step (fun _ => w) (map (pair row) (seq 0 8)) a) as [b|]; cbn [sim] in X; [|rewrite X; reflexivity].
  destruct X as [s1 [E1 R1]]. rewrite E1. cbn [bind]. apply (IH mm (S row) b); auto. apply perform_q; auto.
Qed.
Lemma tick_q : forall mm a s x y, Rel a s -> Q x y -> same (sys_tick M1 mm s x) (sys_tick M2 mm s y).
Proof.
  intros mm a s x y R HQ. unfold sys_tick. destruct (send_sim a s R) as [s2 [E R2]].
  destruct (next_code s) as [[code s1]|u]; [|discriminate E]. cbn [bind] in *. rewrite E. cbn [bind].
  unfold sys_scan. assert (HG : hook_get HOOK_ROW_SCANNER (k_hook s2) = Ok HReadRow) by (rewrite (rl_hook _ _ R2); reflexivity).
  rewrite HG. cbn [bind].
  assert (HE : hook_execute HOOK_EACH_SCAN s2 = Ok s2) by (unfold hook_execute; rewrite (rl_hook _ _ R2); reflexivity).
  rewrite HE. cbn [bind]. apply (rows_q _ _ _ (asend a)); auto. apply perform_q, perform_q; auto.
Qed.
Context (w1 : H1 -> H1) (w2 : H2 -> H2).
Hypothesis wait_q : forall x y, Q x y -> Q (w1 x) (w2 y).
Lemma passes_q : forall n a s x y, Rel a s -> Q x y -> same (passes w1 M1 n s x) (passes w2 M2 n s y).
Proof.
  induction n as [|n IH]; intros a s x y R HQ; cbn [passes]; [cbn; eauto|].
  pose proof (tick_q (fun _ _ => 0%N) a s (w1 x) (w2 y) R (wait_q _ _ HQ)) as X.
  destruct (sys_tick M1 (fun _ _ => 0%N) s (w1 x)) as [[s1 x1]|u]; destruct (sys_tick M2 (fun _ _ => 0%N) s (w2 y)) as [[s2 y1]|u'];
    cbn [same] in X; try contradiction; cbn [bind]; [|exact X].
  destruct X as (<-&HQ1&b&RB). apply (IH b); auto.
Qed.
Lemma live_q : forall n x y, Q (m_call M1 EvArchInit x) (m_call M2 EvArchInit y) ->
  same (live w1 M1 n x) (live w2 M2 n y).
Proof.
  intros n x y GI. unfold live. destruct boot_sim as [s [E R]]. rewrite E. cbn [bind]. clear E.
  apply (passes_q n aboot); auto. unfold perform.
  assert (F : fresh kb_zero s = [EvArchInit]) by (unfold fresh; rewrite (rl_log _ _ R); reflexivity). rewrite F. apply GI.
Qed.
End Two.

(** ** The clock *)
Definition after (l : list event) (c : clk) : clk := fold_left (fun c e => spend e c) l c.
Lemma after_app : forall l k c, after (l ++ k) c = after k (after l c).
Proof. intros. apply fold_left_app. Qed.
Lemma spend_le : forall e c, now c <= now (spend e c).
Proof. intros e c. destruct e; cbn; lia. Qed.
Lemma after_le : forall l c, now c <= now (after l c).
Proof. induction l as [|e l IH]; intros c; [reflexivity|]. cbn. etransitivity; [apply (spend_le e)|apply IH]. Qed.
Lemma after_timeless : forall l c, Forall timeless l -> now (after l c) = now c /\ (flag c = false -> flag (after l c) = false).
Proof.
  intros l c HF. revert c. induction HF as [|e l HI HF IH]; intros c; [auto|]. cbn [after fold_left]. fold (after l (spend e c)).
  destruct (IH (spend e c)) as [-> F]. destruct e; cbn in HI, F |- *; auto; contradiction.
Qed.
Lemma after_stamps : forall l c, map snd (stamps (after l c)) = rev (sends l) ++ map snd (stamps c).
Proof.
  induction l as [|e l IH]; intros c; [reflexivity|]. cbn [after fold_left]. fold (after l (spend e c)). rewrite IH.
  change (sends (e :: l)) with (sends ([e] ++ l)). rewrite sends_app, rev_app_distr, <- app_assoc. f_equal. destruct e; reflexivity.
Qed.

Lemma perform_after : forall W a b s s' c, Rel a s -> Rel b s' -> grows a b ->
  exists l, events s' = events s ++ l /\ perform (watch W) s s' c = after l c.
Proof.
  intros W a b s s' c R R' [l E]. exists (rev l).
  assert (F : fresh s s' = rev l).
  { unfold fresh. rewrite (rl_log _ _ R), (rl_log _ _ R'), E, app_length.
    replace (length l + length (a_log a) - length (a_log a)) with (length l + 0) by lia.
    rewrite firstn_app_2. cbn [firstn]. rewrite app_nil_r. reflexivity. }
  split; [rewrite (events_ok _ _ R), (events_ok _ _ R'), E, rev_app_distr; reflexivity|].
  unfold perform. rewrite F. reflexivity.
Qed.

(** What the firmware reads: row r at time [t r]. *)
Definition reads_at (W : nat -> nat -> N) (t : nat -> nat) : nat -> N := fun r => W (t r) r.
(** Rows are read in order, from time [lo] to time [hi]. *)
Definition in_order (t : nat -> nat) (lo hi : nat) : Prop :=
  (forall r, lo <= t r <= hi) /\ forall r r', r <= r' -> t r <= t r'.

Lemma rows_ext : forall fuel rd rd' row s, (forall r, row <= r -> rd r = rd' r) -> rows_loop fuel rd row s = rows_loop fuel rd' row s.
Proof.
  induction fuel as [|fuel IH]; intros rd rd' row s HE; [reflexivity|]. rewrite !rows_loop_step.
  destruct (num_rows s) as [nr|u]; cbn [bind]; [|reflexivity]. destruct (row <? nr); [|reflexivity]. rewrite (HE row) by lia.
  destruct (lget _ _ _) as [st|u]; cbn [bind]; [|reflexivity]. destruct (cols_loop _ _ _ _ _ _) as [s1|u]; cbn [bind]; [|reflexivity].
  apply IH. intros r Hr. apply HE. lia.
Qed.

Lemma watch_rows : forall W fuel mm row a s c, Rel a s ->
  match sys_rows (watch W) fuel mm row s c with
  | Ok (s', c') => exists t l, rows_loop fuel (reads_at W t) row s = Ok s' /\ events s' = events s ++ l /\ c' = after l c /\
      in_order t (now c) (now c')
  | Bad u => exists t, rows_loop fuel (reads_at W t) row s = Bad u
  end.
Proof.
  induction fuel as [|fuel IH]; intros mm row a s c R; [exists (fun _ => 0); reflexivity|].
  cbn [sys_rows]. rewrite (num_rows_ok _ _ R). cbn [bind].
  destruct (row <? nrows (a_cur a)) eqn:E.
  2:{ exists (fun _ => now c), []. rewrite rows_loop_step, (num_rows_ok _ _ R). cbn [bind]. rewrite E, app_nil_r.
      split; auto. split; auto. split; auto. split; intros; lia. }
  cbn [m_read watch]. rewrite Nat2N.id. pose proof E as E0. apply Nat.ltb_lt in E.
  pose proof (row_sim (fun _ => W (now c) row) row a s R (rows_nine _ _ (rl_lt _ _ R) E)) as X. cbv beta in X.
  assert (ST : forall t, (forall r, r <= row -> t r = now c) -> rows_loop (S fuel) (reads_at W t) row s =
    bind (bind (lget UScanOob (k_stable s) row) (fun st => cols_loop 256 row 0 (u8 (W (now c) row)) (N.lxor (u8 (W (now c) row)) st) s))
      (rows_loop fuel (reads_at W t) (S row))).
  { intros t HT. rewrite rows_loop_step, (num_rows_ok _ _ R). cbn [bind]. rewrite E0. unfold reads_at at 1 2. rewrite HT by lia. reflexivity. }
  destruct (lget UScanOob (k_stable s) row) as [st|u]; cbn [bind] in *.
  2:{ exists (fun _ => now c). rewrite ST by auto. reflexivity. }
  destruct (keys_step (fun _ => W (now c) row) (map (pair row) (seq 0 8)) a) as [b|] eqn:EK; cbn [sim] in X.
  2:{ rewrite X. cbn [bind]. exists (fun _ => now c). rewrite ST by auto. rewrite X. reflexivity. }
  destruct X as [s1 [E1 R1]]. rewrite E1. cbn [bind].
  destruct (perform_after W a b s s1 c R R1 (keys_grow _ _ _ _ EK)) as [l1 [EV1 P1]].
  pose proof (IH mm (S row) b s1 (perform (watch W) s s1 c) R1) as Y. rewrite P1 in Y |- *. clear IH.
  assert (TT : forall t, exists t', (forall r, r <= row -> t' r = now c) /\ (forall r, S row <= r -> t' r = t r)).
  { intros t. exists (fun r => if r <=? row then now c else t r).
    split; intros r Hr; [replace (r <=? row) with true by lia|replace (r <=? row) with false by lia]; auto. }
  pose proof (after_le l1 c) as LE.
  destruct (sys_rows (watch W) fuel mm (S row) s1 (after l1 c)) as [[s' c']|u].
  - destruct Y as (t&l&Y1&Y2&Y3&Y4&Y5). destruct (TT t) as (t'&T1&T2). exists t', (l1 ++ l).
    rewrite ST by auto. rewrite E1. cbn [bind]. rewrite (rows_ext _ _ (reads_at W t)).
    2:{ intros r Hr. unfold reads_at. rewrite T2; auto. }
    split; auto. split; [rewrite Y2, EV1, app_assoc; auto|]. split; [rewrite after_app; auto|].
    assert (LE2 : now (after l1 c) <= now c') by (specialize (Y4 0); lia).
    split.
    + intros r. destruct (Nat.leb_spec r row); [rewrite T1 by auto; lia|]. rewrite T2 by lia. specialize (Y4 r). lia.
    + intros r r' Hr. destruct (Nat.leb_spec r row) as [L|L].
      * rewrite (T1 r) by auto. destruct (Nat.leb_spec r' row); [rewrite T1 by auto; lia|]. rewrite T2 by lia. specialize (Y4 r'). lia.
      * rewrite !T2 by lia. auto.
  - destruct Y as [t Y]. destruct (TT t) as (t'&T1&T2). exists t'. rewrite ST by auto. rewrite E1. cbn [bind].
    rewrite (rows_ext _ _ (reads_at W t)); auto. intros r Hr. unfold reads_at. rewrite T2; auto.
Qed.

Lemma watch_tick : forall W mm a s c, Rel a s ->
  match sys_tick (watch W) mm s c with
  | Ok (s', c') => exists t l, tick (reads_at W t) s = Ok s' /\ events s' = events s ++ l /\ c' = after l c /\
      in_order t (now c) (now c')
  | Bad u => exists t, tick (reads_at W t) s = Bad u
  end.
Proof.
  intros W mm a s c R. unfold tick, sys_tick. destruct (send_sim a s R) as [s2 [E R2]].
  destruct (next_code s) as [[code s1]|u]; [|discriminate E]. cbn [bind] in *. rewrite E. cbn [bind].
  unfold sys_scan, keyscan.
  assert (HG : hook_get HOOK_ROW_SCANNER (k_hook s2) = Ok HReadRow) by (rewrite (rl_hook _ _ R2); reflexivity).
  rewrite HG. cbn [bind].
  assert (HE : hook_execute HOOK_EACH_SCAN s2 = Ok s2) by (unfold hook_execute; rewrite (rl_hook _ _ R2); reflexivity).
  rewrite HE. cbn [bind].
  destruct (perform_after W _ _ _ _ c R R2 (send_grows a)) as [l1 [EV1 P1]].
  destruct (perform_after W _ _ _ _ (perform (watch W) s s2 c) R2 R2 (grows_refl (asend a))) as [l2 [EV2 P2]].
  assert (L2 : l2 = []). { apply (app_inv_head (events s2)). rewrite <- EV2, app_nil_r. reflexivity. }
  subst l2. rewrite P2, P1. cbn [after fold_left]. fold (after l1 c).
  pose proof (watch_rows W 256 mm 0 (asend a) s2 (after l1 c) R2) as Y. pose proof (after_le l1 c) as LE.
  destruct (sys_rows (watch W) 256 mm 0 s2 (after l1 c)) as [[s' c']|u]; [|exact Y].
  destruct Y as (t&l&Y1&Y2&Y3&Y4&Y5). exists t, (l1 ++ l). split; auto. split; [rewrite Y2, EV1, app_assoc; auto|].
  split; [rewrite after_app; auto|]. split; auto. intros r. specialize (Y4 r). lia.
Qed.

(** ** Whole runs *)
Lemma passes_snoc : forall {H} (w : H -> H) (M : machine H) n s h,
  passes w M (S n) s h = bind (passes w M n s h) (fun p => sys_tick M (fun _ _ => 0%N) (fst p) (w (snd p))).
Proof.
  intros H w M. induction n as [|n IH]; intros s h.
  - cbn [passes bind fst snd]. destruct (sys_tick _ _ _ _) as [[s1 h1]|u]; reflexivity.
  - change (passes w M (S (S n)) s h) with (bind (sys_tick M (fun _ _ => 0%N) s (w h)) (fun p => let '(s1, h1) := p in passes w M (S n) s1 h1)).
    cbn [passes]. destruct (sys_tick M (fun _ _ => 0%N) s (w h)) as [[s1 h1]|u]; cbn [bind]; [apply IH|reflexivity].
Qed.
Lemma real_0 : forall W, exists s, real W 0 = Ok (s, clk0) /\ run [] = Ok s /\ Rel aboot s.
Proof.
  intros W. unfold real, live, run. destruct boot_sim as [s [E R]]. rewrite E. cbn [bind passes ticks]. exists s. clear E.
  assert (F : fresh kb_zero s = [EvArchInit]) by (unfold fresh; rewrite (rl_log _ _ R); reflexivity).
  unfold perform. rewrite F. split; [reflexivity|]. split; [reflexivity|exact R].
Qed.
Lemma real_S : forall W n, real W (S n) = bind (real W n) (fun p => sys_tick (watch W) (fun _ _ => 0%N) (fst p) (wait (snd p))).
Proof.
  intros W n. unfold real, live. destruct boot_sim as [s [E R]]. rewrite E. cbn [bind]. apply passes_snoc.
Qed.

(** Pass [i] reads row r at time [T i r]. *)
Definition readings_of (W : nat -> nat -> N) (T : nat -> nat -> nat) (n : nat) : list (nat -> N) :=
  map (fun i => reads_at W (T i)) (seq 0 n).
(** Reading times go forward, from the first interrupt up to [hi]. *)
Definition forward (T : nat -> nat -> nat) (n hi : nat) : Prop :=
  (forall i, i < n -> in_order (T i) 1 hi) /\ forall i j r r', i < j < n -> T i r <= T j r'.

Definition settime (T : nat -> nat -> nat) (n : nat) (t : nat -> nat) : nat -> nat -> nat := fun i => if i <? n then T i else t.
Lemma readings_snoc : forall W T n t, readings_of W (settime T n t) (S n) = readings_of W T n ++ [reads_at W t].
Proof.
  intros W T n t. unfold readings_of. rewrite seq_S, map_app. cbn [map Nat.add]. unfold settime at 2. rewrite Nat.ltb_irrefl. f_equal.
  apply map_ext_in. intros i IN. apply in_seq in IN. unfold settime. replace (i <? n) with true by lia. reflexivity.
Qed.
Lemma run_cons_bad : forall pre rd u, run pre = Bad u -> run (pre ++ [rd]) = Bad u.
Proof. intros pre rd u H. rewrite run_app, H. reflexivity. Qed.
Lemma run_snoc_any : forall pre rd s, run pre = Ok s -> run (pre ++ [rd]) = tick rd s.
Proof. intros pre rd s H. rewrite run_app, H, bind_Ok. change (ticks [rd] s) with (bind (tick rd s) (ticks [])). destruct (tick rd s); reflexivity. Qed.

Lemma real_run : forall W n,
  match real W n with
  | Ok (s, c) => 1 <= now (wait c) /\ exists T, run (readings_of W T n) = Ok s /\ forward T n (now c) /\ map snd (stamps c) = rev (sent s)
  | Bad u => exists T, run (readings_of W T n) = Bad u
  end.
Proof.
  intros W. induction n as [|n IH].
  - destruct (real_0 W) as (s&E&E'&R). rewrite E. split; [reflexivity|]. exists (fun _ _ => 0). split; [exact E'|]. split; [split; intros; lia|].
    unfold sent. rewrite (events_ok _ _ R). reflexivity.
  - rewrite real_S. destruct (real W n) as [[s c]|u]; cbn [bind fst snd].
    2:{ destruct IH as [T IH]. exists (settime T n (fun _ => 0)). rewrite readings_snoc. apply run_cons_bad. exact IH. }
    destruct IH as (N1&T&E&[F1 F2]&ST). destruct (reach _ _ E) as [a [A R]].
    pose proof (watch_tick W (fun _ _ => 0%N) a s (wait c) R) as X.
    destruct (sys_tick (watch W) (fun _ _ => 0%N) s (wait c)) as [[s' c']|u].
    2:{ destruct X as [t X]. exists (settime T n t). rewrite readings_snoc, (run_snoc_any _ _ _ E). exact X. }
    destruct X as (t&l&X1&X2&X3&X4).
    assert (NW : now c <= now (wait c) <= now c').
    { split; [cbn; destruct (flag c); lia|]. rewrite X3. apply after_le. }
    split; [unfold wait at 1; cbn [now]; destruct (flag c'); lia|].
    exists (settime T n t). rewrite readings_snoc, (run_snoc_any _ _ _ E). split; [exact X1|].
    destruct X4 as [G1 G2]. split; [split|].
    + intros i Hi. unfold settime. destruct (Nat.ltb_spec i n) as [L|L].
      * destruct (F1 i L) as [K1 K2]. split; auto. intros r. specialize (K1 r). lia.
      * split; auto. intros r. specialize (G1 r). lia.
    + intros i j r r' Hij. unfold settime. replace (i <? n) with true by lia. destruct (Nat.ltb_spec j n) as [L|L]; [apply F2; lia|].
      destruct (F1 i ltac:(lia)) as [K1 _]. specialize (K1 r). specialize (G1 r'). lia.
    + unfold sent. rewrite X3, after_stamps, X2, sends_app, rev_app_distr. f_equal. exact ST.
Qed.

(** ** C81 *)
Definition board_agrees {H} (M : machine H) (W : nat -> nat -> N) (n : nat) (h : H) : Prop :=
  match real W n with
  | Ok (s, c) => exists h', real_on M W n h = Ok (s, (h', c))
  | Bad u => real_on M W n h = Bad u
  end.

Lemma boards_agree : forall {H} (M : machine H) (Good : H -> Prop) W n h,
  (forall e h, Good h -> Good (m_call M e h)) ->
  (forall m row h, (row < 16)%N -> Good h -> Good (snd (m_read M m row h))) ->
  (forall m row h, (row < 16)%N -> Good h -> u8 (fst (m_read M m row h)) = u8 (m (N.to_nat row))) ->
  (forall h, Good (m_call M EvArchInit h)) -> board_agrees M W n h.
Proof.
  intros H M Good W n h CG RG RV GI.
  pose proof (live_q (timed M W) (watch W) (fun x c => Good (fst x) /\ snd x = c)) as X.
  assert (X1 : forall e x y, Good (fst x) /\ snd x = y -> Good (fst (m_call (timed M W) e x)) /\ snd (m_call (timed M W) e x) = m_call (watch W) e y).
  { intros e x y [G <-]. cbn. auto. }
  assert (X2 : forall m row x y, (row < 16)%N -> Good (fst x) /\ snd x = y ->
    u8 (fst (m_read (timed M W) m row x)) = u8 (fst (m_read (watch W) m row y)) /\
    Good (fst (snd (m_read (timed M W) m row x))) /\ snd (snd (m_read (timed M W) m row x)) = snd (m_read (watch W) m row y)).
  { intros m row x y HR [G <-]. cbn [m_read timed watch fst snd]. pose proof (RV (W (now (snd x))) row (fst x) HR G) as V.
    pose proof (RG (W (now (snd x))) row (fst x) HR G) as G'.
    destruct (m_read M (W (now (snd x))) row (fst x)) as [v h']. cbn [fst snd] in *. auto. }
  specialize (X X1 X2 (fun x => (fst x, wait (snd x))) wait).
  assert (X3 : forall x y, Good (fst x) /\ snd x = y -> Good (fst ((fst x, wait (snd x)))) /\ snd ((fst x, wait (snd x))) = wait y).
  { intros x y [G <-]. auto. }
  specialize (X X3 n (h, clk0) clk0).
  assert (X4 : Good (fst (m_call (timed M W) EvArchInit (h, clk0))) /\ snd (m_call (timed M W) EvArchInit (h, clk0)) = m_call (watch W) EvArchInit clk0).
  { cbn. auto. }
  specialize (X X4). unfold board_agrees, real, real_on.
  destruct (live (fun x => (fst x, wait (snd x))) (timed M W) n (h, clk0)) as [[s [h' c]]|u]; destruct (live wait (watch W) n clk0) as [[s2 c2]|u2];
    cbn [same] in X; try contradiction.
  - destruct X as (<-&[_ E]&_). cbn [snd] in E. subst c2. eauto.
  - congruence.
Qed.

(** In real time each board behaves as the firmware alone with its clock.  That
    firmware behaves as in [Asdf.v] for readings taken from the moving keys: row
    after row, pass after pass, never going back in time. *)
Theorem C81_real_time : forall W n,
  (forall rmw ser x h, board_agrees (board_328p rmw ser x) W n h) /\ (forall rmw x h, board_agrees (board_2560 rmw x) W n h) /\
  match real W n with
  | Ok (s, c) => exists T, run (readings_of W T n) = Ok s /\ forward T n (now c) /\ map snd (stamps c) = rev (sent s)
  | Bad u => exists T, run (readings_of W T n) = Bad u
  end.
Proof.
  intros W n. split; [|split].
  - intros rmw ser x h. apply (boards_agree _ (fun h => PropArch328.Cfg (Avr.io h))).
    + intros e h'. apply PropArch328.cfg_call.
    + intros m row h' _ C. apply (proj1 (proj2 (proj2 (PropArch328.read_row_ok rmw m ser x row h' C _ eq_refl)))).
    + apply value_328p.
    + intros h'. apply PropArch328.cfg_init.
  - intros rmw x h. apply (boards_agree _ (fun h => PropArch2560.Cfg (Avr.io h))).
    + intros e h'. apply PropArch2560.cfg_call.
    + intros m row h' HR C. apply (proj1 (proj2 (proj2 (PropArch2560.read_row_ok rmw m x row h' HR C _ eq_refl)))).
    + apply value_2560.
    + intros h'. apply PropArch2560.cfg_init.
  - pose proof (real_run W n) as X. destruct (real W n) as [[s c]|u]; [apply X|exact X].
Qed.
Print Assumptions C81_real_time.

(** ** Passes in which no time is spent *)
Lemma rows_grow : forall fuel rd row a s s', Rel a s -> rows_loop fuel rd row s = Ok s' -> exists l, events s' = events s ++ l.
Proof.
  intros fuel rd row a s s' R E. pose proof (watch_rows (fun _ => rd) fuel (fun _ _ => 0%N) row a s clk0 R) as X.
  destruct (sys_rows (watch (fun _ => rd)) fuel (fun _ _ => 0%N) row s clk0) as [[s2 c2]|u].
  - destruct X as (t&l&X1&X2&_). assert (s2 = s') by (rewrite (rows_ext _ _ rd) in X1 by reflexivity; congruence). subst s2. eauto.
  - destruct X as [t X]. rewrite (rows_ext _ _ rd) in X by reflexivity. congruence.
Qed.

Lemma quiet_rows : forall W fuel mm row a s c s' l, Rel a s -> rows_loop fuel (W (now c)) row s = Ok s' ->
  events s' = events s ++ l -> Forall timeless l -> sys_rows (watch W) fuel mm row s c = Ok (s', after l c).
Proof.
  intros W. induction fuel as [|fuel IH]; intros mm row a s c s' l R E EV HI; [discriminate E|].
  rewrite rows_loop_step in E. cbn [sys_rows]. rewrite (num_rows_ok _ _ R) in *. cbn [bind] in *.
  destruct (row <? nrows (a_cur a)) eqn:EL.
  2:{ assert (s' = s) by congruence. subst s'. assert (l = []) as -> by (apply (app_inv_head (events s)); rewrite <- EV, app_nil_r; reflexivity). reflexivity. }
  cbn [m_read watch]. rewrite Nat2N.id. apply Nat.ltb_lt in EL.
  pose proof (row_sim (W (now c)) row a s R (rows_nine _ _ (rl_lt _ _ R) EL)) as X.
  destruct (lget UScanOob (k_stable s) row) as [st|u]; cbn [bind] in *; [|discriminate E].
  destruct (keys_step (W (now c)) (map (pair row) (seq 0 8)) a) as [b|] eqn:EK; cbn [sim] in X; [|rewrite X in E; discriminate E].
  destruct X as [s1 [E1 R1]]. rewrite E1 in *. cbn [bind] in *.
  destruct (perform_after W a b s s1 c R R1 (keys_grow _ _ _ _ EK)) as [l1 [EV1 P1]]. rewrite P1.
  destruct (rows_grow _ _ _ _ _ _ R1 E) as [l2 EV2].
  assert (l = l1 ++ l2) as -> by (apply (app_inv_head (events s)); rewrite app_assoc, <- EV1, <- EV; exact EV2).
  apply Forall_app in HI. destruct HI as [HI1 HI2]. rewrite after_app.
  apply (IH mm (S row) b); auto. destruct (after_timeless l1 c HI1) as [-> _]. exact E.
Qed.

Lemma quiet_tick : forall W mm a s c s' l, Rel a s -> tick (W (now c)) s = Ok s' ->
  events s' = events s ++ l -> Forall timeless l -> sys_tick (watch W) mm s c = Ok (s', after l c).
Proof.
  intros W mm a s c s' l R ET EV HI. unfold tick in ET. unfold sys_tick. destruct (send_sim a s R) as [s2 [E R2]].
  destruct (next_code s) as [[code s1]|u]; [|discriminate E]. cbn [bind] in *. rewrite E in *. cbn [bind] in *.
  unfold sys_scan. unfold keyscan in ET.
  assert (HG : hook_get HOOK_ROW_SCANNER (k_hook s2) = Ok HReadRow) by (rewrite (rl_hook _ _ R2); reflexivity).
  rewrite HG in *. cbn [bind] in *.
  assert (HE : hook_execute HOOK_EACH_SCAN s2 = Ok s2) by (unfold hook_execute; rewrite (rl_hook _ _ R2); reflexivity).
  rewrite HE in *. cbn [bind] in *.
  destruct (perform_after W _ _ _ _ c R R2 (send_grows a)) as [l1 [EV1 P1]].
  destruct (perform_after W _ _ _ _ (perform (watch W) s s2 c) R2 R2 (grows_refl (asend a))) as [l2 [EV2 P2]].
  assert (L2 : l2 = []). { apply (app_inv_head (events s2)). rewrite <- EV2, app_nil_r. reflexivity. }
  subst l2. rewrite P2, P1. cbn [after fold_left]. fold (after l1 c).
  destruct (rows_grow _ _ _ _ _ _ R2 ET) as [l2 EV3].
  assert (l = l1 ++ l2) as -> by (apply (app_inv_head (events s)); rewrite app_assoc, <- EV1, <- EV; exact EV3).
  apply Forall_app in HI. destruct HI as [HI1 HI2]. rewrite after_app.
  refine (quiet_rows W 256 mm 0 (asend a) s2 (after l1 c) s' l2 R2 _ EV3 HI2). destruct (after_timeless l1 c HI1) as [-> _]. exact ET.
Qed.

Lemma tick_events : forall rd a s s', Rel a s -> tick rd s = Ok s' -> exists l, events s' = events s ++ l.
Proof.
  intros rd a s s' R E. pose proof (tick_sim rd a s R) as X. destruct (atick rd a) as [b|] eqn:EA; cbn [sim] in X; [|congruence].
  destruct X as [s1 [E1 R1]]. assert (s1 = s') by congruence. subst s1. destruct (tick_grows _ _ _ EA) as [l EL].
  exists (rev l). rewrite (events_ok _ _ R), (events_ok _ _ R1), EL, rev_app_distr. reflexivity.
Qed.
Lemma ticks_events : forall rds a s s', Rel a s -> ticks rds s = Ok s' -> exists l, events s' = events s ++ l.
Proof.
  intros rds a s s' R E. pose proof (ticks_sim rds a s R) as X. destruct (aticks rds a) as [b|] eqn:EA; cbn [sim] in X; [|congruence].
  destruct X as [s1 [E1 R1]]. assert (s1 = s') by congruence. subst s1. destruct (ticks_grow _ _ _ EA) as [l EL].
  exists (rev l). rewrite (events_ok _ _ R), (events_ok _ _ R1), EL, rev_app_distr. reflexivity.
Qed.

(** While no call takes time there is exactly one pass per
    millisecond, which sees the keys of that millisecond. *)
Lemma quiet_ticks : forall W m n s c s' l, real W n = Ok (s, c) -> flag c = false ->
  ticks (map W (seq (S (now c)) m)) s = Ok s' -> events s' = events s ++ l -> Forall timeless l ->
  exists c', real W (n + m) = Ok (s', c') /\ now c' = now c + m /\ flag c' = false.
Proof.
  intros W. induction m as [|m IH]; intros n s c s' l H HF HT EV HI.
  - cbn [seq map ticks] in HT. assert (s' = s) by congruence. subst s'. exists c. rewrite Nat.add_0_r. split; auto.
  - cbn [seq map] in HT. change (ticks (W (S (now c)) :: map W (seq (S (S (now c))) m)) s)
      with (bind (tick (W (S (now c))) s) (ticks (map W (seq (S (S (now c))) m)))) in HT.
    apply bind_split in HT. destruct HT as [s1 [E1 HT]].
    pose proof (real_run W n) as X. rewrite H in X. destruct X as (_&T&ER&_). destruct (reach _ _ ER) as [a [A R]].
    destruct (tick_events _ _ _ _ R E1) as [l1 EV1]. pose proof (tick_sim (W (S (now c))) a s R) as X.
    destruct (atick (W (S (now c))) a) as [b|]; cbn [sim] in X; [|congruence]. destruct X as [s1' [E1' R1]].
    assert (s1' = s1) by congruence. subst s1'. destruct (ticks_events _ _ _ _ R1 HT) as [l2 EV2].
    assert (l = l1 ++ l2) as -> by (apply (app_inv_head (events s)); rewrite app_assoc, <- EV1, <- EV; exact EV2).
    apply Forall_app in HI. destruct HI as [HI1 HI2].
    assert (NW : now (wait c) = S (now c)) by (unfold wait; rewrite HF; reflexivity).
    assert (HS : real W (S n) = Ok (s1, after l1 (wait c))).
    { rewrite real_S, H, bind_Ok. cbn [fst snd]. refine (quiet_tick W _ a s (wait c) s1 l1 R _ EV1 HI1). rewrite NW. exact E1. }
    destruct (after_timeless l1 (wait c) HI1) as [N1 F1]. rewrite NW in N1.
    destruct (IH (S n) s1 (after l1 (wait c)) s' l2 HS (F1 eq_refl)) as (c'&E&N2&F2); auto.
    { rewrite N1. exact HT. }
    exists c'. replace (n + S m) with (S n + m) by lia. split; auto. split; auto. lia.
Qed.

(** ** C82 *)
(** Typing in real time: from any moment with nothing queued, the keys moving (and
    bouncing) millisecond by millisecond as in a session, the codes of the
    session are sent, in order, each once, and the session takes as long as the
    movements. *)
Theorem C82_typing_in_real_time : forall W n s c m o x x' D' m', real W n = Ok (s, c) -> flag c = false ->
  (k_cur s < 4)%N -> calm x s -> bouncing (k_cur s) x (down s) (modes_of s) (map W (seq (S (now c)) m)) o x' D' m' ->
  exists s' c', real W (n + m) = Ok (s', c') /\ now c' = now c + m /\ flag c' = false /\
    sent s' = sent s ++ o /\ map snd (stamps c') = rev (sent s') /\ calm x' s' /\ modes_of s' = m'.
Proof.
  intros W n s c m o x x' D' m' H HF Hk HC B. pose proof (real_run W n) as X. rewrite H in X. destruct X as (_&T&ER&_).
  destruct (bouncing_run _ _ _ _ _ _ _ _ ER Hk HC B) as (s'&l&E&EV&SL&HI&C'&_&M'&_).
  destruct (quiet_ticks W m n s c s' l H HF E EV (instant_timeless _ HI)) as (c'&E'&N'&F'). exists s', c'. split; auto. split; auto. split; auto.
  split; [unfold sent; rewrite EV, sends_app, SL; reflexivity|]. pose proof (real_run W (n + m)) as X. rewrite E' in X.
  destruct X as (_&T'&_&_&ST). auto.
Qed.
Print Assumptions C82_typing_in_real_time.

(** ** Examples *)
Definition seen {A} (f : kb * clk -> A) (x : outcome (kb * clk)) : option A :=
  match x with Ok p => Some (f p) | Bad _ => None end.
(** CTRL and the identification key held for 20 ms, then "p" until 1500 ms:
    scans come one a millisecond until the message starts, then one every 40;
    the message takes 3.4 s and the "p" comes in the same millisecond as the end
    of the message. *)
Definition busy_world (t : nat) : nat -> N :=
  if t <=? 20 then matrix [(0, 6); (6, 6)] else if t <=? 1500 then matrix [(1, 1)] else matrix [].
Example C81_example :
  seen (fun p => (now (snd p), length (sent (fst p)))) (real busy_world 10) = Some (10, 0) /\
  seen (fun p => (now (snd p), stamps (snd p))) (real busy_world 12) = Some (91, [(91, 48%N); (51, 49%N)]) /\
  seen (fun p => (now (snd p), length (sent (fst p)), firstn 3 (stamps (snd p)))) (real busy_world 150) =
    Some (3504, 87, [(3451, 112%N); (3451, 13%N); (3411, 48%N)]).
Proof. vm_compute. repeat split. Qed.
(** "p" pressed at 7 ms and released at 24 ms, both contacts bouncing. *)
Definition bounce_keys (t : nat) : list (nat * nat) :=
  if existsb (Nat.eqb t) [7; 9; 10; 13; 14; 15; 16; 17; 18; 19; 20; 21; 22; 23; 25; 26] then [(1, 1)] else [].
Definition bounce_world (t : nat) : nat -> N := matrix (bounce_keys t).
Example C82_example :
  seen (fun p => (now (snd p), flag (snd p), k_cur (fst p), key_queue (fst p), msg_queue (fst p), r_state (k_rep (fst p)), k_last (fst p)))
    (real bounce_world 6) = Some (6, false, 0%N, [], [], RAuto, 0xA0%N) /\
  seen (fun p => stamps (snd p)) (real bounce_world (6 + 31)) = Some [(20, 112%N)] /\
  bouncing 0 0xA0 (fun _ _ => false) (mkModes false false false) (map bounce_world (seq 7 31)) [112%N] 0xA0
    (fun _ _ => false) (mkModes false false false).
Proof.
  split; [vm_compute; reflexivity|]. split; [vm_compute; reflexivity|].
  change (map bounce_world (seq 7 31)) with (map matrix (map bounce_keys (seq 7 17)) ++ map matrix (map bounce_keys (seq 24 14)) ++ []).
  eapply (b_stroke 0 _ _ (mkModes false false false) 1 1
    [true; false; true; true; false; false; true; true; true; true; true; true; true; true; true; true; true]
    ([false; true; true] ++ repeat false 11));
    [lia|lia|reflexivity|reflexivity|discriminate|apply actions_check; vm_compute; reflexivity|
     apply readings_check; vm_compute; reflexivity|split; apply Nat.leb_le; reflexivity|
     apply readings_check; vm_compute; reflexivity|split; apply Nat.leb_le; reflexivity|apply Nat.leb_le; reflexivity|].
  apply b_done.
Qed.
