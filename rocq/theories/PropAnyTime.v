(** Any keymaps in real time on a board, however long computing takes: C110. *)
From Coq Require Import List NArith ZArith Arith Bool Lia.
From Coq Require Import ZifyBool ZifyNat ZifyN.
From Verif Require Import Base Lib Buffer BufferSpec BufferProofs Repeat Devices DevSpec DevProofs
     Modifiers Hook KeymapData Asdf KeySpec KeyRef Obs PropDebounce.
From Verif Require Avr Arch328p Arch2560 PropArch328 PropArch2560 PropHost328 PropHost2560.
From Verif Require Import Host PropHost System PropSystem Timed PropTimed Jitter PropJitter.
From Verif Require Import Custom CustomSpec CustomRef PropCustom PropEvents PropFlow PropExact
     CustomSystem PropBoard CustomTime.
From Verif Require Import PinSpec PropPins.
From Verif Require PropPins328 PropPins2560 PropAllCalls.
Import ListNotations.
Local Open Scope outcome_scope.

Section Kbs.
Variable kbs : N -> option (list setup_cmd).

Lemma c_rows_ext : forall f rd rd' row s, (forall r, row <= r -> rd r = rd' r) -> c_rows_loop kbs f rd row s = c_rows_loop kbs f rd' row s.
Proof.
  induction f as [|f IH]; intros rd rd' row s E; [reflexivity|]. rewrite !c_rows_step. apply bind_ext; intros nr.
  destruct (row <? nr); [|reflexivity]. rewrite (E row) by lia. apply bind_ext; intros s1. apply IH. intros r Hr. apply E. lia.
Qed.

(** The state after power-on, and the calls that led to it. *)
Lemma boot_fresh : forall cs, kbs 0%N = Some cs -> exists s l0, c_init kbs kb_zero = Ok s /\ GRel (gboot kbs) s /\
  fresh kb_zero s = EvArchInit :: rev l0 /\ events s = EvArchInit :: rev l0.
Proof.
  intros cs EK. destruct (gboot_sim kbs cs EK) as [s [E RG]].
  assert (L : exists l, g_log (gboot kbs) = l ++ [EvArchInit]).
  { unfold gboot, gswitch. rewrite EK. exact (longer_setup cs (gclear 0 gzero)). }
  destruct L as [l0 L]. exists s, l0. split; [exact E|]. split; [exact RG|]. split.
  - unfold fresh. rewrite (rt_log _ _ (proj1 RG)), L. change (length (log (k_dev kb_zero))) with 0.
    rewrite Nat.sub_0_r, firstn_all, rev_app_distr. reflexivity.
  - rewrite (g_events _ _ RG), L, rev_app_distr. reflexivity.
Qed.

(** ** Two machines side by side *)
Section Two.
Context {H1 H2 : Type} (M1 : machine H1) (M2 : machine H2) (Q : H1 -> H2 -> Prop).
Hypothesis call_q : forall e x y, Q x y -> Q (m_call M1 e x) (m_call M2 e y).
Hypothesis read_q : forall m row x y, (row < 16)%N -> Q x y ->
  u8 (fst (m_read M1 m row x)) = u8 (fst (m_read M2 m row y)) /\ Q (snd (m_read M1 m row x)) (snd (m_read M2 m row y)).

Definition alike (o1 : outcome (kb * H1)) (o2 : outcome (kb * H2)) : Prop :=
  match o1, o2 with
  | Ok (s1, x), Ok (s2, y) => s1 = s2 /\ Q x y /\ exists g, GRel g s1
  | Bad u, Bad v => u = v
  | _, _ => False
  end.
Lemma c_perform_q : forall s s' x y, Q x y -> Q (perform M1 s s' x) (perform M2 s s' y).
Proof.
  intros s s'. unfold perform. generalize (fresh s s'). induction l as [|e l IH]; intros x y HQ; [exact HQ|].
  cbn [fold_left]. apply IH. apply call_q. exact HQ.
Qed.
Lemma c_rows_q : forall fuel mm row g s x y, GRel g s -> Q x y -> alike (cs_rows kbs M1 fuel mm row s x) (cs_rows kbs M2 fuel mm row s y).
Proof.
  induction fuel as [|fuel IH]; intros mm row g s x y RG HQ; [reflexivity|].
  cbn [cs_rows]. rewrite (proj2 (gnum _ _ (proj1 RG))). cbn [bind].
  destruct (row <? g_rows g) eqn:E; [|cbn; eauto].
  apply Nat.ltb_lt in E. pose proof (g_small _ _ (proj1 RG)) as [_ NR].
  destruct (read_q (mm row) (N.of_nat row) x y ltac:(lia) HQ) as [V HQ1].
  destruct (m_read M1 (mm row) (N.of_nat row) x) as [v1 x1]. destruct (m_read M2 (mm row) (N.of_nat row) y) as [v2 y1].
  cbn [fst snd] in V, HQ1. cbv zeta. rewrite V.
  pose proof (grow_sim kbs (fun _ => v2) row g s RG ltac:(lia)) as X. cbv beta in X.
  destruct (lget UScanOob (k_stable s) row) as [st|u]; cbn [bind] in *; [|reflexivity].
  destruct (gcols kbs 8 (fun _ => v2) row 0 g) as [g1|u]; cbn [osim] in X; [|rewrite X; reflexivity].
  destruct X as [s1 [E1 R1]]. rewrite E1. cbn [bind]. apply (IH mm (S row) g1); [exact R1|]. apply c_perform_q. exact HQ1.
Qed.
Lemma c_tick_q : forall mm g s x y, GRel g s -> Q x y -> alike (cs_tick kbs M1 mm s x) (cs_tick kbs M2 mm s y).
Proof.
  intros mm g s x y RG HQ. unfold cs_tick. pose proof (gsend_sim kbs g s RG) as X.
  destruct (next_code s) as [[code s1]|u]; cbn [bind] in *; [|reflexivity].
  destruct (gsend g) as [g2|u]; cbn [osim] in X; [|rewrite X; reflexivity].
  destruct X as [s2 [E2 R2]]. rewrite E2. cbn [bind]. unfold cs_scan.
  destruct (hook_get HOOK_ROW_SCANNER (k_hook s2)) as [f|u]; cbn [bind]; [|reflexivity]. destruct f; try reflexivity.
  pose proof (ghook_sim HOOK_EACH_SCAN g2 s2 R2 ltac:(unfold HOOK_EACH_SCAN; lia)) as X.
  destruct (ghook HOOK_EACH_SCAN g2) as [g3|u]; cbn [osim] in X; [|rewrite X; reflexivity].
  destruct X as [s3 [E3 R3]]. rewrite E3. cbn [bind]. apply (c_rows_q 256 mm 0 g3); [exact R3|]. auto using c_perform_q.
Qed.
Context (w1 : H1 -> H1) (w2 : H2 -> H2).
Hypothesis wait_q : forall x y, Q x y -> Q (w1 x) (w2 y).
Lemma c_passes_q : forall n g s x y, GRel g s -> Q x y -> alike (c_passes kbs w1 M1 n s x) (c_passes kbs w2 M2 n s y).
Proof.
  induction n as [|n IH]; intros g s x y RG HQ; [cbn; eauto|]. cbn [c_passes].
  pose proof (c_tick_q (fun _ _ => 0%N) g s _ _ RG (wait_q _ _ HQ)) as X.
  destruct (cs_tick kbs M1 (fun _ _ => 0%N) s (w1 x)) as [[s1 x1]|u]; destruct (cs_tick kbs M2 (fun _ _ => 0%N) s (w2 y)) as [[s2 y2]|v];
    cbn [alike bind] in *; try contradiction; [|exact X].
  destruct X as (<-&HQ1&g1&R1). apply (IH g1); auto.
Qed.
Lemma c_live_q : forall n x y, kbs 0%N <> None -> Q (m_call M1 EvArchInit x) (m_call M2 EvArchInit y) ->
  alike (c_live kbs w1 M1 n x) (c_live kbs w2 M2 n y).
Proof.
  intros n x y K0 GI. destruct (kbs 0%N) as [cs|] eqn:EK; [|congruence]. unfold c_live.
  destruct (boot_fresh cs EK) as (s&l0&E&RG&F&_). rewrite E. cbn [bind]. apply (c_passes_q n (gboot kbs)); [exact RG|].
  unfold perform. rewrite F. cbn [fold_left]. clear -call_q GI. revert GI. generalize (m_call M1 EvArchInit x) (m_call M2 EvArchInit y).
  induction (rev l0) as [|e l IH]; intros a b HQ; [exact HQ|]. cbn [fold_left]. apply IH. apply call_q. exact HQ.
Qed.
End Two.

(** ** Any machine with a clock that reads moving keys *)
Section Clocked.
Context {H : Type} (M : machine H) (Good : H -> Prop) (tm : H -> nat) (W : nat -> nat -> N).
Hypothesis call_good : forall e h, Good h -> Good (m_call M e h).
Hypothesis call_tm : forall e h, tm h <= tm (m_call M e h).
Hypothesis read_tm : forall m row h, (row < 16)%N -> Good h ->
  u8 (fst (m_read M m row h)) = u8 (W (tm (snd (m_read M m row h))) (N.to_nat row)) /\
  tm h <= tm (snd (m_read M m row h)) /\ Good (snd (m_read M m row h)).

Lemma gc_rows : forall fuel mm row g s h, GRel g s -> Good h ->
  match cs_rows kbs M fuel mm row s h with
  | Ok (s', h') => exists t g', c_rows_loop kbs fuel (reads_at W t) row s = Ok s' /\ GRel g' s' /\ in_order t (tm h) (tm h') /\
      follows M Good s h s' h'
  | Bad u => exists t, c_rows_loop kbs fuel (reads_at W t) row s = Bad u
  end.
Proof.
  induction fuel as [|fuel IH]; intros mm row g s h RG G; [exists (fun _ => 0); reflexivity|].
  cbn [cs_rows]. rewrite (proj2 (gnum _ _ (proj1 RG))). cbn [bind].
  destruct (row <? g_rows g) eqn:E.
  2:{ exists (fun _ => tm h), g. rewrite c_rows_step, (proj2 (gnum _ _ (proj1 RG))). cbn [bind]. rewrite E.
      split; auto. split; auto. split; [split; intros; lia|apply follows_refl; auto]. }
  pose proof E as E0. apply Nat.ltb_lt in E. pose proof (g_small _ _ (proj1 RG)) as [_ NR].
  destruct (read_tm (mm row) (N.of_nat row) h ltac:(lia) G) as (RV&RT&G1).
  assert (F : follows M Good s h s (snd (m_read M (mm row) (N.of_nat row) h))).
  { exists [Read (N.of_nat row) (mm row)]. split; [reflexivity|]. split; [cbn; rewrite app_nil_r; reflexivity|exact G1]. }
  destruct (m_read M (mm row) (N.of_nat row) h) as [v h1]. cbn [fst snd] in RV, RT, G1, F. rewrite Nat2N.id in RV. cbv zeta. rewrite RV.
  pose proof (grow_sim kbs (fun _ => W (tm h1) row) row g s RG ltac:(lia)) as X. cbv beta in X.
  assert (ST : forall t, (forall r, r <= row -> t r = tm h1) -> c_rows_loop kbs (S fuel) (reads_at W t) row s =
    bind (bind (lget UScanOob (k_stable s) row) (fun st => c_cols_loop kbs 256 row 0 (u8 (W (tm h1) row)) (N.lxor (u8 (W (tm h1) row)) st) s))
      (c_rows_loop kbs fuel (reads_at W t) (S row))).
  { intros t HT. rewrite c_rows_step, (proj2 (gnum _ _ (proj1 RG))). cbn [bind]. rewrite E0. unfold reads_at at 1 2. rewrite HT by lia. reflexivity. }
  destruct (lget UScanOob (k_stable s) row) as [st|u]; cbn [bind] in *.
  2:{ exists (fun _ => tm h1). rewrite ST by auto. reflexivity. }
  destruct (gcols kbs 8 (fun _ => W (tm h1) row) row 0 g) as [g1|u] eqn:EK; cbn [osim] in X.
  2:{ rewrite X. cbn [bind]. exists (fun _ => tm h1). rewrite ST by auto. rewrite X. reflexivity. }
  destruct X as [s1 [E1 R1]]. rewrite E1. cbn [bind].
  pose proof (perform_g M Good call_good g g1 s s1 h1 RG R1 (longer_cols _ _ _ _ _ _ _ EK) G1) as F1.
  pose proof (IH mm (S row) g1 s1 (perform M s s1 h1) R1 (follows_good M Good _ _ _ _ F1)) as Y.
  pose proof (perform_tm M tm call_tm s s1 h1) as LE. clear IH.
  assert (TT : forall t, exists t', (forall r, r <= row -> t' r = tm h1) /\ (forall r, S row <= r -> t' r = t r)).
  { intros t. exists (fun r => if r <=? row then tm h1 else t r).
    split; intros r Hr; [replace (r <=? row) with true by lia|replace (r <=? row) with false by lia]; auto. }
  destruct (cs_rows kbs M fuel mm (S row) s1 (perform M s s1 h1)) as [[s' h']|u].
  - destruct Y as (t&g'&Y1&Y2&[Y4 Y5]&Y6). destruct (TT t) as (t'&T1&T2). exists t', g'.
    rewrite ST by auto. rewrite E1. cbn [bind]. rewrite (c_rows_ext _ _ (reads_at W t)).
    2:{ intros r Hr. unfold reads_at. rewrite T2; auto. }
    split; auto. split; auto. assert (LE2 : tm h1 <= tm h') by (specialize (Y4 0); lia).
    split; [split|].
    + intros r. destruct (Nat.leb_spec r row); [rewrite T1 by auto; lia|]. rewrite T2 by lia. specialize (Y4 r). lia.
    + intros r r' Hr. destruct (Nat.leb_spec r row) as [L|L].
      * rewrite (T1 r) by auto. destruct (Nat.leb_spec r' row); [rewrite T1 by auto; lia|]. rewrite T2 by lia. specialize (Y4 r'). lia.
      * rewrite !T2 by lia. auto.
    + eapply follows_trans; [exact F|]. eapply follows_trans; [exact F1|exact Y6].
  - destruct Y as [t Y]. destruct (TT t) as (t'&T1&T2). exists t'. rewrite ST by auto. rewrite E1. cbn [bind].
    rewrite (c_rows_ext _ _ (reads_at W t)); auto. intros r Hr. unfold reads_at. rewrite T2; auto.
Qed.

Lemma gc_tick : forall mm g s h, GRel g s -> Good h ->
  match cs_tick kbs M mm s h with
  | Ok (s', h') => exists t g', c_tick kbs (reads_at W t) s = Ok s' /\ GRel g' s' /\ in_order t (tm h) (tm h') /\ follows M Good s h s' h'
  | Bad u => exists t, c_tick kbs (reads_at W t) s = Bad u
  end.
Proof.
  intros mm g s h RG G. unfold c_tick, cs_tick. pose proof (gsend_sim kbs g s RG) as X.
  destruct (next_code s) as [[code s1]|u]; cbn [bind] in *; [|exists (fun _ => 0); reflexivity].
  destruct (gsend g) as [g2|u] eqn:ES; cbn [osim] in X; [|rewrite X; exists (fun _ => 0); reflexivity].
  destruct X as [s2 [E2 R2]]. rewrite E2. cbn [bind]. unfold cs_scan, c_keyscan.
  pose proof (perform_g M Good call_good g g2 s s2 h RG R2 (longer_send _ _ ES) G) as F.
  pose proof (perform_tm M tm call_tm s s2 h) as L1. pose proof (follows_good M Good _ _ _ _ F) as G2. set (h2 := perform M s s2 h) in *. clearbody h2.
  destruct (hook_get HOOK_ROW_SCANNER (k_hook s2)) as [f|u]; cbn [bind]; [|exists (fun _ => 0); reflexivity].
  destruct f; try (exists (fun _ => 0); reflexivity).
  pose proof (ghook_sim HOOK_EACH_SCAN g2 s2 R2 ltac:(unfold HOOK_EACH_SCAN; lia)) as X.
  destruct (ghook HOOK_EACH_SCAN g2) as [g3|u] eqn:EH; cbn [osim] in X; [|rewrite X; exists (fun _ => 0); reflexivity].
  destruct X as [s3 [E3 R3]]. rewrite E3. cbn [bind].
  pose proof (perform_g M Good call_good g2 g3 s2 s3 h2 R2 R3 (longer_hook _ _ _ EH) G2) as F3.
  pose proof (perform_tm M tm call_tm s2 s3 h2) as L3.
  pose proof (gc_rows 256 mm 0 g3 s3 (perform M s2 s3 h2) R3 (follows_good M Good _ _ _ _ F3)) as Y.
  destruct (cs_rows kbs M 256 mm 0 s3 (perform M s2 s3 h2)) as [[s' h']|u]; [|exact Y].
  destruct Y as (t&g'&Y1&Y2&[Y4 Y5]&Y6). exists t, g'. split; auto. split; auto. split.
  - split; auto. intros r. specialize (Y4 r). lia.
  - eapply follows_trans; [exact F|]. eapply follows_trans; [exact F3|exact Y6].
Qed.
End Clocked.

(** ** The firmware with its clock *)
Lemma c_run_snoc : forall rds rd, c_run kbs (rds ++ [rd]) = bind (c_run kbs rds) (c_tick kbs rd).
Proof.
  intros rds rd. unfold c_run. destruct (c_init kbs kb_zero) as [s|u]; [|reflexivity]. cbn [bind]. revert s.
  induction rds as [|r rds IH]; intros s.
  - cbn [app c_ticks bind]. destruct (c_tick kbs rd s); reflexivity.
  - cbn [app c_ticks]. destruct (c_tick kbs r s) as [s1|u]; [|reflexivity]. cbn [bind]. apply IH.
Qed.
Lemma c_passes_snoc : forall H w (M : machine H) n s h,
  c_passes kbs w M (S n) s h = bind (c_passes kbs w M n s h) (fun p => cs_tick kbs M (fun _ _ => 0%N) (fst p) (w (snd p))).
Proof.
  intros H w M. induction n as [|n IH]; intros s h.
  - cbn [c_passes bind fst snd]. destruct (cs_tick kbs M (fun _ _ => 0%N) s (w h)) as [[s1 h1]|u]; reflexivity.
  - cbn [c_passes] in IH |- *. destruct (cs_tick kbs M (fun _ _ => 0%N) s (w h)) as [[s1 h1]|u]; [|reflexivity]. cbn [bind]. apply IH.
Qed.

Section P.
Context (P : nat -> nat) (W : nat -> nat -> N).
Hypothesis K0 : kbs 0%N <> None.

Lemma c_clock_0 : exists s x l0, c_clock kbs P W 0 = Ok (s, x) /\ c_run kbs [] = Ok s /\ GRel (gboot kbs) s /\
  x = deeds (jwatch P W) (map Call (EvArchInit :: rev l0)) (mkJ clk0 0) /\ events s = EvArchInit :: rev l0.
Proof.
  destruct (kbs 0%N) as [cs|] eqn:EK; [|congruence]. destruct (boot_fresh cs EK) as (s&l0&E&RG&F&EV).
  unfold c_clock, c_live, c_run. rewrite E. cbn [bind c_passes c_ticks]. exists s. eexists. exists l0. split; [reflexivity|].
  split; [reflexivity|]. split; [exact RG|]. split; [|exact EV]. unfold perform. rewrite F. rewrite <- (deeds_calls (jwatch P W)). reflexivity.
Qed.
Lemma c_clock_S : forall n, c_clock kbs P W (S n) =
  bind (c_clock kbs P W n) (fun p => cs_tick kbs (jwatch P W) (fun _ _ => 0%N) (fst p) (jwait P (snd p))).
Proof.
  intros n. unfold c_clock, c_live. destruct (c_init kbs kb_zero) as [s|u]; [|reflexivity]. cbn [bind]. apply c_passes_snoc.
Qed.
Lemma c_pass : forall g s x, GRel g s ->
  match cs_tick kbs (jwatch P W) (fun _ _ => 0%N) s x with
  | Ok (s', x') => exists t g', c_tick kbs (reads_at W t) s = Ok s' /\ GRel g' s' /\ in_order t (jt x) (jt x') /\
      exists l, x' = deeds (jwatch P W) l x /\ events s' = events s ++ calls_of l
  | Bad u => exists t, c_tick kbs (reads_at W t) s = Bad u
  end.
Proof.
  intros g s x RG.
  pose proof (gc_tick (jwatch P W) (fun _ => True) jt W (fun _ _ _ => I) (fun e h => jspend_le P e h)
    (fun m row h _ _ => conj eq_refl (conj (lapse_le P h) I)) (fun _ _ => 0%N) g s x RG I) as X.
  destruct (cs_tick kbs (jwatch P W) (fun _ _ => 0%N) s x) as [[s' x']|u]; [|exact X].
  destruct X as (t&g'&E&RG'&O&(l&D&EV&_)). exists t, g'. eauto 10.
Qed.

(** Time at the end of pass [n]; pass 0 is the initialisation. *)
Definition c_ended (n : nat) : nat := match c_clock kbs P W n with Ok (_, x) => jt x | Bad _ => 0 end.

Lemma c_trace : forall n,
  match c_clock kbs P W n with
  | Ok (s, x) => exists T g, c_run kbs (readings_of W T n) = Ok s /\ GRel g s /\
      (forall i, i < n -> in_order (T i) (c_ended i) (c_ended (S i)) /\ forall r, i < T i r) /\
      (forall i, i <= n -> exists si xi, c_clock kbs P W i = Ok (si, xi) /\ c_run kbs (readings_of W T i) = Ok si) /\
      map snd (stamps (jc x)) = rev (sent s) /\ paid 1 n x
  | Bad u => exists T, c_run kbs (readings_of W T n) = Bad u
  end.
Proof.
  induction n as [|n IH].
  - destruct c_clock_0 as (s&x&l0&E&E'&R&D&EV). rewrite E. exists (fun _ _ => 0), (gboot kbs). split; [exact E'|]. split; [exact R|]. split; [intros; lia|].
    split; [intros i Hi; assert (i = 0) by lia; subst i; eauto|]. split.
    + rewrite D, jstamps_deeds, calls_of_map. unfold sent. rewrite EV, app_nil_r. reflexivity.
    + rewrite D. apply paid_deeds. unfold paid. cbn. lia.
  - rewrite c_clock_S. destruct (c_clock kbs P W n) as [[s x]|u] eqn:EN; cbn [bind fst snd].
    2:{ destruct IH as [T IH]. exists (settime T n (fun _ => 0)). rewrite readings_snoc, c_run_snoc, IH. reflexivity. }
    destruct IH as (T&g&E&RG&F&EI&ST&PD). destruct (paid_wait P W _ _ _ PD) as [PW PD'].
    pose proof (c_pass g s (jwait P x) RG) as X.
    destruct (cs_tick kbs (jwatch P W) (fun _ _ => 0%N) s (jwait P x)) as [[s' x']|u] eqn:ET.
    2:{ destruct X as [t X]. exists (settime T n t). rewrite readings_snoc, c_run_snoc, E. exact X. }
    destruct X as (t&g'&X1&RG'&X2&l&D&EV).
    assert (EN' : c_clock kbs P W (S n) = Ok (s', x')) by (rewrite c_clock_S, EN; exact ET).
    assert (EX : c_run kbs (readings_of W (settime T n t) (S n)) = Ok s') by (rewrite readings_snoc, c_run_snoc, E; exact X1).
    exists (settime T n t), g'. split; [exact EX|]. split; [exact RG'|].
    assert (RE : forall i, i <= n -> readings_of W (settime T n t) i = readings_of W T i).
    { intros i Hi. unfold readings_of. apply map_ext_in. intros j IN. apply in_seq in IN. unfold settime. replace (j <? n) with true by lia. reflexivity. }
    split; [|split; [|split]].
    + intros i Hi. unfold settime. destruct (Nat.ltb_spec i n) as [L|L]; [apply F; auto|]. assert (i = n) by lia. subst i.
      unfold c_ended. rewrite EN, EN'. destruct X2 as [G1 G2]. pose proof (jwait_le P x) as JW. split; [split; [|exact G2]|]; intros r; specialize (G1 r); clear -G1 JW PW; lia.
    + intros i Hi. destruct (Nat.eq_dec i (S n)) as [-> |NE].
      * exists s', x'. split; [exact EN'|exact EX].
      * destruct (EI i ltac:(lia)) as (si&xi&E1&E2). exists si, xi. split; [exact E1|]. rewrite RE by (clear -Hi NE; lia). exact E2.
    + rewrite D, jstamps_deeds, jwait_stamps, ST. unfold sent. rewrite EV, sends_app, rev_app_distr. reflexivity.
    + rewrite D. apply paid_deeds. exact PD'.
Qed.

Lemma c_ended_ok : forall n s x, c_clock kbs P W n = Ok (s, x) -> c_ended n = now (jc x).
Proof. intros n s x E. unfold c_ended. rewrite E. reflexivity. Qed.
Lemma c_ended_mono : forall n s x i j, c_clock kbs P W n = Ok (s, x) -> i <= j <= n -> c_ended i <= c_ended j.
Proof.
  intros n s x i j E. pose proof (c_trace n) as X. rewrite E in X. destruct X as (T&g&_&_&F&_). clear E.
  induction j as [|j IH]; intros Hij; [assert (i = 0) by lia; subst i; lia|].
  destruct (Nat.eq_dec i (S j)) as [-> |NE]; [lia|]. etransitivity; [apply IH; lia|]. destruct (F j ltac:(lia)) as [[G _] _].
  specialize (G 0). lia.
Qed.
Lemma c_ended_ge : forall m n s x s' x', c_clock kbs P W n = Ok (s, x) -> c_clock kbs P W (n + m) = Ok (s', x') -> paid (jt x) m x'.
Proof.
  induction m as [|m IH]; intros n s x s' x' E E'.
  - rewrite Nat.add_0_r in E'. rewrite E in E'. assert (x' = x) by congruence. subst x'. unfold paid. destruct (flag (jc x)); lia.
  - rewrite Nat.add_succ_r, c_clock_S in E'. pose proof (c_trace (n + m)) as X.
    destruct (c_clock kbs P W (n + m)) as [[s1 x1]|u] eqn:E1; cbn [bind fst snd] in E'; [|discriminate E'].
    pose proof (IH n s x s1 x1 E E1) as PD. apply (paid_wait P W) in PD. destruct PD as [_ PD].
    destruct X as (T&g&_&RG&_). pose proof (c_pass g s1 (jwait P x1) RG) as X. rewrite E' in X. destruct X as (t&g'&_&_&_&l&D&_).
    rewrite D. apply paid_deeds. exact PD.
Qed.
End P.

(** ** On a board *)
Definition c_agrees {H} (M : machine H) (P : nat -> nat) (W : nat -> nat -> N) (n : nat) (h : H) : Prop :=
  match c_clock kbs P W n with
  | Ok (s, x) => exists h' l, c_real kbs M P W n h = Ok (s, (h', x)) /\
      h' = deeds M (Call EvArchInit :: l) h /\ events s = EvArchInit :: calls_of l
  | Bad u => c_real kbs M P W n h = Bad u
  end.
Lemma c_boards_agree : forall H (M : machine H) P W (Good : H -> Prop) n h, kbs 0%N <> None ->
  (forall e h, Good h -> Good (m_call M e h)) ->
  (forall m row h, (row < 16)%N -> Good h -> Good (snd (m_read M m row h))) ->
  (forall m row h, (row < 16)%N -> Good h -> u8 (fst (m_read M m row h)) = u8 (m (N.to_nat row))) ->
  (forall h, Good (m_call M EvArchInit h)) -> c_agrees M P W n h.
Proof.
  intros H M P W Good n h K0 CG RG RV GI.
  assert (X2 : forall m row x y, (row < 16)%N -> Good (fst x) /\ snd x = y ->
    u8 (fst (m_read (jtimed M P W) m row x)) = u8 (fst (m_read (jwatch P W) m row y)) /\
    Good (fst (snd (m_read (jtimed M P W) m row x))) /\ snd (snd (m_read (jtimed M P W) m row x)) = snd (m_read (jwatch P W) m row y)).
  { intros m row x y HR [G <-]. cbn [m_read jtimed jwatch fst snd]. cbv zeta. set (w := W (now (jc (lapse P (snd x))))).
    pose proof (RV w row (fst x) HR G) as V. pose proof (RG w row (fst x) HR G) as G'.
    destruct (m_read M w row (fst x)) as [v h']. cbn [fst snd] in *. auto. }
  pose proof (c_live_q (jtimed M P W) (jwatch P W) (fun x c => Good (fst x) /\ snd x = c)
    (fun e x y X => conj (CG e _ (proj1 X)) (f_equal (jspend P e) (proj2 X))) X2
    (fun x => (fst x, jwait P (snd x))) (jwait P) (fun x y X => conj (proj1 X) (f_equal (jwait P) (proj2 X)))
    n (h, mkJ clk0 0) (mkJ clk0 0) K0 (conj (GI h) eq_refl)) as X.
  (* the calls, from the state of the board *)
  assert (TR : forall m, match c_real kbs M P W m h with
    | Ok (s, x) => exists g l, GRel g s /\ Good (fst x) /\ fst x = deeds M (Call EvArchInit :: l) h /\ events s = EvArchInit :: calls_of l
    | Bad _ => True end).
  { clear X. destruct (kbs 0%N) as [cs|] eqn:EK; [|congruence]. destruct (boot_fresh cs EK) as (s0&l0&E&RG0&F&EV).
    assert (STEP : forall m, c_real kbs M P W (S m) h = bind (c_real kbs M P W m h)
      (fun p => cs_tick kbs (jtimed M P W) (fun _ _ => 0%N) (fst p) ((fun x => (fst x, jwait P (snd x))) (snd p)))).
    { intros m. unfold c_real, c_live. rewrite E. cbn [bind]. apply c_passes_snoc. }
    induction m as [|m IH].
    - unfold c_real, c_live. rewrite E. cbn [bind c_passes]. exists (gboot kbs). unfold perform. rewrite F.
      destruct (jtimed_deeds M P W (map Call (EvArchInit :: rev l0)) (h, mkJ clk0 0)) as (l'&D&C).
      pose proof (deeds_calls (jtimed M P W) (EvArchInit :: rev l0)) as DC. rewrite <- DC.
      exists (map Call (rev l0)). split; [exact RG0|].
      assert (D' : fst (deeds (jtimed M P W) (map Call (EvArchInit :: rev l0)) (h, mkJ clk0 0)) = deeds M (Call EvArchInit :: map Call (rev l0)) h).
      { clear. change (Call EvArchInit :: map Call (rev l0)) with (map Call (EvArchInit :: rev l0)). generalize (EvArchInit :: rev l0) (mkJ clk0 0).
        intros l. revert h. induction l as [|e l IH]; intros h j; [reflexivity|]. cbn [map].
        change (deeds (jtimed M P W) (Call e :: map Call l) (h, j)) with (deeds (jtimed M P W) (map Call l) (m_call M e h, jspend P e j)).
        rewrite IH. reflexivity. }
      rewrite D'. split; [|split; [reflexivity|rewrite EV, calls_of_map; reflexivity]].
      apply (calls_good M Good CG (rev l0)). apply GI.
    - rewrite STEP. destruct (c_real kbs M P W m h) as [[s x]|u]; [|exact I]. cbn [bind fst snd]. destruct IH as (g&l&RL&G&D&EVS).
      pose proof (gc_tick (jtimed M P W) (fun x => Good (fst x)) (fun x => jt (snd x)) W (fun e x Gx => CG e _ Gx) (fun e x => jspend_le P e (snd x))) as Y.
      assert (X3 : forall m row x, (row < 16)%N -> Good (fst x) ->
        u8 (fst (m_read (jtimed M P W) m row x)) = u8 (W (jt (snd (snd (m_read (jtimed M P W) m row x)))) (N.to_nat row)) /\
        jt (snd x) <= jt (snd (snd (m_read (jtimed M P W) m row x))) /\ Good (fst (snd (m_read (jtimed M P W) m row x)))).
      { intros m0 row y HR Gy. destruct (X2 m0 row y (snd y) HR (conj Gy eq_refl)) as (V&G2&Q2). rewrite V, Q2.
        split; [reflexivity|]. split; [apply (lapse_le P (snd y))|exact G2]. }
      specialize (Y X3 (fun _ _ => 0%N) g s (fst x, jwait P (snd x)) RL G). clear X3.
      destruct (cs_tick kbs (jtimed M P W) (fun _ _ => 0%N) s (fst x, jwait P (snd x))) as [[s' x']|u]; [|exact I].
      destruct Y as (t&g'&_&RG'&_&(k&DK&EK'&GK)). destruct (jtimed_deeds M P W k (fst x, jwait P (snd x))) as (k'&D2&C2).
      exists g', (l ++ k'). split; [exact RG'|]. split; [exact GK|]. split.
      + rewrite DK, D2. cbn [fst]. rewrite D. change (Call EvArchInit :: l ++ k') with ((Call EvArchInit :: l) ++ k'). rewrite deeds_app. reflexivity.
      + rewrite EK', EVS, calls_of_app, C2. reflexivity. }
  specialize (TR n). unfold c_agrees. unfold c_real, c_clock in *.
  destruct (c_live kbs (fun x => (fst x, jwait P (snd x))) (jtimed M P W) n (h, mkJ clk0 0)) as [[s [h' c]]|u];
    destruct (c_live kbs (jwait P) (jwatch P W) n (mkJ clk0 0)) as [[s2 c2]|u2]; cbn [alike] in X; try contradiction.
  - destruct X as (E1&[_ E]&_). cbn [snd] in E. subst s2 c2. destruct TR as (g&l&_&_&D&EV). cbn [fst] in D. exists h', l. auto.
  - congruence.
Qed.
End Kbs.

(** ** C110 *)
(** However long each piece of computing takes, wherever interrupts fall, however
    the keys move, whatever the keymaps: each board goes through exactly the
    calls of the firmware with row reads in between; the firmware behaves as in
    [Custom.v] for readings taken from the moving keys row after row, never going
    back in time; every pass has its own interrupt; undefined behaviour occurs
    only where it occurs for such readings. *)
Theorem C110_any_keymaps_in_real_time : forall kbs P W n, kbs 0%N <> None ->
  (forall rmw ser x h,
     match c_clock kbs P W n with
     | Ok (s, c) => exists h' l, c_real kbs (board_328p rmw ser x) P W n h = Ok (s, (h', c)) /\
         h' = Arch328p.steps (PropArch328.mk rmw ser x) (Arch328p.OCall EvArchInit :: l) h /\ events s = EvArchInit :: PropHost328.calls l
     | Bad u => c_real kbs (board_328p rmw ser x) P W n h = Bad u
     end) /\
  (forall rmw x h,
     match c_clock kbs P W n with
     | Ok (s, c) => exists h' l, c_real kbs (board_2560 rmw x) P W n h = Ok (s, (h', c)) /\
         h' = Arch2560.steps (PropArch2560.mk rmw x) (Arch2560.OCall EvArchInit :: l) h /\ events s = EvArchInit :: PropHost2560.calls l
     | Bad u => c_real kbs (board_2560 rmw x) P W n h = Bad u
     end) /\
  match c_clock kbs P W n with
  | Ok (s, c) => exists T, c_run kbs (readings_of W T n) = Ok s /\ forward T n (now (jc c)) /\ (forall i r, i < n -> i < T i r) /\
      map snd (stamps (jc c)) = rev (sent s) /\ n <= now (jc c)
  | Bad u => exists T, c_run kbs (readings_of W T n) = Bad u
  end.
Proof.
  intros kbs P W n K0. split; [|split].
  - intros rmw ser x h.
    pose proof (c_boards_agree kbs _ (board_328p rmw ser x) P W (fun h => PropArch328.Cfg (Avr.io h)) n h K0
      (fun e h C => PropArch328.cfg_call _ e h C)
      (fun m row h _ C => proj1 (proj2 (proj2 (PropArch328.read_row_ok rmw m ser x row h C _ eq_refl))))
      (value_328p rmw ser x) (fun h => PropArch328.cfg_init _ h)) as A.
    unfold c_agrees in A. destruct (c_clock kbs P W n) as [[s c]|u]; [|exact A]. destruct A as (h'&l&E&D&EV).
    exists h', (map op328 l). split; [exact E|]. split; [rewrite D; apply deeds_328p|]. rewrite calls_328p. exact EV.
  - intros rmw x h.
    pose proof (c_boards_agree kbs _ (board_2560 rmw x) P W (fun h => PropArch2560.Cfg (Avr.io h)) n h K0
      (fun e h C => PropArch2560.cfg_call _ e h C)
      (fun m row h HR C => proj1 (proj2 (proj2 (PropArch2560.read_row_ok rmw m x row h HR C _ eq_refl))))
      (value_2560 rmw x) (fun h => PropArch2560.cfg_init _ h)) as A.
    unfold c_agrees in A. destruct (c_clock kbs P W n) as [[s c]|u]; [|exact A]. destruct A as (h'&l&E&D&EV).
    exists h', (map op2560 l). split; [exact E|]. split; [rewrite D; apply deeds_2560|]. rewrite calls_2560. exact EV.
  - pose proof (c_trace kbs P W K0 n) as X. pose proof (c_ended_mono kbs P W K0 n) as MO. pose proof (c_ended_ok kbs P W n) as EO.
    destruct (c_clock kbs P W n) as [[s c]|u]; [|exact X]. specialize (EO s c eq_refl).
    destruct X as (T&g&ER&_&F&_&ST&PD). exists T. split; [exact ER|]. split; [|split; [|split; [exact ST|]]].
    + split.
      * intros i Hi. destruct (F i Hi) as [[G1 G2] G3]. split; [|exact G2]. intros r. specialize (G1 r). specialize (G3 r).
        pose proof (MO s c (S i) n eq_refl ltac:(lia)) as M. rewrite EO in M. lia.
      * intros i j r r' Hij. destruct (F i ltac:(lia)) as [[G1 _] _]. destruct (F j ltac:(lia)) as [[G2 _] _]. specialize (G1 r). specialize (G2 r').
        pose proof (MO s c (S i) j eq_refl ltac:(lia)). lia.
    + intros i r Hi. apply (F i Hi).
    + unfold paid, jt in PD. destruct (flag (jc c)); lia.
Qed.
Print Assumptions C110_any_keymaps_in_real_time.

(** Sound keymaps of one size: the firmware never stops.  For some readings
    taken in time from the moving keys, it has made the calls that C108 computes,
    a host on either board has latched what C107 computes, and every LED and
    output pin shows the last call on one of its devices. *)
Theorem C110_whole_board_in_real_time : forall R C kbs P W n, sound_firmware R kbs -> same_size R C kbs ->
  exists s c T, c_clock kbs P W n = Ok (s, c) /\ forward T n (now (jc c)) /\ (forall i r, i < n -> i < T i r) /\ n <= now (jc c) /\
    let rds := readings_of W T n in
    let l := PropAllCalls.calls_of_run kbs R C rds in
    let heard rise := map lines_of (hear rise Avr.Low 0 (tl (wire_of kbs R C rds))) in
    events s = l /\ map snd (rev (stamps (jc c))) = output_of kbs R C rds /\
    (forall h, Avr.at_reset h -> forall rise ser x, exists h', c_real kbs (board_328p false ser x) P W n h = Ok (s, (h', c)) /\
       latched rise Avr.PB 6 Avr.PD (Avr.hist h') = heard rise /\
       forall p b, dev328 p b = true -> Avr.drive (Avr.io h') p b = expected PropArch328.own PropArch328.shows led328 p b l) /\
    (forall h, Avr.at_reset h -> forall rise x, exists h', c_real kbs (board_2560 false x) P W n h = Ok (s, (h', c)) /\
       latched rise Avr.PB 4 Avr.PH (Avr.hist h') = heard rise /\
       forall p b, dev2560 p b = true -> Avr.drive (Avr.io h') p b = expected PropArch2560.own PropArch2560.shows led2560 p b l).
Proof.
  intros R C kbs P W n HS HZ. assert (K0 : kbs 0%N <> None) by (destruct (proj1 HS); congruence).
  destruct (C110_any_keymaps_in_real_time kbs P W n K0) as (A&B&X).
  destruct (c_clock kbs P W n) as [[s c]|u].
  2:{ destruct X as [T X]. destruct (C98_any_keymaps_safe R kbs (readings_of W T n) HS) as [s E]. congruence. }
  destruct X as (T&ER&F&F1&ST&LN). exists s, c, T. split; [reflexivity|]. split; [exact F|]. split; [exact F1|]. split; [exact LN|]. cbv zeta.
  pose proof (PropAllCalls.C108_all_calls R C kbs _ s HS HZ ER) as EV.
  pose proof (wire_run kbs R C HS HZ _ _ ER) as EW.
  split; [exact EV|]. split; [rewrite map_rev, ST, rev_involutive; exact (C104_exact R C kbs _ s HS HZ ER)|]. split.
  - intros h HR rise ser x. destruct (A false ser x h) as (h'&l&X1&X2&X3). exists h'. split; [exact X1|]. rewrite X2. split.
    + rewrite PropHost328.C56_latch_328p by exact HR. rewrite <- EW, X3. cbn [wire filter wired tl]. fold (wire (PropHost328.calls l)). rewrite hear_wire. reflexivity.
    + intros p b HD. rewrite <- EV, X3, first_call. apply PropPins328.C76_pins_328p; auto.
  - intros h HR rise x. destruct (B false x h) as (h'&l&X1&X2&X3). exists h'. split; [exact X1|]. rewrite X2. split.
    + rewrite PropHost2560.C56_latch_2560 by exact HR. rewrite <- EW, X3. cbn [wire filter wired tl]. fold (wire (PropHost2560.calls l)). rewrite hear_wire. reflexivity.
    + intros p b HD. rewrite <- EV, X3, first_call. apply PropPins2560.C76_pins_2560; auto.
Qed.
Print Assumptions C110_whole_board_in_real_time.

(** The firmware of C108, keys moving in time, an interrupt during every third
    piece of computing: CAPS LOCK is pressed with a bouncing contact, then the
    letter, then the message key; the host latches B and the message. *)
Definition fingers (t : nat) (r : nat) : N :=
  if r =? 0 then
    if t <? 20 then 0%N else if t <? 23 then (if Nat.even t then 2 else 0)%N
    else if t <? 60 then 2%N else if t <? 100 then 0%N else if t <? 140 then 1%N else if t <? 180 then 0%N else if t <? 240 then 16%N else 0%N
  else 0%N.
Definition third (i : nat) : nat := if i mod 3 =? 0 then 1 else 0.
Example C110_example :
  bind (c_clock PropAllCalls.lamps third fingers 170) (fun p => Ok (rev (stamps (jc (snd p))), sent (fst p), now (jc (snd p))))
    = Ok ([(121, 66%N); (231, 72%N)], [66; 72]%N, 284) /\
  bind (c_real PropAllCalls.lamps (board_328p false true (fun _ => 0%N)) third fingers 170 PropArch328.hw0)
    (fun p => Ok (latched true Avr.PB 6 Avr.PD (Avr.hist (fst (snd p)))))
    = Ok (map lines_of [66; 72]%N).
Proof. split; vm_compute; reflexivity. Qed.
