(** The firmware in real time, however long computing takes: C92, C93, C94. *)
From Coq Require Import List NArith ZArith Arith Bool Lia.
From Coq Require Import ZifyBool ZifyNat ZifyN.
From Verif Require Import Base Lib Buffer BufferSpec BufferProofs Repeat Devices DevSpec DevProofs
     Modifiers Hook KeymapData Asdf KeySpec KeyRef Obs Frames PropModState PropQueues PropHold PropTyping PropBounce PropDebounce.
From Verif Require Avr Arch328p Arch2560 PropArch328 PropArch2560 PropHost328 PropHost2560.
From Verif Require Import Host PropHost System PropSystem Timed PropTimed PropConnector Jitter.
Import ListNotations.

(** ** Any machine with a clock that reads moving keys *)
Section Clocked.
Context {H : Type} (M : machine H) (tm : H -> nat) (W : nat -> nat -> N).
Hypothesis call_tm : forall e h, tm h <= tm (m_call M e h).
Hypothesis read_tm : forall m row h, fst (m_read M m row h) = W (tm (snd (m_read M m row h))) (N.to_nat row) /\ tm h <= tm (snd (m_read M m row h)).

Lemma perform_tm : forall s s' h, tm h <= tm (perform M s s' h).
Proof.
  intros s s'. unfold perform. generalize (fresh s s'). induction l as [|e l IH]; intros h; cbn [fold_left]; [lia|].
  etransitivity; [apply (call_tm e)|apply IH].
Qed.

Lemma gen_rows : forall fuel mm row a s h, Rel a s ->
  match sys_rows M fuel mm row s h with
  | Ok (s', h') => exists t, rows_loop fuel (reads_at W t) row s = Ok s' /\ in_order t (tm h) (tm h')
  | Bad u => exists t, rows_loop fuel (reads_at W t) row s = Bad u
  end.
Proof.
  induction fuel as [|fuel IH]; intros mm row a s h R; [exists (fun _ => 0); reflexivity|].
  cbn [sys_rows]. rewrite (num_rows_ok _ _ R). cbn [bind].
  destruct (row <? nrows (a_cur a)) eqn:E.
  2:{ exists (fun _ => tm h). rewrite rows_loop_step, (num_rows_ok _ _ R). cbn [bind]. rewrite E.
      split; auto. split; intros; lia. }
  destruct (read_tm (mm row) (N.of_nat row) h) as [RV RT].
  destruct (m_read M (mm row) (N.of_nat row) h) as [v h1]. cbn [fst snd] in RV, RT. rewrite Nat2N.id in RV. subst v.
  pose proof E as E0. apply Nat.ltb_lt in E.
  pose proof (row_sim (fun _ => W (tm h1) row) row a s R (rows_nine _ _ (rl_lt _ _ R) E)) as X. cbv beta in X.
  assert (ST : forall t, (forall r, r <= row -> t r = tm h1) -> rows_loop (S fuel) (reads_at W t) row s =
    bind (bind (lget UScanOob (k_stable s) row) (fun st => cols_loop 256 row 0 (u8 (W (tm h1) row)) (N.lxor (u8 (W (tm h1) row)) st) s))
      (rows_loop fuel (reads_at W t) (S row))).
  { intros t HT. rewrite rows_loop_step, (num_rows_ok _ _ R). cbn [bind]. rewrite E0. unfold reads_at at 1 2. rewrite HT by lia. reflexivity. }
  destruct (lget UScanOob (k_stable s) row) as [st|u]; cbn [bind] in *.
  2:{ exists (fun _ => tm h1). rewrite ST by auto. reflexivity. }
  destruct (keys_step (fun _ => W (tm h1) row) (map (pair row) (seq 0 8)) a) as [b|] eqn:EK; cbn [sim] in X.
  2:{ rewrite X. cbn [bind]. exists (fun _ => tm h1). rewrite ST by auto. rewrite X. reflexivity. }
  destruct X as [s1 [E1 R1]]. rewrite E1. cbn [bind].
  pose proof (IH mm (S row) b s1 (perform M s s1 h1) R1) as Y. pose proof (perform_tm s s1 h1) as LE. clear IH.
  assert (TT : forall t, exists t', (forall r, r <= row -> t' r = tm h1) /\ (forall r, S row <= r -> t' r = t r)).
  { intros t. exists (fun r => if r <=? row then tm h1 else t r).
    split; intros r Hr; [replace (r <=? row) with true by lia|replace (r <=? row) with false by lia]; auto. }
  destruct (sys_rows M fuel mm (S row) s1 (perform M s s1 h1)) as [[s' h']|u].
  - destruct Y as (t&Y1&Y4&Y5). destruct (TT t) as (t'&T1&T2). exists t'.
    rewrite ST by auto. rewrite E1. cbn [bind]. rewrite (rows_ext _ _ (reads_at W t)).
    2:{ intros r Hr. unfold reads_at. rewrite T2; auto. }
    split; auto. assert (LE2 : tm h1 <= tm h') by (specialize (Y4 0); lia).
    split.
    + intros r. destruct (Nat.leb_spec r row); [rewrite T1 by auto; lia|]. rewrite T2 by lia. specialize (Y4 r). lia.
    + intros r r' Hr. destruct (Nat.leb_spec r row) as [L|L].
      * rewrite (T1 r) by auto. destruct (Nat.leb_spec r' row); [rewrite T1 by auto; lia|]. rewrite T2 by lia. specialize (Y4 r'). lia.
      * rewrite !T2 by lia. auto.
  - destruct Y as [t Y]. destruct (TT t) as (t'&T1&T2). exists t'. rewrite ST by auto. rewrite E1. cbn [bind].
    rewrite (rows_ext _ _ (reads_at W t)); auto. intros r Hr. unfold reads_at. rewrite T2; auto.
Qed.

Lemma gen_tick : forall mm a s h, Rel a s ->
  match sys_tick M mm s h with
  | Ok (s', h') => exists t, tick (reads_at W t) s = Ok s' /\ in_order t (tm h) (tm h')
  | Bad u => exists t, tick (reads_at W t) s = Bad u
  end.
Proof.
  intros mm a s h R. unfold tick, sys_tick. destruct (send_sim a s R) as [s2 [E R2]].
  destruct (next_code s) as [[code s1]|u]; [|discriminate E]. cbn [bind] in *. rewrite E. cbn [bind].
  unfold sys_scan, keyscan.
  assert (HG : hook_get HOOK_ROW_SCANNER (k_hook s2) = Ok HReadRow) by (rewrite (rl_hook _ _ R2); reflexivity).
  rewrite HG. cbn [bind].
  assert (HE : hook_execute HOOK_EACH_SCAN s2 = Ok s2) by (unfold hook_execute; rewrite (rl_hook _ _ R2); reflexivity).
  rewrite HE. cbn [bind].
  pose proof (perform_tm s s2 h) as L1. pose proof (perform_tm s2 s2 (perform M s s2 h)) as L2.
  pose proof (gen_rows 256 mm 0 (asend a) s2 (perform M s2 s2 (perform M s s2 h)) R2) as Y.
  destruct (sys_rows M 256 mm 0 s2 (perform M s2 s2 (perform M s s2 h))) as [[s' c']|u]; [|exact Y].
  destruct Y as (t&Y1&Y4&Y5). exists t. split; auto. split; auto. intros r. specialize (Y4 r). lia.
Qed.
End Clocked.

(** ** The clock *)
Section P.
Context (P : nat -> nat) (W : nat -> nat -> N).

Definition jt (x : jclk) : nat := now (jc x).
Lemma lapse_le : forall x, jt x <= jt (lapse P x).
Proof. intros x. unfold jt. cbn. lia. Qed.
Lemma jspend_le : forall e x, jt x <= jt (jspend P e x).
Proof. intros e x. unfold jt, jspend. cbn [jc]. etransitivity; [apply (lapse_le x)|apply spend_le]. Qed.
Lemma jwait_le : forall x, jt x <= jt (jwait P x).
Proof.
  intros x. pose proof (lapse_le x) as L. unfold jwait. set (y := lapse P x) in *. clearbody y. cbv zeta. unfold jt in *.
  cbn [jc now lapse pause piece]. destruct (flag (jc y)); cbn [now]; lia.
Qed.

Lemma jwait_stamps : forall x, stamps (jc (jwait P x)) = stamps (jc x).
Proof. intros x. unfold jwait. cbv zeta. cbn [jc stamps lapse pause piece]. destruct (flag _); reflexivity. Qed.

(** Every pass has its own interrupt: [k] passes since time [t0]. *)
Definition paid (t0 k : nat) (x : jclk) : Prop := t0 + k + (if flag (jc x) then 1 else 0) <= jt x + 1.
Lemma paid_lapse : forall t0 k x, paid t0 k x -> paid t0 k (lapse P x).
Proof.
  intros t0 k x. unfold paid, jt. cbn [lapse jc pause now flag]. destruct (Nat.ltb_spec 0 (P (piece x))) as [L|L].
  - rewrite orb_true_r. destruct (flag (jc x)); lia.
  - rewrite orb_false_r. destruct (flag (jc x)); lia.
Qed.
Lemma paid_spend : forall t0 k e x, paid t0 k x -> paid t0 k (jspend P e x).
Proof.
  intros t0 k e x HP. apply paid_lapse in HP. revert HP. unfold jspend. generalize (lapse P x). intros y. unfold paid, jt. cbn [jc].
  destruct e; cbn [spend now flag pause]; auto.
  all: try (destruct (flag (jc y)); lia).
  all: match goal with |- context [0 <? ?n] => destruct (Nat.ltb_spec 0 n) end; [rewrite orb_true_r|rewrite orb_false_r]; destruct (flag (jc y)); lia.
Qed.
Lemma paid_wait : forall t0 k x, paid t0 k x -> t0 + S k <= jt (jwait P x) + 1 /\ paid t0 (S k) (jwait P x).
Proof.
  intros t0 k x HP. apply paid_lapse in HP. revert HP. unfold jwait. generalize (lapse P x). intros y. cbv zeta. unfold paid, jt.
  cbn [jc now flag lapse pause]. destruct (flag (jc y)); cbn [now]; lia.
Qed.
Lemma paid_deeds : forall t0 k l x, paid t0 k x -> paid t0 k (deeds (jwatch P W) l x).
Proof.
  intros t0 k. induction l as [|d l IH]; intros x HP; [exact HP|].
  change (deeds (jwatch P W) (d :: l) x) with (deeds (jwatch P W) l (deed_on (jwatch P W) d x)). apply IH.
  destruct d as [e|row m]; [apply paid_spend|apply paid_lapse]; exact HP.
Qed.

Lemma jtick : forall a s x, Rel a s ->
  match sys_tick (jwatch P W) (fun _ _ => 0%N) s x with
  | Ok (s', x') => exists t, tick (reads_at W t) s = Ok s' /\ in_order t (jt x) (jt x')
  | Bad u => exists t, tick (reads_at W t) s = Bad u
  end.
Proof.
  intros a s x R. apply (gen_tick (jwatch P W) jt W) with (a := a); [|intros m row h; split|]; auto.
  - intros e h. apply jspend_le.
  - apply lapse_le.
Qed.

Lemma jstamps_deeds : forall l x, map snd (stamps (jc (deeds (jwatch P W) l x))) = rev (sends (calls_of l)) ++ map snd (stamps (jc x)).
Proof.
  induction l as [|d l IH]; intros x; [reflexivity|].
  change (deeds (jwatch P W) (d :: l) x) with (deeds (jwatch P W) l (deed_on (jwatch P W) d x)). rewrite IH.
  destruct d as [e|row m]; [|reflexivity].
  change (calls_of (Call e :: l)) with ([e] ++ calls_of l). rewrite sends_app, rev_app_distr, <- app_assoc. f_equal. destruct e; reflexivity.
Qed.

Lemma jreal_0 : exists s x, jreal P W 0 = Ok (s, x) /\ run [] = Ok s /\ Rel aboot s /\ stamps (jc x) = [] /\ flag (jc x) = false.
Proof.
  unfold jreal, live, run. destruct boot_sim as [s [E R]]. rewrite E. cbn [bind passes ticks]. exists s. eexists. clear E.
  split; [reflexivity|]. assert (F : fresh kb_zero s = [EvArchInit]) by (unfold fresh; rewrite (rl_log _ _ R); reflexivity).
  unfold perform. rewrite F. split; [reflexivity|]. split; [exact R|]. split; reflexivity.
Qed.
Lemma jreal_S : forall n, jreal P W (S n) = bind (jreal P W n) (fun p => sys_tick (jwatch P W) (fun _ _ => 0%N) (fst p) (jwait P (snd p))).
Proof. intros n. unfold jreal, live. destruct boot_sim as [s [E R]]. rewrite E. cbn [bind]. apply passes_snoc. Qed.

(** Time at the end of pass [n]. *)
Definition ended (n : nat) : nat := match jreal P W n with Ok (_, x) => jt x | Bad _ => 0 end.

(** All passes up to [n], with one reading time per pass and row. *)
Lemma jtrace : forall n,
  match jreal P W n with
  | Ok (s, x) => exists T, run (readings_of W T n) = Ok s /\ (forall i, i < n -> in_order (T i) (ended i) (ended (S i)) /\ forall r, i < T i r) /\
      (forall i, i <= n -> exists si xi, jreal P W i = Ok (si, xi) /\ run (readings_of W T i) = Ok si) /\
      map snd (stamps (jc x)) = rev (sent s) /\ paid 1 n x
  | Bad u => exists T, run (readings_of W T n) = Bad u
  end.
Proof.
  induction n as [|n IH].
  - destruct jreal_0 as (s&x&E&E'&R&ST&FL). rewrite E. exists (fun _ _ => 0). split; [exact E'|]. split; [intros; lia|].
    split; [intros i Hi; assert (i = 0) by lia; subst i; eauto|]. rewrite ST. split; [unfold sent; rewrite (events_ok _ _ R); reflexivity|].
    unfold paid. rewrite FL. lia.
  - rewrite jreal_S. destruct (jreal P W n) as [[s x]|u] eqn:EN; cbn [bind fst snd].
    2:{ destruct IH as [T IH]. exists (settime T n (fun _ => 0)). rewrite readings_snoc. apply run_cons_bad. exact IH. }
    destruct IH as (T&E&F&EI&ST&PD). destruct (paid_wait _ _ _ PD) as [PW PD']. destruct (reach _ _ E) as [a [A R]].
    pose proof (jtick a s (jwait P x) R) as X.
    destruct (sys_tick (jwatch P W) (fun _ _ => 0%N) s (jwait P x)) as [[s' x']|u] eqn:ET.
    2:{ destruct X as [t X]. exists (settime T n t). rewrite readings_snoc, (run_snoc_any _ _ _ E). exact X. }
    destruct X as (t&X1&X2).
    assert (EN' : jreal P W (S n) = Ok (s', x')) by (rewrite jreal_S, EN; exact ET).
    exists (settime T n t). rewrite readings_snoc, (run_snoc_any _ _ _ E). split; [exact X1|].
    assert (RE : forall i, i <= n -> readings_of W (settime T n t) i = readings_of W T i).
    { intros i Hi. unfold readings_of. apply map_ext_in. intros j IN. apply in_seq in IN. unfold settime. replace (j <? n) with true by lia. reflexivity. }
    split; [|split].
    + intros i Hi. unfold settime. destruct (Nat.ltb_spec i n) as [L|L]; [apply F; auto|]. assert (i = n) by lia. subst i.
      unfold ended. rewrite EN, EN'. destruct X2 as [G1 G2]. pose proof (jwait_le x) as JW. split; [split; [|exact G2]|]; intros r; specialize (G1 r); clear -G1 JW PW; lia.
    + intros i Hi. destruct (Nat.eq_dec i (S n)) as [-> |NE].
      * exists s', x'. split; [exact EN'|]. rewrite readings_snoc, (run_snoc_any _ _ _ E). exact X1.
      * destruct (EI i ltac:(lia)) as (si&xi&E1&E2). exists si, xi. split; [exact E1|]. rewrite RE by (clear -Hi NE; lia). exact E2.
    + destruct (tick_deeds (jwatch P W) _ a s _ s' x' R ET) as (l&b&_&D&EV). rewrite D, jstamps_deeds, jwait_stamps, ST.
      split; [unfold sent; rewrite EV, sends_app, rev_app_distr; reflexivity|]. apply paid_deeds. exact PD'.
Qed.

(** Nothing is skipped: time goes on, at least one interrupt per pass. *)
Lemma ended_S : forall n s x, jreal P W (S n) = Ok (s, x) -> ended n <= ended (S n).
Proof.
  intros n s x E. pose proof (jtrace (S n)) as X. rewrite E in X. destruct X as (T&_&F&_). destruct (F n ltac:(lia)) as [[G _] _].
  specialize (G 0). lia.
Qed.
Lemma jreal_pre : forall n m s x, jreal P W (n + m) = Ok (s, x) -> exists s' x', jreal P W n = Ok (s', x').
Proof.
  intros n m s x E. pose proof (jtrace (n + m)) as X. rewrite E in X. destruct X as (T&_&_&F&_).
  destruct (F n ltac:(lia)) as (s'&x'&E'&_). eauto.
Qed.
Lemma ended_ge : forall m n s x s' x', jreal P W n = Ok (s, x) -> jreal P W (n + m) = Ok (s', x') -> paid (jt x) m x'.
Proof.
  induction m as [|m IH]; intros n s x s' x' E E'.
  - rewrite Nat.add_0_r in E'. rewrite E in E'. assert (x' = x) by congruence. subst x'. unfold paid. destruct (flag (jc x)); lia.
  - rewrite Nat.add_succ_r, jreal_S in E'. destruct (jreal P W (n + m)) as [[s1 x1]|u] eqn:E1; cbn [bind fst snd] in E'; [|discriminate E'].
    pose proof (IH n s x s1 x1 E E1) as PD. apply paid_wait in PD. destruct PD as [_ PD].
    pose proof (jtrace (n + m)) as X. rewrite E1 in X. destruct X as (T&ER&_). destruct (reach _ _ ER) as [a [_ R]].
    destruct (tick_deeds (jwatch P W) _ a s1 _ s' x' R E') as (l&b&_&D&_). rewrite D. apply paid_deeds. exact PD.
Qed.
End P.

(** ** What the deeds of a pass do to the clock *)
Section D.
Context (P : nat -> nat) (W : nat -> nat -> N).
Lemma deed_le : forall d x, jt x <= jt (deed_on (jwatch P W) d x).
Proof. intros [e|row m] x; [apply jspend_le|apply lapse_le]. Qed.
Lemma deeds_le : forall l x, jt x <= jt (deeds (jwatch P W) l x).
Proof.
  induction l as [|d l IH]; intros x; [reflexivity|]. etransitivity; [apply (deed_le d)|apply IH].
Qed.
Lemma silent_deeds : forall l x, Forall silent (calls_of l) -> stamps (jc (deeds (jwatch P W) l x)) = stamps (jc x).
Proof.
  induction l as [|d l IH]; intros x HS; [reflexivity|].
  change (deeds (jwatch P W) (d :: l) x) with (deeds (jwatch P W) l (deed_on (jwatch P W) d x)). destruct d as [e|row m].
  - change (calls_of (Call e :: l)) with (e :: calls_of l) in HS. inversion HS; subst. rewrite IH by auto.
    destruct e; cbn in *; auto; contradiction.
  - rewrite IH by exact HS. reflexivity.
Qed.
Lemma first_call : forall l e k, calls_of l = e :: k -> exists l1 l2, l = l1 ++ Call e :: l2 /\ calls_of l1 = [] /\ calls_of l2 = k.
Proof.
  induction l as [|d l IH]; intros e k E; [discriminate E|]. destruct d as [e'|row m].
  - change (calls_of (Call e' :: l)) with (e' :: calls_of l) in E. assert (E1 : e' = e) by congruence. assert (E2 : calls_of l = k) by congruence.
    exists [], l. rewrite E1. auto.
  - change (calls_of (Read row m :: l)) with (calls_of l) in E. destruct (IH e k E) as (l1&l2&E1&E2&E3).
    exists (Read row m :: l1), l2. split; [rewrite E1; reflexivity|auto].
Qed.
Lemma past_deeds : forall l x, Forall (fun p => fst p <= jt x) (stamps (jc x)) ->
  Forall (fun p => fst p <= jt (deeds (jwatch P W) l x)) (stamps (jc (deeds (jwatch P W) l x))).
Proof.
  induction l as [|d l IH]; intros x HF; [exact HF|].
  change (deeds (jwatch P W) (d :: l) x) with (deeds (jwatch P W) l (deed_on (jwatch P W) d x)). apply IH.
  assert (K : Forall (fun p => fst p <= jt (deed_on (jwatch P W) d x)) (stamps (jc x))).
  { eapply Forall_impl; [|exact HF]. cbn beta. intros p Hp. pose proof (deed_le d x). lia. }
  destruct d as [e|row m]; [|exact K]. destruct e; try exact K. constructor; [reflexivity|exact K].
Qed.

(** One pass. *)
Lemma jpass : forall n s x s' x', jreal P W n = Ok (s, x) -> jreal P W (S n) = Ok (s', x') ->
  exists l k, x' = deeds (jwatch P W) l (jwait P x) /\ calls_of l = tick_sends s ++ k /\ Forall silent k.
Proof.
  intros n s x s' x' H H'. rewrite jreal_S, H in H'. cbn [bind fst snd] in H'.
  pose proof (jtrace P W n) as X. rewrite H in X. destruct X as (T&ER&_). destruct (reach _ _ ER) as [a [A R]].
  pose proof (jtick P W a s (jwait P x) R) as X. rewrite H' in X. destruct X as (t&E&_).
  destruct (tick_deeds (jwatch P W) _ a s _ s' x' R H') as (l&b&_&D&EV).
  destruct (C37_one_code_per_tick _ _ _ _ ER E) as [k [EV' SL]]. exists l, k. split; [exact D|]. split; [|exact SL].
  apply (app_inv_head (events s)). congruence.
Qed.
Lemma jpast : forall n s x, jreal P W n = Ok (s, x) -> Forall (fun p => fst p <= jt x) (stamps (jc x)).
Proof.
  induction n as [|n IH]; intros s x H.
  - destruct (jreal_0 P W) as (s0&x0&E&_&_&ST&_). rewrite E in H. assert (x = x0) by congruence. subst x. rewrite ST. constructor.
  - destruct (jreal_pre P W n 1 s x) as (s0&x0&E0); [rewrite Nat.add_1_r; exact H|].
    destruct (jpass _ _ _ _ _ E0 H) as (l&k&D&_). rewrite D. apply past_deeds. rewrite jwait_stamps.
    eapply Forall_impl; [|exact (IH _ _ E0)]. cbn beta. intros p Hp. pose proof (jwait_le P x0). lia.
Qed.

(** ** C93 *)
Theorem C93_message_spacing : forall n s x c q s' x', jreal P W n = Ok (s, x) -> msg_queue s = c :: q ->
  jreal P W (S n) = Ok (s', x') ->
  exists t, stamps (jc x') = (t, c) :: stamps (jc x) /\ Forall (fun p => fst p + 40 <= t) (stamps (jc x)) /\
    now (jc x) + 40 <= t <= now (jc x').
Proof.
  intros n s x c q s' x' H HQ H'. destruct (jpass _ _ _ _ _ H H') as (l&k&D&EC&SK).
  unfold tick_sends in EC. rewrite HQ in EC. cbn [app] in EC.
  destruct (first_call _ _ _ EC) as (l1&l2&E1&N1&EC2). destruct (first_call _ _ _ EC2) as (l3&l4&E3&N3&EC4). subst l l2.
  pose proof (jpast _ _ _ H) as PA. pose proof (jwait_le P x) as JW.
  rewrite deeds_app in D. pose proof (deeds_le l1 (jwait P x)) as L1.
  pose proof (silent_deeds l1 (jwait P x) ltac:(rewrite N1; constructor)) as S1. set (x1 := deeds (jwatch P W) l1 (jwait P x)) in *.
  change (deeds (jwatch P W) (Call (EvDelayMs 40) :: l3 ++ Call (EvSend c) :: l4) x1)
    with (deeds (jwatch P W) (l3 ++ Call (EvSend c) :: l4) (jspend P (EvDelayMs 40) x1)) in D. rewrite deeds_app in D.
  pose proof (deeds_le l3 (jspend P (EvDelayMs 40) x1)) as L3.
  pose proof (silent_deeds l3 (jspend P (EvDelayMs 40) x1) ltac:(rewrite N3; constructor)) as S3.
  assert (J40 : jt x1 + 40 <= jt (jspend P (EvDelayMs 40) x1)) by (unfold jt; cbn; lia).
  set (x3 := deeds (jwatch P W) l3 (jspend P (EvDelayMs 40) x1)) in *.
  change (deeds (jwatch P W) (Call (EvSend c) :: l4) x3) with (deeds (jwatch P W) l4 (jspend P (EvSend c) x3)) in D.
  pose proof (deeds_le l4 (jspend P (EvSend c) x3)) as L4.
  exists (jt (jspend P (EvSend c) x3)). rewrite D, silent_deeds by (rewrite EC4; exact SK).
  pose proof (lapse_le P x3) as L5. change (jt (jspend P (EvSend c) x3)) with (jt (lapse P x3)) in *.
  assert (SS : stamps (jc x3) = stamps (jc x)).
  { rewrite S3. change (stamps (jc (jspend P (EvDelayMs 40) x1))) with (stamps (jc x1)). rewrite S1. apply jwait_stamps. }
  split; [change (stamps (jc (jspend P (EvSend c) x3))) with ((jt (lapse P x3), c) :: stamps (jc x3)); rewrite SS; reflexivity|].
  split; [|unfold jt in *; lia].
  eapply Forall_impl; [|exact PA]. cbn beta. intros p Hp. lia.
Qed.
End D.
Print Assumptions C93_message_spacing.

(** ** C92 *)
Definition jagrees {H} (M : machine H) (P : nat -> nat) (W : nat -> nat -> N) (n : nat) (h : H) : Prop :=
  match jreal P W n with
  | Ok (s, x) => exists h' l, jreal_on M P W n h = Ok (s, (h', x)) /\
      h' = deeds M (Call EvArchInit :: l) h /\ events s = EvArchInit :: calls_of l
  | Bad u => jreal_on M P W n h = Bad u
  end.

Section Board.
Context {H : Type} (M : machine H) (P : nat -> nat) (W : nat -> nat -> N).
Lemma jtimed_deeds : forall l x, exists l', fst (deeds (jtimed M P W) l x) = deeds M l' (fst x) /\ calls_of l' = calls_of l.
Proof.
  induction l as [|d l IH]; intros x; [exists []; auto|].
  change (deeds (jtimed M P W) (d :: l) x) with (deeds (jtimed M P W) l (deed_on (jtimed M P W) d x)).
  destruct (IH (deed_on (jtimed M P W) d x)) as (l'&E&C). rewrite E. destruct d as [e|row m].
  - exists (Call e :: l'). split; [reflexivity|]. cbn. f_equal. exact C.
  - set (w := W (now (jc (lapse P (snd x))))). exists (Read row w :: l'). split; [|exact C].
    change (deeds M (Read row w :: l') (fst x)) with (deeds M l' (deed_on M (Read row w) (fst x))).
    f_equal. cbn [deed_on m_read jtimed]. cbv zeta. fold w. destruct (m_read M w row (fst x)); reflexivity.
Qed.
Lemma jpasses_deeds : forall n a s x s' x', Rel a s -> passes (fun x => (fst x, jwait P (snd x))) (jtimed M P W) n s x = Ok (s', x') ->
  exists l, fst x' = deeds M l (fst x) /\ events s' = events s ++ calls_of l.
Proof.
  induction n as [|n IH]; intros a s x s' x' R E; cbn [passes] in E.
  - assert (s' = s) by congruence. assert (x' = x) by congruence. subst s' x'. exists []. rewrite app_nil_r. auto.
  - destruct (sys_tick (jtimed M P W) (fun _ _ => 0%N) s (fst x, jwait P (snd x))) as [[s1 x1]|u] eqn:ET; cbn [bind] in E; [|discriminate E].
    assert (TD : exists l b, Rel b s1 /\ fst x1 = deeds M l (fst x) /\ events s1 = events s ++ calls_of l).
    { clear E IH. destruct (tick_deeds (jtimed M P W) _ a s _ s1 x1 R ET) as (l&b&RB&D&EV).
      destruct (jtimed_deeds l (fst x, jwait P (snd x))) as (l'&D'&C'). exists l', b. split; [exact RB|].
      split; [rewrite D; exact D'|congruence]. }
    destruct TD as (l1&b&RB&P1&EV1). destruct (IH b s1 x1 s' x' RB E) as (l2&P2&EV2).
    exists (l1 ++ l2). split; [rewrite deeds_app, <- P1; exact P2|]. rewrite calls_of_app, app_assoc, <- EV1. exact EV2.
Qed.
Lemma jreal_on_live : forall n h, jreal_on M P W n h = live (fun x => (fst x, jwait P (snd x))) (jtimed M P W) n (h, mkJ clk0 0).
Proof. reflexivity. Qed.
Lemma jreal_live : forall n, jreal P W n = live (jwait P) (jwatch P W) n (mkJ clk0 0).
Proof. reflexivity. Qed.
Lemma jreal_deeds : forall n h s h' x, jreal_on M P W n h = Ok (s, (h', x)) ->
  exists l, h' = deeds M (Call EvArchInit :: l) h /\ events s = EvArchInit :: calls_of l.
Proof.
  intros n h s h' x E. rewrite jreal_on_live, live_bind in E. destruct boot_sim as [s0 [E0 R]]. apply bind_split in E. destruct E as [s1 [E1 E]].
  assert (s1 = s0) by congruence. subst s1. clear E0 E1.
  assert (F : fresh kb_zero s0 = [EvArchInit]) by (unfold fresh; rewrite (rl_log _ _ R); reflexivity).
  unfold perform in E. rewrite F in E. cbn [fold_left] in E. destruct (jpasses_deeds n _ _ _ _ _ R E) as (l&D&EV).
  exists l. split; [exact D|]. rewrite EV, (events_ok _ _ R). reflexivity.
Qed.

Lemma jagrees_eq : forall n h, jagrees M P W n h = match jreal P W n with
  | Ok (s, x) => exists h' l, jreal_on M P W n h = Ok (s, (h', x)) /\
      h' = deeds M (Call EvArchInit :: l) h /\ events s = EvArchInit :: calls_of l
  | Bad u => jreal_on M P W n h = Bad u
  end.
Proof. reflexivity. Qed.
Lemma jboards_agree : forall (Good : H -> Prop) n h,
  (forall e h, Good h -> Good (m_call M e h)) ->
  (forall m row h, (row < 16)%N -> Good h -> Good (snd (m_read M m row h))) ->
  (forall m row h, (row < 16)%N -> Good h -> u8 (fst (m_read M m row h)) = u8 (m (N.to_nat row))) ->
  (forall h, Good (m_call M EvArchInit h)) -> jagrees M P W n h.
Proof.
  intros Good n h CG RG RV GI.
  pose proof (live_q (jtimed M P W) (jwatch P W) (fun x c => Good (fst x) /\ snd x = c)) as X.
  assert (X1 : forall e x y, Good (fst x) /\ snd x = y -> Good (fst (m_call (jtimed M P W) e x)) /\ snd (m_call (jtimed M P W) e x) = m_call (jwatch P W) e y).
  { intros e x y [G <-]. cbn [jtimed jwatch m_call fst snd]. auto. }
  assert (X2 : forall m row x y, (row < 16)%N -> Good (fst x) /\ snd x = y ->
    u8 (fst (m_read (jtimed M P W) m row x)) = u8 (fst (m_read (jwatch P W) m row y)) /\
    Good (fst (snd (m_read (jtimed M P W) m row x))) /\ snd (snd (m_read (jtimed M P W) m row x)) = snd (m_read (jwatch P W) m row y)).
  { intros m row x y HR [G <-]. cbn [m_read jtimed jwatch fst snd]. cbv zeta. set (w := W (now (jc (lapse P (snd x))))).
    pose proof (RV w row (fst x) HR G) as V. pose proof (RG w row (fst x) HR G) as G'.
    destruct (m_read M w row (fst x)) as [v h']. cbn [fst snd] in *. auto. }
  specialize (X X1 X2 (fun x => (fst x, jwait P (snd x))) (jwait P)).
  assert (X3 : forall x y, Good (fst x) /\ snd x = y -> Good (fst ((fst x, jwait P (snd x)))) /\ snd ((fst x, jwait P (snd x))) = jwait P y).
  { intros x y [G <-]. auto. }
  specialize (X X3 n (h, mkJ clk0 0) (mkJ clk0 0)).
  assert (X4 : Good (fst (m_call (jtimed M P W) EvArchInit (h, mkJ clk0 0))) /\
    snd (m_call (jtimed M P W) EvArchInit (h, mkJ clk0 0)) = m_call (jwatch P W) EvArchInit (mkJ clk0 0)).
  { cbn [jtimed jwatch m_call fst snd]. auto. }
  specialize (X X4). clear X1 X2 X3 X4. rewrite jagrees_eq. rewrite <- jreal_on_live, <- jreal_live in X.
  pose proof (jreal_deeds n h) as JD.
  destruct (jreal_on M P W n h) as [[s [h' c]]|u]; destruct (jreal P W n) as [[s2 c2]|u2]; cbn [same] in X; try contradiction.
  - destruct X as (E1&[_ E]&_). cbn [snd] in E. subst s2 c2. destruct (JD _ _ _ eq_refl) as (l&D&EV). exists h', l. auto.
  - congruence.
Qed.
End Board.

Lemma ended_mono : forall P W n s x i j, jreal P W n = Ok (s, x) -> i <= j <= n -> ended P W i <= ended P W j.
Proof.
  intros P W n s x i j E. induction j as [|j IH]; intros Hij; [assert (i = 0) by lia; subst i; lia|].
  destruct (Nat.eq_dec i (S j)) as [-> |NE]; [lia|]. etransitivity; [apply IH; lia|].
  replace n with (S j + (n - S j)) in E by lia. destruct (jreal_pre P W _ _ _ _ E) as (s'&x'&E'). apply (ended_S P W _ _ _ E').
Qed.
Lemma ended_ok : forall P W n s x, jreal P W n = Ok (s, x) -> ended P W n = now (jc x).
Proof. intros P W n s x E. unfold ended. rewrite E. reflexivity. Qed.

Definition jgoes_328p (rmw ser : bool) (x : Avr.port -> N) (P : nat -> nat) (W : nat -> nat -> N) (n : nat) (h : Avr.hw) : Prop :=
  match jreal P W n with
  | Ok (s, c) => exists h' l, jreal_on (board_328p rmw ser x) P W n h = Ok (s, (h', c)) /\
      h' = Arch328p.steps (PropArch328.mk rmw ser x) (Arch328p.OCall EvArchInit :: l) h /\ events s = EvArchInit :: PropHost328.calls l
  | Bad u => jreal_on (board_328p rmw ser x) P W n h = Bad u
  end.
Definition jgoes_2560 (rmw : bool) (x : Avr.port -> N) (P : nat -> nat) (W : nat -> nat -> N) (n : nat) (h : Avr.hw) : Prop :=
  match jreal P W n with
  | Ok (s, c) => exists h' l, jreal_on (board_2560 rmw x) P W n h = Ok (s, (h', c)) /\
      h' = Arch2560.steps (PropArch2560.mk rmw x) (Arch2560.OCall EvArchInit :: l) h /\ events s = EvArchInit :: PropHost2560.calls l
  | Bad u => jreal_on (board_2560 rmw x) P W n h = Bad u
  end.

Lemma jgoes_328p_ok : forall rmw ser x P W n h s c, jgoes_328p rmw ser x P W n h -> jreal P W n = Ok (s, c) ->
  exists h' l, jreal_on (board_328p rmw ser x) P W n h = Ok (s, (h', c)) /\
      h' = Arch328p.steps (PropArch328.mk rmw ser x) (Arch328p.OCall EvArchInit :: l) h /\ events s = EvArchInit :: PropHost328.calls l.
Proof.
  intros rmw ser x P W n h s c.
  assert (X : jgoes_328p rmw ser x P W n h = match jreal P W n with
  | Ok (s, c) => exists h' l, jreal_on (board_328p rmw ser x) P W n h = Ok (s, (h', c)) /\
      h' = Arch328p.steps (PropArch328.mk rmw ser x) (Arch328p.OCall EvArchInit :: l) h /\ events s = EvArchInit :: PropHost328.calls l
  | Bad u => jreal_on (board_328p rmw ser x) P W n h = Bad u
  end) by reflexivity.
  rewrite X. clear X. intros A E. rewrite E in A. exact A.
Qed.
Lemma jgoes_2560_ok : forall rmw x P W n h s c, jgoes_2560 rmw x P W n h -> jreal P W n = Ok (s, c) ->
  exists h' l, jreal_on (board_2560 rmw x) P W n h = Ok (s, (h', c)) /\
      h' = Arch2560.steps (PropArch2560.mk rmw x) (Arch2560.OCall EvArchInit :: l) h /\ events s = EvArchInit :: PropHost2560.calls l.
Proof.
  intros rmw x P W n h s c.
  assert (X : jgoes_2560 rmw x P W n h = match jreal P W n with
  | Ok (s, c) => exists h' l, jreal_on (board_2560 rmw x) P W n h = Ok (s, (h', c)) /\
      h' = Arch2560.steps (PropArch2560.mk rmw x) (Arch2560.OCall EvArchInit :: l) h /\ events s = EvArchInit :: PropHost2560.calls l
  | Bad u => jreal_on (board_2560 rmw x) P W n h = Bad u
  end) by reflexivity.
  rewrite X. clear X. intros A E. rewrite E in A. exact A.
Qed.

(** However long each piece of computing takes and wherever interrupts fall:
    each board goes through exactly the calls of the firmware with row reads in
    between; the firmware behaves as in [Asdf.v] for readings taken from the
    moving keys row after row, never going back in time; every pass has its own
    interrupt. *)
Theorem C92_any_computing_time : forall P W n,
  (forall rmw ser x h, jgoes_328p rmw ser x P W n h) /\ (forall rmw x h, jgoes_2560 rmw x P W n h) /\
  match jreal P W n with
  | Ok (s, c) => exists T, run (readings_of W T n) = Ok s /\ forward T n (now (jc c)) /\ (forall i r, i < n -> i < T i r) /\
      map snd (stamps (jc c)) = rev (sent s) /\ n <= now (jc c)
  | Bad u => exists T, run (readings_of W T n) = Bad u
  end.
Proof.
  intros P W n. split; [|split].
  - intros rmw ser x h. assert (A : jagrees (board_328p rmw ser x) P W n h).
    { apply (jboards_agree _ P W (fun h => PropArch328.Cfg (Avr.io h))).
      + intros e h'. apply PropArch328.cfg_call.
      + intros m row h' _ C. apply (proj1 (proj2 (proj2 (PropArch328.read_row_ok rmw m ser x row h' C _ eq_refl)))).
      + apply value_328p.
      + intros h'. apply PropArch328.cfg_init. }
    rewrite jagrees_eq in A. unfold jgoes_328p. destruct (jreal P W n) as [[s c]|u]; [|exact A].
    destruct A as (h'&l&E&D&EV). exists h', (map op328 l). split; [exact E|]. split; [rewrite D; apply deeds_328p|]. rewrite calls_328p. exact EV.
  - intros rmw x h. assert (A : jagrees (board_2560 rmw x) P W n h).
    { apply (jboards_agree _ P W (fun h => PropArch2560.Cfg (Avr.io h))).
      + intros e h'. apply PropArch2560.cfg_call.
      + intros m row h' HR C. apply (proj1 (proj2 (proj2 (PropArch2560.read_row_ok rmw m x row h' HR C _ eq_refl)))).
      + apply value_2560.
      + intros h'. apply PropArch2560.cfg_init. }
    rewrite jagrees_eq in A. unfold jgoes_2560. destruct (jreal P W n) as [[s c]|u]; [|exact A].
    destruct A as (h'&l&E&D&EV). exists h', (map op2560 l). split; [exact E|]. split; [rewrite D; apply deeds_2560|]. rewrite calls_2560. exact EV.
  - pose proof (jtrace P W n) as X. destruct (jreal P W n) as [[s c]|u] eqn:E; [|exact X].
    destruct X as (T&ER&F&_&ST&PD). exists T. split; [exact ER|]. split; [|split; [|split; [exact ST|]]].
    + split.
      * intros i Hi. destruct (F i Hi) as [[G1 G2] G3]. split; [|exact G2]. intros r. specialize (G1 r). specialize (G3 r).
        pose proof (ended_mono P W n s c (S i) n E ltac:(lia)) as M. rewrite (ended_ok _ _ _ _ _ E) in M. lia.
      * intros i j r r' Hij. destruct (F i ltac:(lia)) as [[G1 _] _]. destruct (F j ltac:(lia)) as [[G2 _] _]. specialize (G1 r). specialize (G2 r').
        pose proof (ended_mono P W n s c (S i) j E ltac:(lia)). lia.
    + intros i r Hi. apply (F i Hi).
    + unfold paid, jt in PD. destruct (flag (jc c)); lia.
Qed.
Print Assumptions C92_any_computing_time.

(** A host at the connector gets exactly the codes sent. *)
Definition jgets_328p (rise ser : bool) (x : Avr.port -> N) (P : nat -> nat) (W : nat -> nat -> N) (n : nat) (h : Avr.hw) : outcome (list (list Avr.drv)) :=
  bind (jreal_on (board_328p false ser x) P W n h) (fun p => Ok (latched rise Avr.PB 6 Avr.PD (Avr.hist (fst (snd p))))).
Definition jgets_2560 (rise : bool) (x : Avr.port -> N) (P : nat -> nat) (W : nat -> nat -> N) (n : nat) (h : Avr.hw) : outcome (list (list Avr.drv)) :=
  bind (jreal_on (board_2560 false x) P W n h) (fun p => Ok (latched rise Avr.PB 4 Avr.PH (Avr.hist (fst (snd p))))).
Theorem C92_host : forall P W n s c b h, jreal P W n = Ok (s, c) -> (forall t, still b (W t)) -> Avr.at_reset h ->
  (forall rise ser x, jgets_328p rise ser x P W n h = Ok (map (fun p => lines_of (snd p)) (rev (stamps (jc c))))) /\
  (forall rise x, jgets_2560 rise x P W n h = Ok (map (fun p => lines_of (snd p)) (rev (stamps (jc c))))).
Proof.
  intros P W n s c b h E HS HR. destruct (C92_any_computing_time P W n) as (B1&B2&X).
  rewrite E in X. destruct X as (T&ER&_&_&ST&_).
  destruct (C56_host_gets_sent_partial b _ _ ER (still_readings b W T n HS)) as [Y1 Y2].
  assert (M0 : map (fun p => lines_of (snd p)) (rev (stamps (jc c))) = map lines_of (sent s)).
  { rewrite <- map_map, map_rev, ST, rev_involutive. reflexivity. }
  rewrite M0. split.
  - intros rise ser x. destruct (jgoes_328p_ok _ _ _ _ _ _ _ _ _ (B1 false ser x h) E) as (h'&l&E1&E2&E3). unfold jgets_328p. rewrite E1, bind_Ok. cbn [fst snd].
    rewrite E2, (Y1 rise ser x h l HR E3). reflexivity.
  - intros rise x. destruct (jgoes_2560_ok _ _ _ _ _ _ _ _ (B2 false x h) E) as (h'&l&E1&E2&E3). unfold jgets_2560. rewrite E1, bind_Ok. cbn [fst snd].
    rewrite E2, (Y2 rise x h l HR E3). reflexivity.
Qed.
Print Assumptions C92_host.

Lemma real_live : forall W n, real W n = live wait (watch W) n clk0.
Proof. reflexivity. Qed.
(** With computing that takes no time this is the model of [Timed.v]. *)
Theorem C92_no_time : forall W n,
  match real W n with
  | Ok (s, c) => exists k, jreal (fun _ => 0) W n = Ok (s, mkJ c k)
  | Bad u => jreal (fun _ => 0) W n = Bad u
  end.
Proof.
  intros W n. pose proof (live_q (jwatch (fun _ => 0) W) (watch W) (fun x c => jc x = c)) as X.
  assert (L0 : forall x, jc (lapse (fun _ => 0) x) = jc x).
  { intros [[t f st] k]. unfold lapse, pause. cbn. rewrite Nat.add_0_r, orb_false_r. reflexivity. }
  assert (X1 : forall e x y, jc x = y -> jc (m_call (jwatch (fun _ => 0) W) e x) = m_call (watch W) e y).
  { intros e x y <-. cbn [jwatch watch m_call]. unfold jspend. cbn [jc]. rewrite L0. reflexivity. }
  assert (X2 : forall (m : nat -> N) row x y, (row < 16)%N -> jc x = y ->
    u8 (fst (m_read (jwatch (fun _ => 0) W) m row x)) = u8 (fst (m_read (watch W) m row y)) /\
    jc (snd (m_read (jwatch (fun _ => 0) W) m row x)) = snd (m_read (watch W) m row y)).
  { intros m row x y _ <-. cbn [jwatch watch m_read fst snd]. rewrite L0. auto. }
  assert (X3 : forall x y, jc x = y -> jc (jwait (fun _ => 0) x) = wait y).
  { intros x y <-. unfold jwait. cbv zeta. cbn [jc]. rewrite L0. cbn [jc]. rewrite L0. unfold wait. destruct (flag (jc x)); reflexivity. }
  specialize (X X1 X2 (jwait (fun _ => 0)) wait X3 n (mkJ clk0 0) clk0 (X1 EvArchInit _ _ eq_refl)).
  rewrite <- jreal_live, <- real_live in X. clear X1 X2 X3 L0.
  destruct (jreal (fun _ => 0) W n) as [[s x]|u]; destruct (real W n) as [[s2 c]|u2]; cbn [same] in X; try contradiction.
  - destruct X as (<-&E&_). exists (piece x). destruct x as [c0 k]. cbn in *. congruence.
  - congruence.
Qed.
Print Assumptions C92_no_time.

(** ** Examples *)
Definition jseen {A} (f : kb * jclk -> A) (x : outcome (kb * jclk)) : option A :=
  match x with Ok p => Some (f p) | Bad _ => None end.
(** Every seventh piece of computing is interrupted, every 50th three times; CTRL
    and the identification key held for 40 ms, then "p" until 1500 ms. *)
Definition ticking (k : nat) : nat := if k mod 50 =? 0 then 3 else if k mod 7 =? 0 then 1 else 0.
Definition busier_world (t : nat) : nat -> N :=
  if t <=? 40 then matrix [(0, 6); (6, 6)] else if t <=? 1500 then matrix [(1, 1)] else matrix [].
Example C92_example :
  jseen (fun p => (now (jc (snd p)), stamps (jc (snd p)))) (jreal ticking busier_world 12) = Some (109, [(108, 48%N); (66, 49%N)]) /\
  jseen (fun p => (now (jc (snd p)), length (sent (fst p)), firstn 3 (stamps (jc (snd p))))) (jreal ticking busier_world 150) =
    Some (3807, 87, [(3688, 112%N); (3687, 13%N); (3645, 48%N)]) /\
  seen (fun p => (now (snd p), stamps (snd p))) (real busier_world 12) = Some (91, [(91, 48%N); (51, 49%N)]).
Proof. vm_compute. repeat split. Qed.
(** A message half way, with its next character and the pass that sends it. *)
Example C93_example :
  jseen (fun p => (now (jc (snd p)), firstn 2 (msg_queue (fst p)), hd_error (stamps (jc (snd p))))) (jreal ticking busier_world 30) = Some (876, [48; 41]%N, Some (875, 40%N)) /\
  jseen (fun p => (now (jc (snd p)), hd_error (stamps (jc (snd p))))) (jreal ticking busier_world 31) = Some (918, Some (917, 48%N)).
Proof. vm_compute. repeat split. Qed.
