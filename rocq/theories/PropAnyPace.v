(** The pace of messages in real time, under any keymaps (C115). *)
From Coq Require Import List NArith ZArith Arith Bool Lia.
From Coq Require Import ZifyBool ZifyNat ZifyN.
From Verif Require Import Base Lib Buffer BufferSpec BufferProofs Repeat Devices DevSpec Modifiers Hook KeymapData Asdf KeySpec Obs Frames PropDebounce
     Custom CustomSpec CustomRef PropCustom PropEvents PropFlow PropExact PropBoard PropAllCalls.
From Verif Require Import System PropSystem Timed PropTimed Jitter PropJitter CustomSystem CustomTime PropAnyTime.
Import ListNotations.

(** ** Specification *)
(** The pause before each character of a message that a setup function asks
    for: the last one counts, as an 8-bit number. *)
Definition pause_of (cs : list setup_cmd) : option N :=
  fold_left (fun t c => match c with SDelay ms => Some (u8 ms) | _ => t end) cs None.
(** The first of [l] at least [d] ms after [t], each at least [d] ms after the
    one before. *)
Fixpoint spaced (d t : nat) (l : list (nat * N)) : Prop :=
  match l with [] => True | (x, _) :: l' => t + d <= x /\ spaced d x l' end.

(** ** The panel keeps the pause of the selected keyboard *)
Lemma put_pause : forall v f n, n_pause (fst (put v f n)) = n_pause n.
Proof. reflexivity. Qed.
Lemma pulse_pause : forall v e n, n_pause (fst (pulse v e n)) = n_pause n.
Proof. reflexivity. Qed.
Lemma works_pause : forall v f n, n_pause (fst (works v f n)) = n_pause n.
Proof. intros v [] n; reflexivity. Qed.
Lemma pause_from : forall cs t, fold_left (fun t c => match c with SDelay ms => Some (u8 ms) | _ => t end) cs t =
  match pause_of cs with Some d => Some d | None => t end.
Proof.
  unfold pause_of. induction cs as [|c cs IH]; intros t; [reflexivity|]. cbn [fold_left].
  destruct c; try apply IH. rewrite (IH (Some (u8 ms))). rewrite IH. destruct (fold_left _ cs None); reflexivity.
Qed.
Lemma sets_up_pause : forall cs caps n, n_pause (fst (sets_up cs caps n)) = match pause_of cs with Some d => d | None => n_pause n end.
Proof.
  induction cs as [|c cs IH]; intros caps n; [reflexivity|].
  assert (PC : forall c, pause_of (c :: cs) = match pause_of cs with Some d => Some d | None => match c with SDelay ms => Some (u8 ms) | _ => None end end).
  { intros x. unfold pause_of at 1. cbn [fold_left]. destruct x; rewrite pause_from; reflexivity. }
  rewrite PC. destruct c; cbn [sets_up].
  - rewrite IH. destruct (pause_of cs); reflexivity.
  - rewrite IH. destruct (pause_of cs); reflexivity.
  - rewrite IH. destruct (pause_of cs); [reflexivity|]. unfold assigns. destruct (_ && _); reflexivity.
  - rewrite IH. destruct (pause_of cs); reflexivity.
  - destruct (lamp VCAPS_LED (negb caps) n) as [n1 l1] eqn:L. specialize (IH (negb caps) n1).
    destruct (sets_up cs (negb caps) n1) as [n2 l2]. cbn [fst] in *. rewrite IH. destruct (pause_of cs); [reflexivity|].
    pose proof (put_pause VCAPS_LED (fun _ => if negb caps then 1%N else 0%N) n) as X. unfold lamp in L. rewrite L in X. exact X.
  - specialize (IH caps n). destruct (sets_up cs caps n) as [n2 l2]. cbn [fst] in *. rewrite IH. destruct (pause_of cs); reflexivity.
Qed.

Section Pace.
Variable R C : nat.
Variable kbs : N -> option (list setup_cmd).

Definition paused (o : office) : Prop :=
  forall cs d, kbs (e_kb (t_set (o_typist o))) = Some cs -> pause_of cs = Some d -> n_pause (o_panel o) = d.

Lemma selects_paused : forall i e n, (forall cs d, kbs (e_kb e) = Some cs -> pause_of cs = Some d -> n_pause n = d) ->
  forall cs d, kbs (e_kb (choose kbs i e)) = Some cs -> pause_of cs = Some d -> n_pause (fst (selects kbs i e n)) = d.
Proof.
  intros i e n H cs d K PA. unfold choose in K. unfold selects. destruct (i =? e_kb e)%N; [exact (H cs d K PA)|].
  destruct (kbs i) as [cs1|] eqn:E; [|exact (H cs d K PA)]. cbn [e_kb] in K.
  pose proof (sets_up_pause cs1 (e_caps e) (bare_panel (n_pause n))) as X. destruct (sets_up cs1 (e_caps e) (bare_panel (n_pause n))) as [n1 l].
  cbn [fst] in *. rewrite X. rewrite E in K. injection K as ->. rewrite PA. reflexivity.
Qed.
Lemma moves_paused : forall o v, paused o -> paused (moves kbs o v).
Proof.
  intros [t n w] [[r c] m] H. unfold moves. cbn [o_typist o_panel o_calls].
  destruct (acts kbs (t_set t) n (r, c, m)) as [n' l] eqn:A. intros cs d. cbn [o_typist o_panel].
  assert (NP : n' = fst (acts kbs (t_set t) n (r, c, m))) by (rewrite A; reflexivity). rewrite NP. clear A NP l n'.
  unfold paused in H. cbn [o_typist o_panel] in H. cbn [acts moved]. set (x := code_in kbs (t_set t) r c).
  assert (PR : forall id t, t_set (prints kbs id t) = t_set t) by (intros id u; unfold prints; destruct (kbs (e_kb (t_set u))); reflexivity).
  assert (TY : forall y t, t_set (types y t) = t_set t) by (intros y u; unfold types; cbv zeta; destruct (y =? t_last u)%N; reflexivity).
  assert (LO : (x <= 0xA0)%N -> forall g, match decode x with AShift | AShiftlockOn | AShiftlockToggle | ACaps | ACtrl | AMapsel _ | AStrobe | AVled _ | AVout _ => False | _ => g end <-> g).
  { intros HL g. unfold decode. destruct (N.eqb_spec x 0xA0); [tauto|].
    repeat match goal with |- context [if ?b then _ else _] => let B := fresh "B" in destruct b eqn:B; [exfalso; (clear -HL B; lia)|clear B] end. tauto. }
  assert (LA : forall v b, n_pause (fst (lamp v b n)) = n_pause n) by reflexivity.
  destruct m; cbn [acts].
  - unfold on_press. destruct (N.leb_spec x 0xA0) as [HL|HL].
    + rewrite TY. pose proof (LO HL True) as L. destruct (decode x); try tauto; exact (H cs d).
    + destruct (decode x) eqn:DX; rewrite ?LA, ?works_pause; try exact (H cs d); cbn [t_set moves_to];
        try (unfold after_press; rewrite DX; cbn [e_kb]; try exact (H cs d); apply selects_paused; exact H).
      * destruct (_ || _); exact (H cs d).
      * rewrite PR. exact (H cs d).
      * destruct (n0 <=? 10); [rewrite PR|]; exact (H cs d).
  - unfold on_release. destruct (N.leb_spec x 0xA0) as [HL|HL].
    + pose proof (LO HL True) as L. destruct (x =? t_last t)%N; cbn [t_set]; destruct (decode x); try tauto; exact (H cs d).
    + destruct (decode x) eqn:DX; rewrite ?LA; try exact (H cs d); cbn [t_set moves_to];
        try (unfold after_release; rewrite DX; cbn [e_kb]; try exact (H cs d); apply selects_paused; exact H).
  - unfold on_held. cbn [fst]. destruct (_ && _); [|exact (H cs d)]. destruct (_ =? _)%N; [rewrite TY|]; exact (H cs d).
Qed.

(** ** One scan: what leaves, and what joins the message queue *)
Lemma fold_paused : forall l o, paused o -> paused (fold_left (moves kbs) l o).
Proof. induction l as [|v l IH]; intros o H; [exact H|]. apply IH, moves_paused, H. Qed.
Lemma begins_paused : forall o, paused o -> paused (begins kbs o).
Proof.
  intros [t n w] H cs d. unfold begins. cbn [o_typist o_panel].
  replace (t_set (scan_starts kbs t)) with (t_set t); [exact (H cs d)|].
  unfold scan_starts, prints, sends_one. cbv zeta. destruct (_ =? 0xA0)%N; cbn [t_set]; destruct (kbs (e_kb (t_set t))); reflexivity.
Qed.
Lemma works_on_snoc : forall a rd pre o, works_on kbs R C pre (a ++ [rd]) o =
  fold_left (moves kbs) (scan_moves R C (pre ++ a) rd) (begins kbs (works_on kbs R C pre a o)).
Proof.
  induction a as [|x a IH]; intros rd pre o; cbn [app works_on]; [rewrite app_nil_r; reflexivity|]. rewrite IH, <- app_assoc. reflexivity.
Qed.
Lemma opens_paused : paused (opens kbs).
Proof.
  intros cs d. unfold opens. pose proof (fun cs => sets_up_pause cs false (bare_panel 0)) as X.
  destruct (kbs 0%N) as [cs0|] eqn:E.
  - specialize (X cs0). destruct (sets_up cs0 false (bare_panel 0)) as [n l]. cbn [o_typist o_panel starts t_set at_start e_kb fst] in *.
    rewrite E. intros K PA. injection K as ->. rewrite X, PA. reflexivity.
  - cbn [o_typist o_panel starts t_set at_start e_kb]. rewrite E. discriminate.
Qed.
Lemma works_paused : forall rds, paused (works_on kbs R C [] rds (opens kbs)).
Proof.
  intros rds. induction rds as [|rd rds IH] using rev_ind; [exact opens_paused|].
  rewrite works_on_snoc. apply fold_paused, begins_paused, IH.
Qed.

Lemma silent_nil : Forall silent []. Proof. constructor. Qed.
Lemma put_silent : forall v f n, Forall silent (snd (put v f n)).
Proof.
  intros v f n. unfold put. cbn [snd]. apply Forall_forall. intros e He. apply in_flat_map in He. destruct He as (d&_&Hd).
  destruct (d_virt d =? v); [destruct Hd as [<-|[]]; exact I|contradiction].
Qed.
Lemma pulse_silent : forall v e n, silent e -> Forall silent (snd (pulse v e n)).
Proof.
  intros v e n He. unfold pulse. pose proof (put_silent v opposite n) as A. destruct (put v opposite n) as [n1 l1].
  pose proof (put_silent v opposite n1) as B. destruct (put v opposite n1) as [n2 l2]. cbn [snd] in *. apply Forall_app. split; [exact A|].
  constructor; [exact He|exact B].
Qed.
Lemma works_silent : forall v f n, Forall silent (snd (works v f n)).
Proof. intros v f n. destruct f; cbn [works]; try exact silent_nil; try apply put_silent; apply pulse_silent; exact I. Qed.
Lemma sets_up_silent : forall cs caps n, Forall silent (snd (sets_up cs caps n)).
Proof.
  induction cs as [|c cs IH]; intros caps n; cbn [sets_up]; [exact silent_nil|]. destruct c; try apply IH.
  - pose proof (put_silent VCAPS_LED (fun _ => if negb caps then 1%N else 0%N) n) as A. unfold lamp.
    destruct (put VCAPS_LED (fun _ => if negb caps then 1%N else 0%N) n) as [n1 l1]. specialize (IH (negb caps) n1).
    destruct (sets_up cs (negb caps) n1) as [n2 l2]. cbn [snd] in *. apply Forall_app. auto.
  - specialize (IH caps n). destruct (sets_up cs caps n) as [n2 l2]. cbn [snd] in *. constructor; [exact I|exact IH].
Qed.
Lemma acts_silent : forall e n v, Forall silent (snd (acts kbs e n v)).
Proof.
  assert (SE : forall i e n, Forall silent (snd (selects kbs i e n))).
  { intros i e n. unfold selects. destruct (i =? e_kb e)%N; [exact silent_nil|]. destruct (kbs i) as [cs|]; [|exact silent_nil].
    pose proof (sets_up_silent cs (e_caps e) (bare_panel (n_pause n))) as X. destruct (sets_up cs (e_caps e) (bare_panel (n_pause n))).
    cbn [snd] in *. constructor; [exact I|exact X]. }
  intros e n [[r c] m]. unfold acts. destruct m; [| |exact silent_nil]; destruct (decode (code_in kbs e r c));
    try exact silent_nil; try apply put_silent; try apply works_silent; try apply SE; cbn [snd]; constructor; try exact I; constructor.
Qed.
Lemma enter_more : forall l q, exists m, enter 128 l q = q ++ m.
Proof.
  induction l as [|x l IH]; intros q; cbn [enter]; [exists []; rewrite app_nil_r; reflexivity|].
  destruct (length q <? 128); [|apply IH]. destruct (IH (q ++ [x])) as [m E]. exists (x :: m). rewrite E, <- app_assoc. reflexivity.
Qed.
Lemma prints_more : forall id t, exists m, t_msgs (prints kbs id t) = t_msgs t ++ m.
Proof.
  intros id t. unfold prints. destruct (kbs (e_kb (t_set t))); [apply enter_more|exists []; rewrite app_nil_r; reflexivity].
Qed.
Lemma moved_more : forall t v, exists m, t_msgs (moved kbs t v) = t_msgs t ++ m.
Proof.
  assert (Z : forall q : list N, exists m, q = q ++ m) by (intros q; exists []; rewrite app_nil_r; reflexivity).
  assert (Y : forall x t, exists m, t_msgs (types x t) = t_msgs t ++ m) by (intros x t; unfold types; cbv zeta; destruct (x =? t_last t)%N; apply Z).
  intros t [[r c] m]. cbn [moved]. set (x := code_in kbs (t_set t) r c). destruct m.
  - unfold on_press. destruct (x <=? 0xA0)%N; [apply Y|]. destruct (decode x); try apply Z; try apply prints_more.
    + destruct (_ || _); apply Z.
    + destruct (n <=? 10); [apply prints_more|apply Z].
  - unfold on_release. destruct (x <=? 0xA0)%N; [destruct (_ =? _)%N; apply Z|]. destruct (decode x); apply Z.
  - unfold on_held. destruct (_ && _); [|apply Z]. destruct (_ =? _)%N; [|apply Z]. apply (Y x (beats (t_fast t) (t_auto t) 66 t)).
Qed.
Lemma fold_more : forall l o, (exists m, t_msgs (o_typist (fold_left (moves kbs) l o)) = t_msgs (o_typist o) ++ m) /\
  exists k, o_calls (fold_left (moves kbs) l o) = o_calls o ++ k /\ Forall silent k.
Proof.
  induction l as [|v l IH]; intros o; cbn [fold_left].
  - split; [exists []|exists []; split; [|constructor]]; rewrite app_nil_r; reflexivity.
  - pose proof (acts_silent (t_set (o_typist o)) (o_panel o) v) as A. destruct (moved_more (o_typist o) v) as [m' M'].
    assert (T : o_typist (moves kbs o v) = moved kbs (o_typist o) v /\ o_calls (moves kbs o v) = o_calls o ++ snd (acts kbs (t_set (o_typist o)) (o_panel o) v))
      by (unfold moves; destruct (acts kbs (t_set (o_typist o)) (o_panel o) v); auto).
    destruct T as [T1 T2]. destruct (IH (moves kbs o v)) as ([m M]&k&K&S). rewrite M, K, T1, T2, M'. split.
    + exists (m' ++ m). rewrite app_assoc. reflexivity.
    + exists (snd (acts kbs (t_set (o_typist o)) (o_panel o) v) ++ k). rewrite app_assoc. split; [reflexivity|]. apply Forall_app. auto.
Qed.
Lemma one_scan : forall rds rd c q, t_msgs (o_typist (works_on kbs R C [] rds (opens kbs))) = c :: q -> (c < 0xA0)%N ->
  exists k m, calls_of_run kbs R C (rds ++ [rd]) =
      calls_of_run kbs R C rds ++ EvDelayMs (n_pause (o_panel (works_on kbs R C [] rds (opens kbs)))) :: EvSend c :: k /\ Forall silent k /\
    t_msgs (o_typist (works_on kbs R C [] (rds ++ [rd]) (opens kbs))) = q ++ m.
Proof.
  intros rds rd c q HM HC. unfold calls_of_run. rewrite works_on_snoc. cbn [app].
  set (o := works_on kbs R C [] rds (opens kbs)) in *. destruct (fold_more (scan_moves R C rds rd) (begins kbs o)) as ([m M]&k&K&S).
  rewrite K, M. unfold begins. cbn [o_typist o_calls]. unfold waits, leaves. rewrite HM. cbn [hd].
  replace (c =? 0xA0)%N with false by (symmetry; clear -HC; lia). replace (c <? 0xA0)%N with true by (symmetry; clear -HC; lia).
  exists k. assert (X : exists m0, t_msgs (scan_starts kbs (o_typist o)) = q ++ m0).
  { unfold scan_starts. destruct (prints_more 4 (sends_one (o_typist o))) as [m0 E0]. exists m0. rewrite E0. f_equal. unfold sends_one. cbv zeta.
    rewrite HM. cbn [hd]. replace (c =? 0xA0)%N with false by (symmetry; clear -HC; lia). reflexivity. }
  destruct X as [m0 X]. exists (m0 ++ m). rewrite X, <- !app_assoc. cbn [app]. auto.
Qed.
End Pace.

Lemma queue_g : forall g s, GRel g s -> msg_queue s = g_qm g.
Proof.
  intros g s [_ H]. unfold msg_queue. rewrite (rs_hmsg _ _ H). apply (waiting_ok _ _ 1 _ (rs_buf _ _ H) eq_refl).
Qed.

Lemma office_queue : forall R C kbs rds s, sound_firmware R kbs -> same_size R C kbs -> c_run kbs rds = Ok s ->
  msg_queue s = t_msgs (o_typist (works_on kbs R C [] rds (opens kbs))) /\ k_cur s = e_kb (t_set (o_typist (works_on kbs R C [] rds (opens kbs)))).
Proof.
  intros R C kbs rds s HS HZ ES. destruct (run_ok_g R kbs HS rds) as (g&s'&E1&T1&E2&RL). rewrite ES in E2. inv E2.
  destruct (all_run kbs R C HS HZ rds) as [g' (E3&([IS CO]&_&_))]. rewrite E1 in E3. inv E3. split.
  - rewrite (queue_g _ _ RL). unfold core in CO. congruence.
  - rewrite (rt_cur _ _ (proj1 RL)). exact (proj1 IS).
Qed.

Lemma c_past : forall kbs P W, kbs 0%N <> None -> forall n s x, c_clock kbs P W n = Ok (s, x) -> Forall (fun p => fst p <= jt x) (stamps (jc x)).
Proof.
  intros kbs P W K0. induction n as [|n IH]; intros s x H.
  - destruct (c_clock_0 kbs P W K0) as (s0&x0&l0&E&_&_&D&_). rewrite E in H. assert (x = x0) by congruence. subst x. rewrite D. apply past_deeds. constructor.
  - pose proof (c_trace kbs P W K0 n) as TR. rewrite c_clock_S in H. destruct (c_clock kbs P W n) as [[s0 x0]|u]; [|discriminate].
    destruct TR as (T&g&ER&RG&_). cbn [bind fst snd] in H. pose proof (c_pass kbs P W g s0 (jwait P x0) RG) as PS. rewrite H in PS.
    destruct PS as (t0&g'&ET&_&_&l&D&EV). rewrite D. apply past_deeds. rewrite jwait_stamps.
    eapply Forall_impl; [|exact (IH _ _ eq_refl)]. cbn beta. intros p Hp. pose proof (jwait_le P x0). lia.
Qed.

(** ** C115 *)
(** A character of a message leaves after the pause its keyboard asks for, and
    that long after everything sent before. *)
Theorem C115_message_spacing : forall R C kbs P W n s x c q s' x' cs d, sound_firmware R kbs -> same_size R C kbs ->
  c_clock kbs P W n = Ok (s, x) -> kbs (k_cur s) = Some cs -> pause_of cs = Some d -> msg_queue s = c :: q -> (c < 0xA0)%N ->
  c_clock kbs P W (S n) = Ok (s', x') ->
  exists t, stamps (jc x') = (t, c) :: stamps (jc x) /\ Forall (fun p => fst p + N.to_nat d <= t) (stamps (jc x)) /\
    now (jc x) + N.to_nat d <= t <= now (jc x') /\ exists m, msg_queue s' = q ++ m.
Proof.
  intros R C kbs P W n s x c q s' x' cs d HS HZ H HK HP HQ HC H'.
  assert (K0 : kbs 0%N <> None) by (destruct (proj1 HS); congruence).
  pose proof (c_trace kbs P W K0 n) as TR. rewrite H in TR. destruct TR as (T&g&ER&RG&_&_&_&_).
  rewrite c_clock_S, H in H'. cbn [bind fst snd] in H'.
  pose proof (c_pass kbs P W g s (jwait P x) RG) as PS. rewrite H' in PS. destruct PS as (t0&g'&ET&_&_&l&D&EV).
  assert (ER' : c_run kbs (readings_of W T n ++ [reads_at W t0]) = Ok s') by (rewrite c_run_snoc, ER; exact ET).
  destruct (office_queue R C kbs _ _ HS HZ ER) as [Q1 Q2]. destruct (office_queue R C kbs _ _ HS HZ ER') as [Q3 _].
  rewrite HQ in Q1. destruct (one_scan R C kbs (readings_of W T n) (reads_at W t0) c q (eq_sym Q1) HC) as (k&m&CA&SK&MM).
  rewrite (works_paused R C kbs (readings_of W T n) cs d) in CA by (rewrite <- ?Q2; assumption).
  rewrite <- (C108_all_calls R C kbs _ _ HS HZ ER), <- (C108_all_calls R C kbs _ _ HS HZ ER'), EV in CA. apply app_inv_head in CA.
  destruct (PropJitter.first_call _ _ _ CA) as (l1&l2&E1&N1&EC2). destruct (PropJitter.first_call _ _ _ EC2) as (l3&l4&E3&N3&EC4). subst l l2.
  pose proof (jwait_le P x) as JW.
  rewrite deeds_app in D. pose proof (deeds_le P W l1 (jwait P x)) as L1.
  pose proof (silent_deeds P W l1 (jwait P x) ltac:(rewrite N1; constructor)) as S1. set (x1 := deeds (jwatch P W) l1 (jwait P x)) in *.
  change (deeds (jwatch P W) (Call (EvDelayMs d) :: l3 ++ Call (EvSend c) :: l4) x1)
    with (deeds (jwatch P W) (l3 ++ Call (EvSend c) :: l4) (jspend P (EvDelayMs d) x1)) in D. rewrite deeds_app in D.
  pose proof (deeds_le P W l3 (jspend P (EvDelayMs d) x1)) as L3.
  pose proof (silent_deeds P W l3 (jspend P (EvDelayMs d) x1) ltac:(rewrite N3; constructor)) as S3.
  assert (JD : jt x1 + N.to_nat d <= jt (jspend P (EvDelayMs d) x1)) by (unfold jt; cbn; lia).
  set (x3 := deeds (jwatch P W) l3 (jspend P (EvDelayMs d) x1)) in *.
  change (deeds (jwatch P W) (Call (EvSend c) :: l4) x3) with (deeds (jwatch P W) l4 (jspend P (EvSend c) x3)) in D.
  pose proof (deeds_le P W l4 (jspend P (EvSend c) x3)) as L4.
  exists (jt (jspend P (EvSend c) x3)). rewrite D, silent_deeds by (rewrite EC4; exact SK).
  pose proof (lapse_le P x3) as L5. change (jt (jspend P (EvSend c) x3)) with (jt (lapse P x3)) in *.
  assert (SS : stamps (jc x3) = stamps (jc x)).
  { rewrite S3. change (stamps (jc (jspend P (EvDelayMs d) x1))) with (stamps (jc x1)). rewrite S1. apply jwait_stamps. }
  split; [change (stamps (jc (jspend P (EvSend c) x3))) with ((jt (lapse P x3), c) :: stamps (jc x3)); rewrite SS; reflexivity|].
  pose proof (c_past kbs P W K0 _ _ _ H) as PA.
  split; [eapply Forall_impl; [|exact PA]; cbn beta; intros p Hp; (clear -Hp JW L1 L3 JD L5; lia)|].
  split; [unfold jt in *; (clear -JW L1 L3 JD L4 L5; lia)|]. exists m. congruence.
Qed.
Print Assumptions C115_message_spacing.

(** If every keymap asks for at least [d] ms, a waiting message goes out at that
    pace, character by character, whatever the keys do and however long
    computing takes. *)
Lemma spaced_later : forall d l t t', spaced d t l -> t' <= t -> spaced d t' l.
Proof. intros d [|[x y] l] t t'; cbn; intros; auto. split; [lia|tauto]. Qed.
Theorem C115_message_paced : forall R C kbs P W d m n s x s' x', sound_firmware R kbs -> same_size R C kbs ->
  (forall i cs, kbs i = Some cs -> exists p, pause_of cs = Some p /\ d <= N.to_nat p) ->
  c_clock kbs P W n = Ok (s, x) -> m <= length (msg_queue s) -> Forall (fun c => c < 0xA0)%N (firstn m (msg_queue s)) ->
  c_clock kbs P W (n + m) = Ok (s', x') ->
  exists l, stamps (jc x') = rev l ++ stamps (jc x) /\ map snd l = firstn m (msg_queue s) /\ spaced d (now (jc x)) l.
Proof.
  intros R C kbs P W d m n s x s' x' HS HZ HP. assert (K0 : kbs 0%N <> None) by (destruct (proj1 HS); congruence).
  revert n s x. induction m as [|m IH]; intros n s x H HL HF H'.
  - rewrite Nat.add_0_r in H'. assert (x = x') by congruence. subst x'. exists []. cbn. auto.
  - rewrite Nat.add_succ_r, <- Nat.add_succ_l in H'. destruct (msg_queue s) as [|c q] eqn:MQ; [cbn in HL; lia|].
    cbn [firstn] in *. inversion HF as [|? ? HF1 HF2]; subst. cbn [length] in HL.
    destruct (c_clock kbs P W (S n)) as [[s1 x1]|u] eqn:E1.
    2:{ pose proof (c_trace kbs P W K0 (S n)) as X. rewrite E1 in X. destruct X as [T X].
        destruct (C98_any_keymaps_safe R kbs (readings_of W T (S n)) HS) as [s1 E]. congruence. }
    assert (KC : exists cs, kbs (k_cur s) = Some cs).
    { pose proof (c_trace kbs P W K0 n) as X. rewrite H in X. destruct X as (T&g&ER&RG&_).
      destruct (run_ok_g R kbs HS (readings_of W T n)) as (g2&s2&G1&[cs G2]&G3&RL). rewrite ER in G3. inv G3.
      exists cs. rewrite (rt_cur _ _ (proj1 RL)). apply G2. }
    destruct KC as [cs KC]. destruct (HP _ _ KC) as (p&PP&LE).
    destruct (C115_message_spacing R C kbs P W n s x c q s1 x1 cs p HS HZ H KC PP MQ HF1 E1) as (t&S1&_&B1&k&M1).
    destruct (IH (S n) s1 x1 E1) as (l&L1&L2&L3).
    + rewrite M1, app_length. lia.
    + rewrite M1, firstn_app. replace (m - length q) with 0 by lia. cbn [firstn]. rewrite app_nil_r. exact HF2.
    + exact H'.
    + exists ((t, c) :: l). split; [rewrite L1, S1; cbn [rev]; rewrite <- app_assoc; reflexivity|]. split.
      * cbn [map snd]. f_equal. rewrite L2, M1, firstn_app. replace (m - length q) with 0 by lia. cbn [firstn]. apply app_nil_r.
      * cbn [spaced]. split; [lia|]. apply (spaced_later d l (now (jc x1))); [exact L3|].
        pose proof (c_past kbs P W K0 _ _ _ E1) as PA. rewrite S1 in PA. inversion PA; subst. cbn [fst] in *. unfold jt in *. lia.
Qed.
Print Assumptions C115_message_paced.

(** A keyboard with a letter and a message key that asks for 25 ms, the message
    sent while the letter key is held; every third piece of computing takes a
    millisecond. *)
Definition teller (i : N) : option (list setup_cmd) :=
  if (i =? 0)%N then
    Some [SAddMap [97; 0xA7]%N 0 1 2; SAddMap [97; 0xA7]%N 1 1 2; SAddMap [97; 0xA7]%N 2 1 2; SAddMap [97; 0xA7]%N 3 1 2;
          SDelay 90; SHook 5 (HPrint [79; 75; 10]%N); SDelay 25]
  else None.
Definition told (t : nat) (r : nat) : N :=
  if r =? 0 then if t <? 20 then 0%N else if t <? 40 then 2%N else 3%N else 0%N.
Example C115_example : sound_firmware 1 teller /\ same_size 1 2 teller /\
  (forall i cs, teller i = Some cs -> exists p, pause_of cs = Some p /\ 25 <= N.to_nat p) /\
  bind (c_clock teller third told 27) (fun p => Ok (msg_queue (fst p), now (jc (snd p)))) = Ok ([79; 75; 13; 10]%N, 29) /\
  bind (c_clock teller third told 40) (fun p => Ok (rev (stamps (jc (snd p))))) = Ok [(55, 79%N); (82, 75%N); (108, 13%N); (135, 10%N); (142, 97%N)].
Proof.
  split; [split; [eexists; reflexivity|]|split; [|split; [|split]]].
  - intros i cs E. unfold teller in E. destruct (N.eqb_spec i 0); inv E. split; [lia|]. apply (sound_b_ok 1 1 2); vm_compute; reflexivity.
  - intros i cs mi E Hm. unfold teller in E. destruct (i =? 0)%N; inv E.
    do 4 (destruct mi as [|mi]; [eexists; vm_compute; reflexivity|]); lia.
  - intros i cs E. unfold teller in E. destruct (i =? 0)%N; inv E. exists 25%N. split; [reflexivity|vm_compute; lia].
  - vm_compute. reflexivity.
  - vm_compute. reflexivity.
Qed.
