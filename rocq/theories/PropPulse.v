(** How long the CLEAR SCREEN and RESET outputs are asserted: C97. *)
From Coq Require Import List NArith ZArith Arith Bool Lia.
From Coq Require Import ZifyBool ZifyNat ZifyN.
From Verif Require Import Base Lib Buffer BufferSpec BufferProofs Repeat Devices DevSpec DevProofs
     Modifiers Hook KeymapData Asdf KeySpec KeyRef Obs Frames PropModState PropRepeatMode PropLeds PropQueues PropHold PropOutputs PropTyping.
From Verif Require Import System PropSystem Timed PropTimed PropConnector Jitter PropJitter.
Import ListNotations.

(** A recorder beside the clock of Jitter.v: every architecture call is written
    down with the time at which it begins, oldest first. *)
Definition recorder (P : nat -> nat) (W : nat -> nat -> N) : machine (jclk * list (nat * event)) :=
  mkMachine _ (fun e x => (jspend P e (fst x), snd x ++ [(now (jc (lapse P (fst x))), e)]))
    (fun _ row x => let y := lapse P (fst x) in (W (now (jc y)) (N.to_nat row), (y, snd x))).
Definition recorded (P : nat -> nat) (W : nat -> nat -> N) (n : nat) : outcome (kb * (jclk * list (nat * event))) :=
  live (fun x => (jwait P (fst x), snd x)) (recorder P W) n (mkJ clk0 0, []).

(** ** Which calls can stand side by side *)
Definition plain (e : event) : Prop := panel e = false.
Inductive shape : list event -> Prop :=
| shape_nil : shape []
| shape_plain : forall e l, plain e -> shape l -> shape (e :: l)
| shape_clear : forall l, shape l -> shape (clear_pulse ++ l)
| shape_reset : forall l, shape l -> shape (reset_pulse ++ l).

Lemma shape_app : forall l k, shape l -> shape k -> shape (l ++ k).
Proof.
  intros l k HL HK. induction HL; cbn [app]; auto.
  - constructor; auto.
  - apply shape_clear. auto.
  - apply shape_reset. auto.
Qed.
Lemma shape_quiet : forall l, filter panel l = [] -> shape l.
Proof.
  induction l as [|e l IH]; intros H; [constructor|]. cbn [filter] in H. destruct (panel e) eqn:E; [discriminate H|].
  apply shape_plain; auto.
Qed.

Definition since (z a : akb) : Prop := last_low a /\ rest a /\ exists l, a_log a = rev l ++ a_log z /\ shape l.
Lemma since_step : forall z a b, since z a -> last_low b -> rest b -> (exists l, a_log b = l ++ a_log a /\ shape (rev l)) -> since z b.
Proof.
  intros z a b (L&R&l&E&HS) L' R' (k&E'&HS'). split; [exact L'|]. split; [exact R'|]. exists (l ++ rev k).
  rewrite rev_app_distr, rev_involutive, <- app_assoc, <- E. split; [exact E'|]. apply shape_app; auto.
Qed.

Lemma press_shape : forall k m r c code a, panel_codes k m r c code = true -> (a_cur a < 4)%N -> rest a ->
  exists l, a_log (apress code a) = l ++ a_log a /\ shape (rev l).
Proof.
  intros k m r c code a PC H R. destruct (press_panel k m r c code a PC H R) as [_ (l&E&F)].
  destruct (pulses (decode code)) eqn:PU; [exists l; split; [exact E|]; apply shape_quiet; exact F|].
  destruct (decode code) eqn:DC; try discriminate PU.
  assert (HI : (0xA0 <? code)%N = true).
  { destruct (N.ltb_spec 0xA0 code); auto. exfalso.
    destruct (N.eq_dec code 0xA0) as [->|]; [discriminate DC|]. rewrite decode_high in DC by lia. discriminate DC. }
  unfold panel_codes in PC. rewrite DC in PC. assert (HN : n = 1 \/ n = 2) by (clear -PC; lia).
  unfold apress. rewrite HI. unfold aaction_on. rewrite DC.
  destruct (own_vout _ H) as [O1 O2]. destruct (R H) as [R1 R2].
  assert (FF : fn (wiring (a_cur a)) 1 = V_PULSE_SHORT /\ fn (wiring (a_cur a)) 2 = V_PULSE_LONG).
  { clear - H. generalize dependent (a_cur a). intros q H. kcases q; try lia; split; reflexivity. }
  destruct FF as [F1 F2]. unfold aact.
  destruct HN as [-> | ->]; [rewrite F1, O1|rewrite F2, O2]; cbn [spec_action drive app];
    cbn [a_cur a_lev a_log put_log put_lev]; unfold set_at; cbn [Nat.eqb OUT3_OPEN_HI OUT1_OPEN_LO];
    change 8 with OUT3_OPEN_HI; change 3 with OUT1_OPEN_LO; rewrite ?R1, ?R2;
    (eexists (rev [_; _; _]); split; [reflexivity|]).
  - apply (shape_reset []). constructor.
  - apply (shape_clear []). constructor.
Qed.

Lemma tick_shape : forall rds rd s s', run rds = Ok s -> run (rds ++ [rd]) = Ok s' ->
  exists l, events s' = events s ++ l /\ shape l.
Proof.
  intros rds rd s s' H H'. destruct (reach _ _ H) as [a [A RL]]. destruct (reach _ _ H') as [a' [A' RL']].
  destruct (rest_inv _ _ A) as [L R].
  unfold arun in A'. rewrite aticks_app in A'. fold (arun rds) in A'. rewrite A in A'. cbn [obind] in A'.
  assert (X : since a a').
  { refine (ainv_from (fun _ => True) (since a) _ _ _ _ _ [rd] a a' _ (rl_lt _ _ RL) (True_all _) A').
    - intros x HI. pose proof HI as (L0&R0&_). apply (since_step _ x); auto.
      + unfold last_low in *. rewrite send_last. exact L0.
      + unfold rest in *. rewrite send_cur, send_lev. exact R0.
      + unfold asend. destruct (a_qm x); [destruct (a_qk x) as [|n q]; [exists []; split; [reflexivity|constructor]|destruct (n <? 0xA0)%N;
          [exists [EvSend n]|exists []]; (split; [reflexivity|apply shape_quiet; reflexivity])]|].
        eexists [_; _]. split; [reflexivity|]. apply shape_quiet. reflexivity.
    - intros x y HI. exact HI.
    - intros rd0 r c x _ HI Hr Hc Hk _ _. pose proof HI as (L0&R0&_). apply (since_step _ x); auto.
      + apply held_last_low; auto.
      + unfold rest. rewrite held_cur, held_lev by auto. exact R0.
      + exists []. rewrite held_log by auto. split; [reflexivity|constructor].
    - intros rd0 r c x _ HI Hr Hc Hk _ _. pose proof HI as (L0&R0&_).
      pose proof (code_now_check _ panel_codes_ok x r c Hk Hr Hc) as PC. apply (since_step _ x); auto.
      + apply press_last_low; exact L0.
      + apply (press_panel _ _ _ _ _ (accept r c true x) PC Hk R0).
      + apply (press_shape _ _ _ _ _ (accept r c true x) PC Hk R0).
    - intros rd0 r c x _ HI Hr Hc Hk _ _. pose proof HI as (L0&R0&_). apply (since_step _ x); auto.
      + apply release_last_low; exact L0.
      + apply (release_panel (code_now x r c) (accept r c false x) Hk R0).
      + destruct (release_panel (code_now x r c) (accept r c false x) Hk R0) as [_ (l&E&F)]. exists l. split; [exact E|apply shape_quiet; exact F].
    - split; [exact L|]. split; [exact R|]. exists []. split; [reflexivity|constructor]. }
  destruct X as (_&_&l&E&HS). exists l. split; [|exact HS].
  rewrite (events_ok _ _ RL), (events_ok _ _ RL'), E, rev_app_distr, rev_involutive. reflexivity.
Qed.

(** ** With times *)
(** [gap long t0 t2]: how far apart the two edges of a pulse are. *)
Inductive timed_shape (gap : nat -> nat -> nat -> Prop) : list (nat * event) -> Prop :=
| ts_nil : timed_shape gap []
| ts_plain : forall t e l, plain e -> timed_shape gap l -> timed_shape gap ((t, e) :: l)
| ts_clear : forall t0 t1 t2 l, gap 50 t0 t2 -> timed_shape gap l ->
    timed_shape gap ((t0, EvOut OUT1_OPEN_LO 1) :: (t1, EvPulseLong) :: (t2, EvOut OUT1_OPEN_LO 0) :: l)
| ts_reset : forall t0 t1 t2 l, gap 0 t0 t2 -> timed_shape gap l ->
    timed_shape gap ((t0, EvOut OUT3_OPEN_HI 0) :: (t1, EvPulseShort) :: (t2, EvOut OUT3_OPEN_HI 1) :: l).

Lemma ts_app : forall gap l k, timed_shape gap l -> timed_shape gap k -> timed_shape gap (l ++ k).
Proof. intros gap l k HL HK. induction HL; cbn [app]; auto; [apply ts_plain|apply ts_clear|apply ts_reset]; auto. Qed.

Section P.
Context (P : nat -> nat) (W : nat -> nat -> N).
Definition edges (d t0 t2 : nat) : Prop := t0 + d <= t2 /\ ((forall i, P i = 0) -> t2 = t0 + d).

Definition trace (l : list deed) (x : jclk * list (nat * event)) := snd (deeds (recorder P W) l x).
Notation rest_of l x := (deeds (recorder P W) l x).
Definition tn (x : jclk * list (nat * event)) : nat := now (jc (fst x)).

Lemma reads_only : forall l x, calls_of l = [] -> snd (rest_of l x) = snd x /\ edges 0 (tn x) (tn (rest_of l x)).
Proof.
  induction l as [|d l IH]; intros x E; [split; [reflexivity|split; [cbn; lia|cbn; lia]]|]. destruct d as [e|row m]; [discriminate E|].
  change (rest_of (Read row m :: l) x) with (rest_of l (deed_on (recorder P W) (Read row m) x)).
  destruct (IH (deed_on (recorder P W) (Read row m) x) E) as [I1 [I2 I3]]. rewrite I1. split; [reflexivity|].
  assert (T : tn (deed_on (recorder P W) (Read row m) x) = tn x + P (piece (fst x))) by reflexivity.
  rewrite T in I2, I3. split; [lia|]. intros HP. rewrite I3, HP by exact HP. lia.
Qed.
(** Up to and including the next call. *)
Lemma next_call : forall l x e k, calls_of l = e :: k -> exists l1 l2 y t, l = l1 ++ l2 /\ calls_of l2 = k /\ y = rest_of l1 x /\
  snd y = snd x ++ [(t, e)] /\ edges 0 (tn x) t /\ tn y = now (spend e (mkClk t false [])).
Proof.
  intros l x e k E. destruct (first_call _ _ _ E) as (l1&l2&E1&E2&E3). exists (l1 ++ [Call e]), l2.
  destruct (reads_only l1 x E2) as [I1 [I2 I3]].
  assert (Y : rest_of (l1 ++ [Call e]) x = deed_on (recorder P W) (Call e) (rest_of l1 x)) by (rewrite deeds_app; reflexivity).
  exists (rest_of (l1 ++ [Call e]) x), (tn (rest_of l1 x) + P (piece (fst (rest_of l1 x)))).
  split; [rewrite <- app_assoc; exact E1|]. split; [exact E3|]. split; [reflexivity|]. rewrite Y.
  revert I1 I2 I3. generalize (rest_of l1 x). intros z I1 I2 I3.
  split; [cbn [deed_on recorder m_call snd]; rewrite I1; reflexivity|]. split.
  - split; [lia|]. intros HP. rewrite HP, I3 by exact HP. lia.
  - unfold tn. cbn [deed_on recorder m_call fst]. unfold jspend. cbn [jc lapse]. destruct e; reflexivity.
Qed.

Lemma shape_trace : forall l, shape l -> forall ds x, calls_of ds = l ->
  exists tr, snd (rest_of ds x) = snd x ++ tr /\ timed_shape edges tr /\ map snd tr = l.
Proof.
  intros l HS. induction HS as [|e l HP HS IH|l HS IH|l HS IH]; intros ds x E.
  - exists []. rewrite app_nil_r. destruct (reads_only ds x E) as [I1 _]. split; [exact I1|]. split; [constructor|reflexivity].
  - destruct (next_call _ x _ _ E) as (l1&l2&y&t&E1&E2&EY&S1&_). subst ds. rewrite deeds_app, <- EY.
    destruct (IH l2 y E2) as (tr&T1&T2&T3). exists ((t, e) :: tr). rewrite T1, S1, <- app_assoc. split; [reflexivity|].
    split; [constructor; auto|cbn [map snd]; rewrite T3; reflexivity].
  - destruct (next_call _ x _ _ E) as (l1&l2&y&t&E1&E2&EY&S1&G1&N1). subst ds. rewrite deeds_app, <- EY. clear E EY.
    destruct (next_call _ y _ _ E2) as (l3&l4&z&t'&E3&E4&EZ&S2&G2&N2). subst l2. rewrite deeds_app, <- EZ. clear E2 EZ.
    destruct (next_call _ z _ _ E4) as (l5&l6&w&t2&E5&E6&EW&S3&G3&N3). subst l4. rewrite deeds_app, <- EW. clear E4 EW.
    destruct (IH l6 w E6) as (tr&T1&T2&T3). rewrite T1, S3, S2, S1, <- !app_assoc.
    eexists. split; [reflexivity|]. cbn [app]. split.
    + apply ts_clear; [|exact T2]. cbn in N1, N2. rewrite N1 in G2. rewrite N2 in G3. unfold edges in *. destruct G2 as [A1 A2], G3 as [B1 B2].
      clear -A1 A2 B1 B2. split; [lia|]. intros HP. rewrite B2, A2 by exact HP. lia.
    + cbn [map snd]. rewrite T3. reflexivity.
  - destruct (next_call _ x _ _ E) as (l1&l2&y&t&E1&E2&EY&S1&G1&N1). subst ds. rewrite deeds_app, <- EY. clear E EY.
    destruct (next_call _ y _ _ E2) as (l3&l4&z&t'&E3&E4&EZ&S2&G2&N2). subst l2. rewrite deeds_app, <- EZ. clear E2 EZ.
    destruct (next_call _ z _ _ E4) as (l5&l6&w&t2&E5&E6&EW&S3&G3&N3). subst l4. rewrite deeds_app, <- EW. clear E4 EW.
    destruct (IH l6 w E6) as (tr&T1&T2&T3). rewrite T1, S3, S2, S1, <- !app_assoc.
    eexists. split; [reflexivity|]. cbn [app]. split.
    + apply ts_reset; [|exact T2]. cbn in N1, N2. rewrite N1 in G2. rewrite N2 in G3. unfold edges in *. destruct G2 as [A1 A2], G3 as [B1 B2].
      clear -A1 A2 B1 B2. split; [lia|]. intros HP. rewrite B2, A2 by exact HP. lia.
    + cbn [map snd]. rewrite T3. reflexivity.
Qed.

Lemma recorded_0 : exists s x, recorded P W 0 = Ok (s, (x, [(P 0, EvArchInit)])) /\ run [] = Ok s /\ Rel aboot s.
Proof.
  unfold recorded, live, run. destruct boot_sim as [s [E R]]. rewrite E. cbn [bind passes ticks]. exists s. eexists. clear E.
  assert (F : fresh kb_zero s = [EvArchInit]) by (unfold fresh; rewrite (rl_log _ _ R); reflexivity).
  unfold perform. rewrite F. split; [reflexivity|]. split; [reflexivity|exact R].
Qed.
Lemma recorded_S : forall n, recorded P W (S n) =
  bind (recorded P W n) (fun p => sys_tick (recorder P W) (fun _ _ => 0%N) (fst p) (jwait P (fst (snd p)), snd (snd p))).
Proof. intros n. unfold recorded, live. destruct boot_sim as [s [E R]]. rewrite E. cbn [bind]. rewrite passes_snoc. reflexivity. Qed.

Lemma rtick : forall a s x, Rel a s ->
  match sys_tick (recorder P W) (fun _ _ => 0%N) s x with
  | Ok (s', x') => exists t, tick (reads_at W t) s = Ok s' /\ in_order t (tn x) (tn x')
  | Bad u => exists t, tick (reads_at W t) s = Bad u
  end.
Proof.
  intros a s x R. apply (gen_tick (recorder P W) tn W) with (a := a); [|intros m row h; split|]; auto.
  - intros e h. apply jspend_le.
  - apply (lapse_le P (fst h)).
Qed.

Lemma recorded_shape : forall n s x tr, recorded P W n = Ok (s, (x, tr)) ->
  (exists rds, run rds = Ok s) /\ map snd tr = events s /\ timed_shape edges tr.
Proof.
  induction n as [|n IH]; intros s x tr E.
  - destruct recorded_0 as (s0&x0&E0&RN&RL). rewrite E in E0. assert (s = s0) by congruence. assert (tr = [(P 0, EvArchInit)]) by congruence. subst s0 tr.
    split; [eauto|]. rewrite (events_ok _ _ RL). split; [reflexivity|]. constructor; [reflexivity|constructor].
  - rewrite recorded_S in E. destruct (recorded P W n) as [[s1 [x1 tr1]]|u] eqn:EN; cbn [bind fst snd] in E; [|discriminate E].
    destruct (IH s1 x1 tr1 eq_refl) as ([rds RN]&M&T). destruct (reach _ _ RN) as [a [A RL]].
    pose proof (rtick a s1 (jwait P x1, tr1) RL) as X. rewrite E in X. destruct X as (t&TK&_).
    assert (RN' : run (rds ++ [reads_at W t]) = Ok s) by (rewrite (run_snoc_any _ _ _ RN); exact TK).
    destruct (tick_shape _ _ _ _ RN RN') as (l&EV&HS).
    destruct (tick_deeds (recorder P W) _ a s1 _ s _ RL E) as (ds&b&_&D&EV').
    assert (EC : calls_of ds = l) by (apply (app_inv_head (events s1)); congruence).
    destruct (shape_trace l HS ds (jwait P x1, tr1) EC) as (tr'&T1&T2&T3). rewrite <- D in T1. cbn [snd] in T1. subst tr.
    split; [eauto|]. rewrite map_app, M, T3, EV. split; [reflexivity|]. apply ts_app; auto.
Qed.
End P.

Lemma ts_find : forall gap tr, timed_shape gap tr -> forall l1 t e l2, tr = l1 ++ (t, e) :: l2 ->
  (e = EvOut OUT1_OPEN_LO 1 -> exists t1 t2 l3, l2 = (t1, EvPulseLong) :: (t2, EvOut OUT1_OPEN_LO 0) :: l3 /\ gap 50 t t2) /\
  (e = EvOut OUT3_OPEN_HI 0 -> exists t1 t2 l3, l2 = (t1, EvPulseShort) :: (t2, EvOut OUT3_OPEN_HI 1) :: l3 /\ gap 0 t t2).
Proof.
  intros gap tr HT. induction HT as [|t' e' l HP HT IH|t0 t1 t2 l G HT IH|t0 t1 t2 l G HT IH]; intros l1 t e l2 E.
  - destruct l1; discriminate E.
  - destruct l1 as [|p l1]; cbn [app] in E.
    + assert (e = e') by congruence. subst e'. split; intros ->; discriminate HP.
    + apply (IH l1). congruence.
  - destruct l1 as [|p1 [|p2 [|p3 l1]]]; cbn [app] in E.
    + assert (e = EvOut OUT1_OPEN_LO 1) by congruence. subst e. split; intros X; [|discriminate X]. exists t1, t2, l. split; congruence.
    + assert (e = EvPulseLong) by congruence. subst e. split; intros X; discriminate X.
    + assert (e = EvOut OUT1_OPEN_LO 0) by congruence. subst e. split; intros X; discriminate X.
    + apply (IH l1). congruence.
  - destruct l1 as [|p1 [|p2 [|p3 l1]]]; cbn [app] in E.
    + assert (e = EvOut OUT3_OPEN_HI 0) by congruence. subst e. split; intros X; [discriminate X|]. exists t1, t2, l. split; congruence.
    + assert (e = EvPulseShort) by congruence. subst e. split; intros X; discriminate X.
    + assert (e = EvOut OUT3_OPEN_HI 1) by congruence. subst e. split; intros X; discriminate X.
    + apply (IH l1). congruence.
Qed.

Lemma recorded_live : forall P W n, recorded P W n = live (fun x => (jwait P (fst x), snd x)) (recorder P W) n (mkJ clk0 0, []).
Proof. reflexivity. Qed.
(** The recording is one of the run of Jitter.v: same state, same clock, and the
    calls written down are the calls of the log. *)
Theorem C97_recording : forall P W n s x, jreal P W n = Ok (s, x) ->
  exists tr, recorded P W n = Ok (s, (x, tr)) /\ map snd tr = events s.
Proof.
  intros P W n s x E. pose proof (live_q (recorder P W) (jwatch P W) (fun y c => fst y = c)) as X.
  assert (X1 : forall e y c, fst y = c -> fst (m_call (recorder P W) e y) = m_call (jwatch P W) e c) by (intros e y c <-; reflexivity).
  assert (X2 : forall (m : nat -> N) row y c, (row < 16)%N -> fst y = c ->
    u8 (fst (m_read (recorder P W) m row y)) = u8 (fst (m_read (jwatch P W) m row c)) /\
    fst (snd (m_read (recorder P W) m row y)) = snd (m_read (jwatch P W) m row c)).
  { intros m row y c _ <-. split; reflexivity. }
  assert (X3 : forall (y : jclk * list (nat * event)) c, fst y = c -> fst ((fun x => (jwait P (fst x), snd x)) y) = jwait P c).
  { intros y c <-. reflexivity. }
  specialize (X X1 X2 (fun x => (jwait P (fst x), snd x)) (jwait P) X3 n (mkJ clk0 0, []) (mkJ clk0 0) (X1 EvArchInit _ _ eq_refl)).
  rewrite <- jreal_live, <- recorded_live, E in X. clear X1 X2 X3.
  destruct (recorded P W n) as [[s' [y tr]]|u] eqn:ER; cbn [same fst] in X; [|contradiction].
  destruct X as (-> & -> & _). exists tr. split; [reflexivity|]. apply (recorded_shape P W n s x tr ER).
Qed.
Print Assumptions C97_recording.

(** Whenever the CLEAR SCREEN output is asserted, the next two calls are the long
    delay and the one that takes it back, at least 50 ms later and, if computing
    takes no time, exactly 50 ms later.  Whenever RESET is asserted, the next two
    calls are the short delay and the one that takes it back, within the same
    millisecond if computing takes no time. *)
Theorem C97_pulse_width : forall P W n s x tr, recorded P W n = Ok (s, (x, tr)) ->
  (forall l1 t0 l2, tr = l1 ++ (t0, EvOut OUT1_OPEN_LO 1) :: l2 ->
     exists t1 t2 l3, l2 = (t1, EvPulseLong) :: (t2, EvOut OUT1_OPEN_LO 0) :: l3 /\
       t0 + 50 <= t2 /\ ((forall i, P i = 0) -> t2 = t0 + 50)) /\
  (forall l1 t0 l2, tr = l1 ++ (t0, EvOut OUT3_OPEN_HI 0) :: l2 ->
     exists t1 t2 l3, l2 = (t1, EvPulseShort) :: (t2, EvOut OUT3_OPEN_HI 1) :: l3 /\
       t0 <= t2 /\ ((forall i, P i = 0) -> t2 = t0)).
Proof.
  intros P W n s x tr E. destruct (recorded_shape P W n s x tr E) as (_&_&T). split; intros l1 t0 l2 EQ.
  - destruct (ts_find _ _ T _ _ _ _ EQ) as [F _]. destruct (F eq_refl) as (t1&t2&l3&E2&G1&G2). exists t1, t2, l3. auto.
  - destruct (ts_find _ _ T _ _ _ _ EQ) as [_ F]. destruct (F eq_refl) as (t1&t2&l3&E2&G1&G2). exists t1, t2, l3.
    rewrite Nat.add_0_r in G1, G2. auto.
Qed.
Print Assumptions C97_pulse_width.

(** SHIFT (or CTRL) and the panel key of keyboard 0 closed after 20 ms; computing
    takes no time, or 1 ms in every fifth piece. *)
Definition pulse_hand (a : nat) : nat -> nat -> N :=
  fun t r => if t <? 20 then 0%N else if r =? 0 then N.shiftl 1 (N.of_nat a) else if r =? 2 then 1%N else 0%N.
Definition pulse_trace (P : nat -> nat) (a n : nat) : option (list (nat * event)) :=
  match recorded P (pulse_hand a) n with Ok (_, (_, tr)) => Some (filter (fun p => panel (snd p)) tr) | Bad _ => None end.
Example C97_example :
  pulse_trace (fun _ => 0) 1 60 = Some [(29, EvOut OUT1_OPEN_LO 1); (29, EvPulseLong); (79, EvOut OUT1_OPEN_LO 0)] /\
  pulse_trace (fun _ => 0) 6 60 = Some [(29, EvOut OUT3_OPEN_HI 0); (29, EvPulseShort); (29, EvOut OUT3_OPEN_HI 1)] /\
  pulse_trace (fun i => if i mod 5 =? 0 then 1 else 0) 1 60 = Some [(40, EvOut OUT1_OPEN_LO 1); (40, EvPulseLong); (91, EvOut OUT1_OPEN_LO 0)].
Proof. vm_compute. auto. Qed.
