(** CAPS LED and strobe polarity over whole runs: C35, C41. *)
From Coq Require Import List NArith ZArith Arith Bool Lia.
From Coq Require Import ZifyBool ZifyNat ZifyN.
From Verif Require Import Base Lib Buffer BufferSpec BufferProofs Repeat Devices DevSpec DevProofs
     Modifiers Hook KeymapData Asdf KeySpec KeyRef Obs Frames PropModState PropRepeatMode.
Import ListNotations.


(** ** C35 *)
(** Last value driven on device [p] since the last hardware initialisation. *)
Definition led_step (p : nat) (o : option N) (e : event) : option N :=
  match e with EvArchInit => None | EvOut d v => if d =? p then Some v else o | _ => o end.
Definition shown (p : nat) (s : kb) : option N := fold_left (led_step p) (events s) None.
(** The CAPS LED of keyboards 0 and 2. *)
Definition caps_led (k : N) : nat := if (k =? 0)%N then LED3 else LED1.

Definition led (p : nat) (log : list event) : option N := fold_right (fun e o => led_step p o e) None log.
Lemma shown_ok : forall p a s, Rel a s -> shown p s = led p (a_log a).
Proof.
  intros p a s H. unfold shown, led. rewrite (events_ok _ _ H).
  rewrite <- (rev_involutive (a_log a)) at 2. symmetry. apply (fold_left_rev_right (fun e o => led_step p o e)).
Qed.

Definition out_codes (k : N) (m r c : nat) (code : N) : bool :=
  match decode code with AVout n => (n =? 1) || (n =? 2) | AVled _ => false | AFn _ | _ => true end.
Lemma out_codes_ok : all_codes out_codes = true.
Proof. vm_compute. reflexivity. Qed.

(** Keyboards 0-3 wire no SHIFT LED; their outputs 1 and 2 are not LEDs. *)
Lemma own_shift : forall k, (k < 4)%N -> own (wiring k) VSHIFT_LED = [].
Proof. intros k H. kcases k; try lia; reflexivity. Qed.
Lemma own_vout : forall k, (k < 4)%N -> own (wiring k) 1 = [OUT3_OPEN_HI] /\ own (wiring k) 2 = [OUT1_OPEN_LO].
Proof. intros k H. kcases k; try lia; split; reflexivity. Qed.
Lemma set_shift_quiet : forall x a, (a_cur a < 4)%N -> a_log (aset_shift x a) = a_log a.
Proof.
  intros x a H. unfold aset_shift, aact. rewrite (own_shift _ H). destruct (N.testbit x 1); reflexivity.
Qed.
(** What a log reader that ignores output events other than LEDs sees. *)
Definition led_free (e : event) : Prop :=
  match e with EvOut d _ => d <> LED1 /\ d <> LED3 | EvPulseShort | EvPulseLong => True | _ => False end.
Lemma act_free : forall f p lv, p <> LED1 -> p <> LED3 -> Forall led_free (snd (spec_action f [p] lv)).
Proof. intros f p lv H1 H2. destruct f; cbn [spec_action drive snd app]; repeat constructor; auto. Qed.
Lemma act_vout : forall f n a, (a_cur a < 4)%N -> (n = 1 \/ n = 2) ->
  exists l, a_log (aact f n a) = l ++ a_log a /\ Forall led_free l.
Proof.
  intros f n a H Hn. destruct (own_vout _ H) as [O1 O2]. unfold aact.
  assert (X : Forall led_free (snd (spec_action f (own (wiring (a_cur a)) n) (a_lev a)))).
  { destruct Hn as [-> | ->]; [rewrite O1|rewrite O2]; apply act_free; discriminate. }
  destruct (spec_action _ _ _) as [lv ev]. exists (rev ev). split; auto. apply Forall_rev. exact X.
Qed.

(** A reader of the log that only looks at [EvOut] of the two LEDs and at
    initialisation is not disturbed by other events. *)
Lemma led_skip : forall p l log, p = LED1 \/ p = LED3 -> Forall led_free l -> led p (l ++ log) = led p log.
Proof.
  intros p l log Hp H. induction H as [|e l H HF IH]; auto. cbn [app led fold_right].
  fold (led p (l ++ log)). destruct e; cbn [led_step led_free] in *; auto; try contradiction.
  match goal with |- context [?d =? p] => destruct (Nat.eqb_spec d p) end; auto. destruct Hp; subst; tauto.
Qed.

(** Presses and releases other than CAPS and keyboard selection leave LEDs and
    strobe. *)
Lemma on_quiet : forall k m r c code a, out_codes k m r c code = true -> (a_cur a < 4)%N ->
  decode code <> ACaps -> (forall n, decode code <> AMapsel n) -> decode code <> AStrobe ->
  exists l, a_log (aaction_on code a) = l ++ a_log a /\ Forall led_free l.
Proof.
  intros k m r c code a O H H1 H2 H3. unfold out_codes in O. unfold aaction_on.
  assert (NIL : exists l, a_log a = l ++ a_log a /\ Forall led_free l) by (exists []; auto).
  destruct (decode code) eqn:D; try congruence; auto;
    try (rewrite set_shift_quiet by auto; exact NIL).
  - apply act_vout; auto. lia.
  - destruct (message _ _); exact NIL.
Qed.
Lemma off_quiet : forall code a, (a_cur a < 4)%N ->
  (forall n, decode code <> AMapsel n) -> decode code <> AStrobe ->
  a_log (aaction_off code a) = a_log a.
Proof.
  intros code a H H1 H2. unfold aaction_off. destruct (decode code) eqn:D; auto.
  - apply set_shift_quiet; auto.
  - exfalso. apply (H1 n). auto.
  - congruence.
Qed.
Lemma press_quiet : forall k m r c code a, out_codes k m r c code = true -> (a_cur a < 4)%N ->
  decode code <> ACaps -> (forall n, decode code <> AMapsel n) -> decode code <> AStrobe ->
  exists l, a_log (apress code a) = l ++ a_log a /\ Forall led_free l.
Proof.
  intros. unfold apress. destruct (0xA0 <? code)%N; [eapply on_quiet; eauto|].
  exists []. destruct (a_last a =? code)%N; auto.
Qed.
Lemma release_quiet : forall code a, (a_cur a < 4)%N ->
  (forall n, decode code <> AMapsel n) -> decode code <> AStrobe ->
  a_log (arelease code a) = a_log a.
Proof.
  intros. unfold arelease. destruct (0xA0 <? code)%N; [apply off_quiet; auto|].
  destruct (a_last a =? code)%N; auto.
Qed.
Lemma press_caps : forall code a, decode code <> ACaps -> (forall n, decode code <> AMapsel n) ->
  m_caps (a_mod (apress code a)) = m_caps (a_mod a).
Proof. intros. unfold apress. destruct (0xA0 <? code)%N; [apply on_caps; auto|]. destruct (a_last a =? code)%N; auto. Qed.
Lemma release_caps : forall code a, (forall n, decode code <> AMapsel n) ->
  m_caps (a_mod (arelease code a)) = m_caps (a_mod a).
Proof. intros. unfold arelease. destruct (0xA0 <? code)%N; [apply off_caps; auto|]. destruct (a_last a =? code)%N; auto. Qed.

Definition LedInv (a : akb) : Prop :=
  last_low a /\ (m_caps (a_mod a) < 2)%N /\
  (a_cur a = 0%N -> led LED3 (a_log a) = None \/ led LED3 (a_log a) = Some (m_caps (a_mod a))) /\
  (a_cur a = 2%N -> led LED1 (a_log a) = Some (m_caps (a_mod a))).

Lemma flip : forall x, (x < 2)%N -> N.lxor x 1 = (1 - x)%N.
Proof. intros x H. assert (x = 0 \/ x = 1)%N as [-> | ->] by lia; reflexivity. Qed.

(** Toggling CAPS LOCK on keyboards 0 and 2 drives the LED. *)
Lemma own_caps : own (wiring 0) VCAPS_LED = [LED3] /\ own (wiring 2) VCAPS_LED = [LED1].
Proof. split; reflexivity. Qed.
Lemma toggle_log : forall a, (a_cur a = 0 \/ a_cur a = 2)%N -> (m_caps (a_mod a) < 2)%N ->
  a_log (atoggle_caps a) = EvOut (caps_led (a_cur a)) (1 - m_caps (a_mod a)) :: a_log a.
Proof.
  intros a C H. unfold atoggle_caps, aact, caps_led. rewrite flip by auto. destruct own_caps as [O1 O2].
  assert (V : m_caps (a_mod a) = 0%N \/ m_caps (a_mod a) = 1%N) by lia.
  destruct C as [C|C]; rewrite C; [rewrite O1|rewrite O2]; destruct V as [V|V]; rewrite V; reflexivity.
Qed.
Lemma toggle_caps_val : forall a, (m_caps (a_mod a) < 2)%N ->
  m_caps (a_mod (atoggle_caps a)) = (1 - m_caps (a_mod a))%N.
Proof. intros. cbn [atoggle_caps a_mod put_mod m_caps]. apply flip; auto. Qed.

Lemma select_led : forall i a, LedInv a -> LedInv (aselect i a).
Proof.
  intros i a I. pose proof I as (A&B&C&D). unfold aselect. destruct (i =? a_cur a)%N; auto.
  destruct (N.ltb_spec i 6); auto. clear I.
  assert (L : last_low (aswitch i a)).
  { unfold last_low, aswitch, atoggle_caps. destruct (toggles_caps i), (i =? 4)%N; cbn; rewrite ?aact_last; exact A. }
  unfold LedInv. split; auto. clear L.
  assert (M : (m_caps (a_mod (aswitch i a)) < 2)%N).
  { unfold aswitch. destruct (toggles_caps i) eqn:T; [|destruct (i =? 4)%N; exact B].
    assert (X : (m_caps (a_mod (atoggle_caps (note EvArchInit (put_lev (lev (wiring i)) (put_cur i a))))) < 2)%N)
      by (rewrite toggle_caps_val by exact B; lia).
    destruct (i =? 4)%N; exact X. }
  split; auto.
  assert (CU : a_cur (aswitch i a) = i).
  { unfold aswitch, atoggle_caps. destruct (toggles_caps i), (i =? 4)%N; cbn; rewrite ?aact_cur; reflexivity. }
  rewrite CU. split; intros ->.
  - left. reflexivity.
  - unfold aswitch. cbn [toggles_caps N.eqb Pos.eqb].
    rewrite toggle_log by (try exact B; right; reflexivity). rewrite toggle_caps_val by exact B. reflexivity.
Qed.

Lemma strobe_led : forall p e log, e = EvStrobePos \/ e = EvStrobeNeg -> led p (e :: log) = led p log.
Proof. intros p e log [-> | ->]; reflexivity. Qed.

Lemma led_inv : forall rds a, arun rds = Some a -> LedInv a.
Proof.
  intros rds a. apply (ainv (fun _ => True)) with (rds := rds); [ | | | | | |apply True_all].
  - split; [exact (N.le_refl 0xA0)|]. split; [exact N.lt_0_2|]. split; [left; reflexivity|discriminate].
  - intros x (A&B&C&D). unfold LedInv, last_low in *. rewrite send_last, send_mod, send_cur.
    assert (E : forall p, led p (a_log (asend x)) = led p (a_log x)).
    { intros p. unfold asend. destruct (a_qm x); [|reflexivity]. destruct (a_qk x); [reflexivity|].
      destruct (n <? 0xA0)%N; reflexivity. }
    rewrite !E. auto.
  - intros x y H. exact H.
  - intros rd r c x _ (A&B&C&D) Hr Hc Hk _ _. unfold LedInv.
    rewrite held_mod, held_cur, held_log by auto. split; [apply held_last_low; auto|auto].
  - intros rd r c x _ I Hr Hc Hk _ HD.
    pose proof (code_now_check _ out_codes_ok x r c Hk Hr Hc) as O. generalize (code_now x r c) O. clear O.
    intros code O. set (y := accept r c true x). assert (Y : LedInv y) by exact I.
    assert (Ky : (a_cur y < 4)%N) by exact Hk. clearbody y. clear I Hk HD.
    destruct (decode code) eqn:DC;
      try (destruct Y as (A&B&C&D); unfold LedInv; rewrite press_caps, press_cur by (intros; congruence);
           destruct (press_quiet _ _ _ _ _ y O Ky) as [l [-> L]]; try (intros; congruence);
           rewrite !led_skip by auto; split; [apply press_last_low; auto|auto]; fail).
    + rewrite (press_act _ _ _ DC) by discriminate. unfold aaction_on. rewrite DC.
      destruct Y as (A&B&C&D). unfold LedInv. rewrite toggle_caps_val by auto.
      assert (CU : a_cur (atoggle_caps y) = a_cur y) by (unfold atoggle_caps; cbn [a_cur put_mod]; apply aact_cur).
      assert (LL : last_low (atoggle_caps y)) by (unfold last_low, atoggle_caps; cbn [a_last put_mod]; rewrite aact_last; exact A).
      rewrite CU. split; [exact LL|]. split; [lia|]. split; intros E; rewrite toggle_log by auto;
        unfold caps_led; rewrite E; cbn [led fold_right led_step N.eqb]; rewrite Nat.eqb_refl; auto.
    + rewrite (press_act _ _ _ DC) by discriminate. unfold aaction_on. rewrite DC. apply select_led; auto.
    + rewrite (press_act _ _ _ DC) by discriminate. unfold aaction_on. rewrite DC. exact Y.
  - intros rd r c x _ I Hr Hc Hk _ HD. generalize (code_now x r c). intros code.
    set (y := accept r c false x). assert (Y : LedInv y) by exact I.
    assert (Ky : (a_cur y < 4)%N) by exact Hk. clearbody y. clear I Hk HD x.
    destruct (decode code) eqn:DC;
      try (destruct Y as (A&B&C&D); unfold LedInv; rewrite release_caps, release_cur, release_quiet by (auto; intros; congruence);
           split; [apply release_last_low; auto|auto]; fail).
    + rewrite (release_act _ _ _ DC) by discriminate. unfold aaction_off. rewrite DC. apply select_led; auto.
    + rewrite (release_act _ _ _ DC) by discriminate. unfold aaction_off. rewrite DC. exact Y.
Qed.

Definition caps_val (s : kb) : N := if caps_on s then 1%N else 0%N.
Lemma caps_val_ok : forall a s, Rel a s -> LedInv a -> caps_val s = m_caps (a_mod a).
Proof.
  intros a s H (_&B&_). unfold caps_val, caps_on. rewrite (rl_mod _ _ H).
  assert (X : m_caps (a_mod a) = 0%N \/ m_caps (a_mod a) = 1%N) by lia. destruct X as [-> | ->]; reflexivity.
Qed.

(** The CAPS LED never shows the wrong state once driven; on keyboard 2 it is
    always driven.  Missing: keyboard 0 before the first CAPS press after being
    selected. *)
Theorem C35_caps_led_partial : forall rds s, run rds = Ok s ->
  (k_cur s = 0%N -> shown LED3 s = None \/ shown LED3 s = Some (caps_val s)) /\
  (k_cur s = 2%N -> shown LED1 s = Some (caps_val s)).
Proof.
  intros rds s H. destruct (reach _ _ H) as [a [A RL]]. pose proof (led_inv _ _ A) as I.
  rewrite (caps_val_ok _ _ RL I), !(shown_ok _ _ _ RL), (rl_cur _ _ RL). destruct I as (_&_&C&D). auto.
Qed.
Print Assumptions C35_caps_led_partial.

(** Whenever CAPS LOCK changes on keyboard 0 or 2, its LED is driven to the new
    state in the same tick, unless the keyboard selection changes in it. *)
Lemma select_init : forall i a, aselect i a = a \/
  (exists l, a_log (aselect i a) = l ++ EvArchInit :: a_log a /\
             (if (i =? 4)%N then True else Forall outev l)).
Proof.
  intros i a. unfold aselect. destruct (i =? a_cur a)%N; [auto|]. destruct (i <? 6)%N; [|auto]. right.
  unfold aswitch, atoggle_caps.
  set (a1 := note EvArchInit _). change (EvArchInit :: a_log a) with (a_log a1). clearbody a1.
  destruct (toggles_caps i); cbn zeta.
  - destruct (aact_log (if (N.lxor (m_caps (a_mod a1)) 1 =? 0)%N then V_SET_LO else V_SET_HI) VCAPS_LED a1) as [l [L1 L2]].
    destruct (i =? 4)%N; cbn [a_log note put_log put_mod]; rewrite L1; [|eauto]. exists (EvStrobeNeg :: l). auto.
  - destruct (i =? 4)%N; cbn [a_log note put_log]; [exists [EvStrobeNeg]|exists []]; auto.
Qed.

Lemma select_caps_lt : forall i a, (m_caps (a_mod a) < 2)%N -> (m_caps (a_mod (aselect i a)) < 2)%N.
Proof.
  intros i a B. unfold aselect. destruct (i =? a_cur a)%N; auto. destruct (i <? 6)%N; auto.
  unfold aswitch. destruct (toggles_caps i) eqn:T; [|destruct (i =? 4)%N; exact B].
  assert (X : (m_caps (a_mod (atoggle_caps (note EvArchInit (put_lev (lev (wiring i)) (put_cur i a))))) < 2)%N)
    by (rewrite toggle_caps_val by exact B; lia).
  destruct (i =? 4)%N; exact X.
Qed.

Definition CapsJ (a0 a : akb) : Prop :=
  last_low a /\ (m_caps (a_mod a) < 2)%N /\ exists l, a_log a = l ++ a_log a0 /\
  (In EvArchInit l \/ (a_cur a = a_cur a0 /\
     (m_caps (a_mod a) = m_caps (a_mod a0) \/ In (EvOut (caps_led (a_cur a0)) (m_caps (a_mod a))) l))).

(** [a] after steps that neither select a keyboard nor touch CAPS LOCK. *)
Lemma capsJ_more : forall a0 a b l, CapsJ a0 a -> a_log b = l ++ a_log a -> last_low b ->
  m_caps (a_mod b) = m_caps (a_mod a) -> a_cur b = a_cur a -> CapsJ a0 b.
Proof.
  intros a0 a b l (L&M&l0&E&D) EL LB MB CB. split; auto. rewrite MB, CB. split; auto.
  exists (l ++ l0). rewrite EL, E, app_assoc. split; auto.
  destruct D as [D|[D1 [D2|D2]]]; [left|right; split; auto|right; split; auto]; [|right]; apply in_or_app; auto.
Qed.
Lemma capsJ_select : forall a0 a i, CapsJ a0 a -> CapsJ a0 (aselect i a).
Proof.
  intros a0 a i J. destruct (select_init i a) as [->|[l [E _]]]; auto.
  destruct J as (L&M&l0&E0&D). split; [unfold last_low; rewrite select_last; exact L|].
  split; [apply select_caps_lt; auto|].
  exists (l ++ EvArchInit :: l0). rewrite E, E0, <- app_assoc. split; auto. left. apply in_or_app. right. left. auto.
Qed.
Lemma capsJ_press : forall a0 a code, CapsJ a0 a -> (a_cur a0 = 0 \/ a_cur a0 = 2)%N ->
  CapsJ a0 (apress code a).
Proof.
  intros a0 a code J H0.
  destruct (decode code) eqn:DC;
    try (destruct (press_log code a) as [l [E _]]; apply (capsJ_more a0 a _ l); auto;
         [apply press_last_low; apply J | apply press_caps; intros; congruence | apply press_cur; intros; congruence]; fail).
  - rewrite (press_act _ _ _ DC) by discriminate. unfold aaction_on. rewrite DC.
    destruct J as (L&M&l&E&D).
    split; [unfold last_low, atoggle_caps; cbn [a_last put_mod]; rewrite aact_last; exact L|].
    rewrite toggle_caps_val by auto. split; [lia|].
    assert (CU : a_cur (atoggle_caps a) = a_cur a) by (unfold atoggle_caps; cbn [a_cur put_mod]; apply aact_cur).
    destruct D as [D|[D1 D2]].
    + unfold atoggle_caps. cbn [a_log put_mod].
      match goal with |- context [aact ?f ?v a] => destruct (aact_log f v a) as [l2 [-> _]] end.
      exists (l2 ++ l). rewrite E, app_assoc. split; auto. left. apply in_or_app. auto.
    + rewrite toggle_log by (auto; rewrite D1; auto). rewrite CU, D1.
      exists (EvOut (caps_led (a_cur a0)) (1 - m_caps (a_mod a)) :: l). rewrite E. split; auto.
      right. split; auto. right. left. auto.
  - rewrite (press_act _ _ _ DC) by discriminate. unfold aaction_on. rewrite DC. apply capsJ_select; auto.
Qed.
Lemma capsJ_release : forall a0 a code, CapsJ a0 a -> CapsJ a0 (arelease code a).
Proof.
  intros a0 a code J.
  destruct (decode code) eqn:DC;
    try (destruct (release_log code a) as [l [E _]]; apply (capsJ_more a0 a _ l); auto;
         [apply release_last_low; apply J | apply release_caps; intros; congruence | apply release_cur; intros; congruence]; fail).
  rewrite (release_act _ _ _ DC) by discriminate. unfold aaction_off. rewrite DC. apply capsJ_select; auto.
Qed.

Theorem C35_change_drives_led : forall rds rd s s', run rds = Ok s -> run (rds ++ [rd]) = Ok s' ->
  (k_cur s = 0 \/ k_cur s = 2)%N -> caps_on s' <> caps_on s ->
  exists l, events s' = events s ++ l /\
    (In EvArchInit l \/ In (EvOut (caps_led (k_cur s)) (caps_val s')) l).
Proof.
  intros rds rd s s' H H' HC HN. destruct (reach _ _ H) as [a [A RL]]. destruct (reach _ _ H') as [a' [A' RL']].
  pose proof (caps_val_ok _ _ RL (led_inv _ _ A)) as V. pose proof (caps_val_ok _ _ RL' (led_inv _ _ A')) as V'.
  pose proof (led_inv _ _ A) as (L&M&_&_).
  unfold arun in A'. rewrite aticks_app in A'. fold (arun rds) in A'. rewrite A in A'.
  apply obind_some in A'. destruct A' as [a0 [X A']]. inv X.
  change (aticks [rd] a0) with (obind (atick rd a0) (aticks [])) in A'. apply obind_some in A'. destruct A' as [b [A' X]].
  change (Some b = Some a') in X. inv X.
  rewrite (events_ok _ _ RL), (events_ok _ _ RL'), V'. rewrite (rl_cur _ _ RL) in *.
  match goal with T : atick rd ?z = Some a' |- _ => pose proof (tick_ind (CapsJ z) rd z a' T) as TI end.
  match type of TI with (a_cur ?z < 6)%N -> _ => assert (J : CapsJ z a') end.
  { apply TI; [apply (rl_lt _ _ RL)| |].
    - split; [unfold last_low; rewrite send_last; exact L|]. rewrite send_mod. split; [exact M|].
      match goal with |- context [asend ?z] => assert (X : exists l, a_log (asend z) = l ++ a_log z) end.
      { unfold asend. destruct (a_qm _); [destruct (a_qk _) as [|n q]; [exists []; auto|destruct (n <? 0xA0)%N;
          [exists [EvSend n]; auto|exists []; auto]]|eexists [_; _]; reflexivity]. }
      destruct X as [l X]. exists l. split; auto. right. rewrite send_cur. auto.
    - intros r c x y Hr Hr' Hc Hx J K. destruct K; auto.
      + destruct J as (J1&J2&J3). split; [apply held_last_low; auto|]. rewrite held_mod, held_log, held_cur by auto. auto.
      + apply capsJ_press; auto.
      + apply capsJ_release; auto. }
  destruct J as (_&_&l&E&D). exists (rev l). rewrite E, rev_app_distr. split; auto.
  destruct D as [D|[_ [D|D]]]; [left; apply in_rev in D; auto| |right; apply in_rev in D; auto].
  exfalso. apply HN. unfold caps_val in V, V'. rewrite D, <- V in V'. destruct (caps_on s), (caps_on s'); congruence.
Qed.
Print Assumptions C35_change_drives_led.

(** CAPS pressed on keyboard 0. *)
Example C35_example :
  obs (fun s => (k_cur s, caps_on s, shown LED3 s)) (run (hold 12 [(5, 2)])) = Some (0%N, true, Some 1%N) /\
  obs (fun s => (k_cur s, caps_on s, shown LED1 s)) (run (hold 12 [(8, 1)])) = Some (2%N, true, Some 1%N).
Proof. vm_compute. auto. Qed.

(** Mode switch 1 closed and opened again: CAPS LOCK is on and the CAPS LED of
    keyboard 0 has not been driven since the hardware was initialised. *)
Theorem C35_caps_led_refuted : exists rds s, run rds = Ok s /\ k_cur s = 0%N /\ caps_on s = true /\ shown LED3 s = None.
Proof.
  exists (hold 12 [(8, 1)] ++ hold 12 []).
  assert (X : obs (fun s => (k_cur s, caps_on s, shown LED3 s)) (run (hold 12 [(8, 1)] ++ hold 12 [])) = Some (0%N, true, None))
    by (vm_compute; reflexivity).
  apply obs_some in X. destruct X as [s [E X]]. exists s. inversion X. auto.
Qed.
Print Assumptions C35_caps_led_refuted.

(** ** C41 *)
(** Polarity commanded since the last hardware initialisation. *)
Definition pol_step (o : option bool) (e : event) : option bool :=
  match e with EvArchInit => None | EvStrobePos => Some true | EvStrobeNeg => Some false | _ => o end.
Definition polarity (s : kb) : option bool := fold_left pol_step (events s) None.
(** The hardware initialisation selects positive polarity. *)
Definition strobe_positive (s : kb) : bool := match polarity s with Some p => p | None => true end.

Definition pol (log : list event) : option bool := fold_right (fun e o => pol_step o e) None log.
Lemma polarity_ok : forall a s, Rel a s -> polarity s = pol (a_log a).
Proof.
  intros a s H. unfold polarity, pol. rewrite (events_ok _ _ H).
  rewrite <- (rev_involutive (a_log a)) at 2. symmetry. apply (fold_left_rev_right (fun e o => pol_step o e)).
Qed.
Lemma pol_skip : forall l log, Forall outev l -> pol (l ++ log) = pol log.
Proof.
  intros l log H. induction H as [|e l H HF IH]; auto. cbn [app pol fold_right].
  fold (pol (l ++ log)). destruct e; cbn in H; try contradiction; auto.
Qed.
Lemma free_outev : forall l, Forall led_free l -> Forall outev l.
Proof. intros l H. eapply Forall_impl; [|exact H]. intros []; cbn; auto. Qed.

Definition strobe_codes (k : N) (m r c : nat) (code : N) : bool :=
  match decode code with
  | AStrobe => (r =? 8) && (c =? 6)
  | AMapsel n => negb ((r =? 8) && (c =? 6))
  | _ => negb ((r =? 8) && (c =? 6))
  end.
Lemma strobe_codes_ok : all_codes strobe_codes = true.
Proof. vm_compute. reflexivity. Qed.

Definition PolInv (a : akb) : Prop :=
  last_low a /\ ((a_cur a < 4)%N -> forall p, pol (a_log a) = Some p -> p = a_dn a 8 6).

Lemma pol_select : forall i a, PolInv a -> PolInv (aselect i a).
Proof.
  intros i a I. destruct (N.eqb_spec i 4).
  - destruct (select_init i a) as [->|[l [E _]]]; auto. split.
    + unfold last_low. rewrite select_last. apply I.
    + subst i. rewrite select_cur by lia. lia.
  - destruct (select_init i a) as [->|[l [E F]]]; auto. split.
    + unfold last_low. rewrite select_last. apply I.
    + intros _ p. rewrite E. replace (i =? 4)%N with false in F by lia. rewrite pol_skip by exact F.
      intros X. discriminate X.
Qed.

Lemma pol_inv : forall rds a, arun rds = Some a -> PolInv a.
Proof.
  intros rds a. apply (ainv (fun _ => True)) with (rds := rds); [ | | | | | |apply True_all].
  - split; [exact (N.le_refl 0xA0)|]. intros _ p X. discriminate X.
  - intros x [A B]. unfold PolInv, last_low in *. destruct (asend_dn x) as [-> _]. rewrite send_last, send_cur.
    assert (E : pol (a_log (asend x)) = pol (a_log x)).
    { unfold asend. destruct (a_qm x); [|reflexivity]. destruct (a_qk x); [reflexivity|].
      destruct (n <? 0xA0)%N; reflexivity. }
    rewrite E. auto.
  - intros x y H. exact H.
  - intros rd r c x _ [A B] Hr Hc Hk _ _. unfold PolInv. destruct (aheld_dn (code_now x r c) x) as [-> _].
    rewrite held_cur, held_log by auto. split; [apply held_last_low; auto|auto].
  - intros rd r c x _ [A B] Hr Hc Hk _ HD.
    pose proof (code_now_check _ out_codes_ok x r c Hk Hr Hc) as O.
    pose proof (code_now_check _ strobe_codes_ok x r c Hk Hr Hc) as SC. unfold strobe_codes in SC.
    assert (Y : negb ((r =? 8) && (c =? 6)) = true -> PolInv (accept r c true x)).
    { intros NE. split; [exact A|]. cbn [a_cur a_log a_dn accept put_dn put_ct].
      rewrite set2_other; [exact B|]. apply negb_true_iff in NE. lia. }
    destruct (decode (code_now x r c)) eqn:DC; 
      try (specialize (Y SC); destruct Y as [_ Y]; unfold PolInv; rewrite press_cur by (intros; congruence);
           destruct (apress_dn (code_now x r c) (accept r c true x)) as [-> _];
           destruct (press_quiet _ _ _ _ _ (accept r c true x) O Hk) as [l [-> L]]; try (intros; congruence);
           rewrite pol_skip by (apply free_outev; auto); split; [apply press_last_low; exact A|exact Y]; fail).
    + rewrite (press_act _ _ _ DC) by discriminate. unfold aaction_on. rewrite DC. specialize (Y SC).
      unfold PolInv, last_low, atoggle_caps. cbn [a_last a_cur a_log a_dn put_mod].
      match goal with |- context [aact ?f ?v ?z] => destruct (aact_log f v z) as [l [-> L]];
        rewrite (aact_last f v z), (aact_cur f v z); destruct (aact_dn f v z) as [-> _] end.
      rewrite pol_skip by exact L. exact Y.
    + rewrite (press_act _ _ _ DC) by discriminate. unfold aaction_on. rewrite DC. apply pol_select. auto.
    + rewrite (press_act _ _ _ DC) by discriminate. unfold aaction_on. rewrite DC.
      assert (r = 8 /\ c = 6) as [-> ->] by (clear -SC; lia). split; [exact A|]. intros _ p.
      cbn [a_log note put_log pol fold_right pol_step a_dn accept put_dn]. rewrite set2_same. congruence.
  - intros rd r c x _ [A B] Hr Hc Hk _ HD.
    pose proof (code_now_check _ strobe_codes_ok x r c Hk Hr Hc) as SC. unfold strobe_codes in SC.
    assert (Y : negb ((r =? 8) && (c =? 6)) = true -> PolInv (accept r c false x)).
    { intros NE. split; [exact A|]. cbn [a_cur a_log a_dn accept put_dn put_ct].
      rewrite set2_other; [exact B|]. apply negb_true_iff in NE. lia. }
    destruct (decode (code_now x r c)) eqn:DC; 
      try (specialize (Y SC); destruct Y as [_ Y]; unfold PolInv;
           rewrite release_cur, release_quiet by (auto; intros; congruence);
           destruct (arelease_dn (code_now x r c) (accept r c false x)) as [-> _];
           split; [apply release_last_low; exact A|exact Y]; fail).
    + rewrite (release_act _ _ _ DC) by discriminate. unfold aaction_off. rewrite DC. apply pol_select. auto.
    + rewrite (release_act _ _ _ DC) by discriminate. unfold aaction_off. rewrite DC.
      assert (r = 8 /\ c = 6) as [-> ->] by (clear -SC; lia). split; [exact A|]. intros _ p.
      cbn [a_log note put_log pol fold_right pol_step a_dn accept put_dn]. rewrite set2_same. congruence.
Qed.

(** A polarity commanded since the last initialisation is that of the switch
    (row 8, column 6).  Missing: nothing is commanded at start-up or after a
    keyboard change. *)
Theorem C41_strobe_follows_switch_partial : forall rds s p, run rds = Ok s -> (k_cur s < 4)%N ->
  polarity s = Some p -> p = down s 8 6.
Proof.
  intros rds s p H HC HP. destruct (reach _ _ H) as [a [A RL]]. destruct (pol_inv _ _ A) as [_ I].
  rewrite (down_ok _ _ _ _ RL) by lia. rewrite (rl_cur _ _ RL) in HC. apply I; auto.
  rewrite <- (polarity_ok _ _ RL). auto.
Qed.
Print Assumptions C41_strobe_follows_switch_partial.

Example C41_example :
  obs (fun s => (k_cur s, polarity s)) (run (hold 12 [(8, 6)])) = Some (0%N, Some true) /\
  obs (fun s => (k_cur s, polarity s)) (run (hold 12 [(8, 6)] ++ hold 12 [])) = Some (0%N, Some false).
Proof. vm_compute. auto. Qed.

(** Switch open (negative) but positive polarity: at power-up, and after a
    keyboard change following an explicit selection. *)
Theorem C41_strobe_follows_switch_refuted :
  (exists s, run [] = Ok s /\ down s 8 6 = false /\ strobe_positive s = true) /\
  (exists rds s, run rds = Ok s /\ events s = [EvArchInit; EvStrobePos; EvStrobeNeg; EvArchInit] /\
     down s 8 6 = false /\ strobe_positive s = true).
Proof.
  split.
  - assert (X : obs (fun s => (down s 8 6, strobe_positive s)) (run []) = Some (false, true)) by (vm_compute; reflexivity).
    apply obs_some in X. destruct X as [s [E X]]. exists s. inversion X. auto.
  - exists (hold 12 [(8, 6)] ++ hold 12 [] ++ hold 12 [(8, 0)]).
    assert (X : obs (fun s => (events s, down s 8 6, strobe_positive s)) (run (hold 12 [(8, 6)] ++ hold 12 [] ++ hold 12 [(8, 0)])) =
      Some ([EvArchInit; EvStrobePos; EvStrobeNeg; EvArchInit], false, true)) by (vm_compute; reflexivity).
    apply obs_some in X. destruct X as [s [E X]]. exists s. split; auto.
    assert (X1 : events s = [EvArchInit; EvStrobePos; EvStrobeNeg; EvArchInit]) by congruence.
    assert (X2 : down s 8 6 = false) by congruence. assert (X3 : strobe_positive s = true) by congruence.
    auto.
Qed.
Print Assumptions C41_strobe_follows_switch_refuted.
