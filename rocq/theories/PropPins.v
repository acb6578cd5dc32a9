(** The LEDs and outputs of a board over whole runs: C76, C77. *)
From Coq Require Import List NArith ZArith Arith Bool Lia.
From Coq Require Import ZifyBool ZifyNat ZifyN.
From Verif Require Import Base Lib Buffer BufferSpec BufferProofs Repeat Devices DevSpec DevProofs
     Modifiers Hook KeymapData Asdf KeySpec KeyRef Obs Frames PropModState PropRepeatMode PropLeds PropHold PropOutputs.
From Verif Require Avr Arch328p Arch2560 PropArch328 PropArch2560 PropHost328 PropHost2560 PropPins328 PropPins2560.
From Verif Require Import PinSpec PropHost System PropSystem.
Import ListNotations.

(** ** C76 *)
Lemma first_call : forall own sh led p b l, expected own sh led p b (EvArchInit :: l) = expected own sh led p b l.
Proof. reflexivity. Qed.

(** On either board, from reset on, whatever happens at the keys: every LED and
    output pin shows the value of the last call of the run on one of its
    devices, in the manner of that device. *)
Theorem C76_output_pins : forall mms s h, run (map seen mms) = Ok s -> Avr.at_reset h ->
  (forall ser x, exists h', sys_run (board_328p false ser x) mms h = Ok (s, h') /\
     forall p b, dev328 p b = true -> Avr.drive (Avr.io h') p b = expected PropArch328.own PropArch328.shows led328 p b (events s)) /\
  (forall x, exists h', sys_run (board_2560 false x) mms h = Ok (s, h') /\
     forall p b, dev2560 p b = true -> Avr.drive (Avr.io h') p b = expected PropArch2560.own PropArch2560.shows led2560 p b (events s)).
Proof.
  intros mms s h E HR. split.
  - intros ser x. pose proof (sys_328p false ser x mms h) as X. rewrite E in X. destruct X as (h'&l&X1&X2&X3).
    exists h'. split; [exact X1|]. intros p b HD. rewrite X3, first_call, X2. apply PropPins328.C76_pins_328p; auto.
  - intros x. pose proof (sys_2560 false x mms h) as X. rewrite E in X. destruct X as (h'&l&X1&X2&X3).
    exists h'. split; [exact X1|]. intros p b HD. rewrite X3, first_call, X2. apply PropPins2560.C76_pins_2560; auto.
Qed.
Print Assumptions C76_output_pins.

(** ** C77 *)
(** Whether LED [d] of a board is lit (328p: LED1 hangs on its pin, the others
    on inverters; 2560: all hang on their pins). *)
Definition lit_328p (d : nat) (g : Avr.regs) : bool :=
  match d with
  | 10 => match Avr.drive g Avr.PC 4 with Avr.Low => true | _ => false end
  | 11 => match Avr.drive g Avr.PB 5 with Avr.High => true | _ => false end
  | 12 => match Avr.drive g Avr.PB 4 with Avr.High => true | _ => false end
  | _ => false
  end.
Definition lit_2560 (d : nat) (g : Avr.regs) : bool :=
  match d with
  | 10 => match Avr.drive g Avr.PD 5 with Avr.Low => true | _ => false end
  | 11 => match Avr.drive g Avr.PD 6 with Avr.Low => true | _ => false end
  | 12 => match Avr.drive g Avr.PD 7 with Avr.Low => true | _ => false end
  | _ => false
  end.

(** A device that has its pin for itself. *)
Lemma last_shown : forall own p b d l o o', (forall d', own d' p b = (d' =? d)) ->
  (forall v, o = Some v -> o' = Some (d, v)) ->
  forall v, fold_left (led_step d) l o = Some v -> fold_left (last_step own p b) l o' = Some (d, v).
Proof.
  intros own p b d l. induction l as [|e l IH]; intros o o' HO HI v H; [apply HI; exact H|].
  cbn [fold_left] in *. refine (IH _ _ HO _ v H). intros w. destruct e; cbn [led_step last_step]; auto; [discriminate|].
  rewrite HO. destruct (d0 =? d) eqn:E; [|apply HI]. apply Nat.eqb_eq in E. subst d0. congruence.
Qed.
Lemma never_shown : forall own p b d l, (forall d', own d' p b = (d' =? d)) ->
  Forall (fun e => match e with EvOut d' _ => d' <> d | _ => True end) l -> fold_left (last_step own p b) l None = None.
Proof.
  intros own p b d l HO H. induction H as [|e l H HF IH]; [reflexivity|]. cbn [fold_left].
  destruct e; cbn [last_step]; auto. rewrite HO. replace (d0 =? d) with false by lia. exact IH.
Qed.

(** *** Keyboard 0 until the first change of keyboard *)
Definition inits (l : list event) : nat := length (filter (fun e => match e with EvArchInit => true | _ => false end) l).
Lemma inits_app : forall l k, inits (l ++ k) = inits l + inits k.
Proof. intros. unfold inits. rewrite filter_app, app_length. reflexivity. Qed.
Lemma inits_free : forall l, Forall led_free l -> inits l = 0.
Proof. intros l H. induction H as [|e l H HF IH]; [reflexivity|]. destruct e; try exact IH. contradiction. Qed.

Definition undriven (p : nat) (l : list event) : Prop := Forall (fun e => match e with EvOut d _ => d <> p | _ => True end) l.
Lemma und_free : forall l, Forall led_free l -> undriven LED3 l.
Proof. intros l H. eapply Forall_impl; [|exact H]. intros [] X; auto. cbn in X. tauto. Qed.

Definition First (a : akb) : Prop :=
  1 <= inits (a_log a) /\ (inits (a_log a) = 1 -> a_cur a = 0%N /\
    (led LED3 (a_log a) = Some (m_caps (a_mod a)) \/ undriven LED3 (a_log a) /\ m_caps (a_mod a) = 0%N)).

Lemma first_select : forall i a, First a -> First (aselect i a).
Proof.
  intros i a F. destruct (select_init i a) as [->|[l [E _]]]; auto. destruct F as [F _].
  assert (X : 2 <= inits (a_log (aselect i a))) by (rewrite E, inits_app; change (inits (EvArchInit :: a_log a)) with (S (inits (a_log a))); lia).
  split; [lia|]. intros Y. lia.
Qed.

Lemma first_quiet : forall a b l, First a -> a_cur b = a_cur a -> m_caps (a_mod b) = m_caps (a_mod a) ->
  a_log b = l ++ a_log a -> Forall led_free l -> First b.
Proof.
  intros a b l [F1 F2] C M E L. unfold First. rewrite E, inits_app, (inits_free _ L), C, M, led_skip by auto. split; [exact F1|].
  intros H. destruct (F2 H) as [G1 [G2|[G2 G3]]]; split; auto. right. split; auto. apply Forall_app. split; [apply und_free|]; auto.
Qed.

Lemma first_inv : forall rds a, arun rds = Some a -> LedInv a /\ First a.
Proof.
  intros rds a. apply (ainv (fun _ => True) (fun a => LedInv a /\ First a)) with (rds := rds); [ | | | | | |apply True_all].
  - split; [split; [exact (N.le_refl 0xA0)|]; split; [exact N.lt_0_2|]; split; [left; reflexivity|discriminate]|].
    split; [apply le_n|]. intros _. split; [reflexivity|]. right. split; [repeat constructor|reflexivity].
  - intros x [(A&B&C&D) F]. split.
    + unfold LedInv, last_low in *. rewrite send_last, send_mod, send_cur.
      assert (E : forall p, led p (a_log (asend x)) = led p (a_log x)).
      { intros p. unfold asend. destruct (a_qm x); [|reflexivity]. destruct (a_qk x); [reflexivity|].
        destruct (n <? 0xA0)%N; reflexivity. }
      rewrite !E. auto.
    + unfold First in *. rewrite send_mod, send_cur. unfold asend. destruct (a_qm x) as [|n q].
      * destruct (a_qk x) as [|n q]; [exact F|]. destruct (n <? 0xA0)%N; [|exact F]. destruct F as [F1 F2]. split; [exact F1|].
        intros H. destruct (F2 H) as [G1 [G2|[G2 G3]]]; split; auto. right. split; [|exact G3]. constructor; [exact I|exact G2].
      * destruct F as [F1 F2]. split; [exact F1|].
        intros H. destruct (F2 H) as [G1 [G2|[G2 G3]]]; split; auto. right. split; [|exact G3]. constructor; [exact I|]. constructor; [exact I|exact G2].
  - intros x y H. exact H.
  - intros rd r c x _ [(A&B&C&D) F] Hr Hc Hk _ _. unfold LedInv, First in *.
    rewrite held_mod, held_cur, held_log by auto. split; [split; [apply held_last_low; auto|auto]|exact F].
  - intros rd r c x _ I Hr Hc Hk _ HD.
    pose proof (code_now_check _ out_codes_ok x r c Hk Hr Hc) as O. generalize (code_now x r c) O. clear O.
    intros code O. set (y := accept r c true x). assert (Y : LedInv y /\ First y) by exact I.
    assert (Ky : (a_cur y < 4)%N) by exact Hk. clearbody y. clear I Hk HD. destruct Y as [Y F].
    destruct (decode code) eqn:DC;
      try (destruct Y as (A&B&C&D); unfold LedInv; rewrite press_caps, press_cur by (intros; congruence);
           destruct (press_quiet _ _ _ _ _ y O Ky) as [l [LL L]]; try (intros; congruence);
           split; [rewrite LL, !led_skip by auto; split; [apply press_last_low; auto|auto]|];
           apply (first_quiet y _ l F); auto; [apply press_cur|apply press_caps]; intros; congruence; fail).
    + rewrite (press_act _ _ _ DC) by discriminate. unfold aaction_on. rewrite DC.
      destruct Y as (A&B&C&D). unfold LedInv, First. rewrite toggle_caps_val by auto.
      assert (CU : a_cur (atoggle_caps y) = a_cur y) by (unfold atoggle_caps; cbn [a_cur put_mod]; apply aact_cur).
      assert (LL : last_low (atoggle_caps y)) by (unfold last_low, atoggle_caps; cbn [a_last put_mod]; rewrite aact_last; exact A).
      rewrite CU. split.
      * split; [exact LL|]. split; [lia|]. split; intros E; rewrite toggle_log by auto;
        unfold caps_led; rewrite E; cbn [led fold_right led_step N.eqb]; rewrite Nat.eqb_refl; auto.
      * destruct F as [F1 F2].
        assert (TL : exists l, a_log (atoggle_caps y) = l ++ a_log y /\ Forall outev l).
        { unfold atoggle_caps. cbn [a_log put_mod]. apply aact_log. }
        destruct TL as [l [TL OL]].
        assert (NI : inits l = 0). { clear -OL. induction OL as [|e l H HF IH]; [reflexivity|]. destruct e; try exact IH. contradiction. }
        rewrite TL, inits_app, NI, <- TL. split; [exact F1|]. intros H. destruct (F2 H) as [G1 _]. split; [exact G1|].
        left. rewrite toggle_log by auto. unfold caps_led. rewrite G1. reflexivity.
    + rewrite (press_act _ _ _ DC) by discriminate. unfold aaction_on. rewrite DC. split; [apply select_led|apply first_select]; auto.
    + rewrite (press_act _ _ _ DC) by discriminate. unfold aaction_on. rewrite DC. split; [exact Y|].
      destruct F as [F1 F2]. split; [exact F1|]. intros H. destruct (F2 H) as [G1 [G2|[G2 G3]]]; split; auto. right. split; [|exact G3]. constructor; [exact I|exact G2].
  - intros rd r c x _ I Hr Hc Hk _ HD. generalize (code_now x r c). intros code.
    set (y := accept r c false x). assert (Y : LedInv y /\ First y) by exact I.
    assert (Ky : (a_cur y < 4)%N) by exact Hk. clearbody y. clear I Hk HD x. destruct Y as [Y F].
    destruct (decode code) eqn:DC;
      try (destruct Y as (A&B&C&D); unfold LedInv, First; rewrite release_caps, release_cur, release_quiet by (auto; intros; congruence);
           split; [split; [apply release_last_low; auto|auto]|exact F]; fail).
    + rewrite (release_act _ _ _ DC) by discriminate. unfold aaction_off. rewrite DC. split; [apply select_led|apply first_select]; auto.
    + rewrite (release_act _ _ _ DC) by discriminate. unfold aaction_off. rewrite DC. split; [exact Y|].
      destruct F as [F1 F2]. split; [exact F1|]. intros H. destruct (F2 H) as [G1 [G2|[G2 G3]]]; split; auto. right. split; [|exact G3]. constructor; [exact I|exact G2].
Qed.

(** Full claim: on either board the CAPS LED is lit exactly while CAPS LOCK is
    on.  Proved: keyboard 2 on both boards, always; keyboard 0 on the 328p as long
    as no other keyboard has been selected; keyboard 0 on the 2560 from the first
    CAPS LOCK change since the keyboard was selected (on the 328p too).  Missing:
    the rest, refuted below. *)
Theorem C77_caps_led_lit_partial : forall mms s h, run (map seen mms) = Ok s -> Avr.at_reset h ->
  (forall ser x, exists h', sys_run (board_328p false ser x) mms h = Ok (s, h') /\
     (k_cur s = 2%N -> lit_328p LED1 (Avr.io h') = caps_on s) /\
     (k_cur s = 0%N -> inits (events s) = 1 \/ shown LED3 s <> None -> lit_328p LED3 (Avr.io h') = caps_on s)) /\
  (forall x, exists h', sys_run (board_2560 false x) mms h = Ok (s, h') /\
     (k_cur s = 2%N -> lit_2560 LED1 (Avr.io h') = caps_on s) /\
     (k_cur s = 0%N -> shown LED3 s <> None -> lit_2560 LED3 (Avr.io h') = caps_on s)).
Proof.
  intros mms s h E HR. destruct (C76_output_pins mms s h E HR) as [P Q].
  destruct (reach _ _ E) as [a [A RL]]. destruct (first_inv _ _ A) as [LI [_ F]].
  destruct (C35_caps_led_partial _ _ E) as [C0 C2].
  assert (V : forall v, caps_val s = v -> negb (v =? 0)%N = caps_on s) by (intros v <-; unfold caps_val; destruct (caps_on s); reflexivity).
  assert (S328_1 : forall v, shown LED1 s = Some v -> last_on PropArch328.own Avr.PC 4 (events s) = Some (LED1, v)).
  { intros v. apply (last_shown PropArch328.own Avr.PC 4 LED1); [|discriminate]. intros d. do 13 (destruct d as [|d]; [reflexivity|]). reflexivity. }
  assert (S328_3 : forall v, shown LED3 s = Some v -> last_on PropArch328.own Avr.PB 4 (events s) = Some (LED3, v)).
  { intros v. apply (last_shown PropArch328.own Avr.PB 4 LED3); [|discriminate]. intros d. do 13 (destruct d as [|d]; [reflexivity|]). reflexivity. }
  assert (S2560_1 : forall v, shown LED1 s = Some v -> last_on PropArch2560.own Avr.PD 5 (events s) = Some (LED1, v)).
  { intros v. apply (last_shown PropArch2560.own Avr.PD 5 LED1); [|discriminate]. intros d. do 13 (destruct d as [|d]; [reflexivity|]). reflexivity. }
  assert (S2560_3 : forall v, shown LED3 s = Some v -> last_on PropArch2560.own Avr.PD 7 (events s) = Some (LED3, v)).
  { intros v. apply (last_shown PropArch2560.own Avr.PD 7 LED3); [|discriminate]. intros d. do 13 (destruct d as [|d]; [reflexivity|]). reflexivity. }
  split.
  - intros ser x. destruct (P ser x) as [h' [X1 X2]]. exists h'. split; [exact X1|]. split.
    + intros K. specialize (C2 K). cbn [lit_328p LED1]. rewrite X2 by reflexivity. unfold expected. rewrite (S328_1 _ C2).
      cbn [PropArch328.shows LED1]. rewrite (V _ eq_refl). destruct (caps_on s); reflexivity.
    + intros K H. cbn [lit_328p LED3]. rewrite X2 by reflexivity. unfold expected. destruct (C0 K) as [N0|S0].
      * destruct H as [H|H]; [|contradiction]. rewrite (events_ok _ _ RL) in H.
        assert (H' : inits (a_log a) = 1).
        { rewrite <- H. unfold inits. clear. induction (a_log a) as [|e l IH]; [reflexivity|]. cbn [rev]. rewrite filter_app, app_length. cbn [filter]. destruct e; cbn; lia. }
        destruct (F H') as [_ [G|[G G3]]]; [rewrite (shown_ok _ _ _ RL) in N0; congruence|].
        assert (CO : caps_on s = false) by (unfold caps_on; rewrite (rl_mod _ _ RL), G3; reflexivity). rewrite CO.
        replace (last_on PropArch328.own Avr.PB 4 (events s)) with (@None (nat * N)); [reflexivity|].
        symmetry. apply (never_shown PropArch328.own Avr.PB 4 LED3).
        -- intros d. do 13 (destruct d as [|d]; [reflexivity|]). reflexivity.
        -- rewrite (events_ok _ _ RL). apply Forall_rev. exact G.
      * rewrite (S328_3 _ S0). cbn [PropArch328.shows LED3]. rewrite (V _ eq_refl). destruct (caps_on s); reflexivity.
  - intros x. destruct (Q x) as [h' [X1 X2]]. exists h'. split; [exact X1|]. split.
    + intros K. specialize (C2 K). cbn [lit_2560 LED1]. rewrite X2 by reflexivity. unfold expected. rewrite (S2560_1 _ C2).
      cbn [PropArch2560.shows LED1]. rewrite (V _ eq_refl). destruct (caps_on s); reflexivity.
    + intros K H. cbn [lit_2560 LED3]. rewrite X2 by reflexivity. unfold expected. destruct (C0 K) as [N0|S0]; [contradiction|].
      rewrite (S2560_3 _ S0). cbn [PropArch2560.shows LED3]. rewrite (V _ eq_refl). destruct (caps_on s); reflexivity.
Qed.
Print Assumptions C77_caps_led_lit_partial.

(** What is seen of a run on a board: keyboard, CAPS LOCK, CAPS LED lit. *)
Definition look (lit : nat -> Avr.regs -> bool) (d : nat) (o : outcome (kb * Avr.hw)) : option (N * bool * bool) :=
  match o with Ok (s, h) => Some (k_cur s, caps_on s, lit d (Avr.io h)) | Bad _ => None end.
Lemma look_some : forall lit d o k b l, look lit d o = Some (k, b, l) ->
  exists s h, o = Ok (s, h) /\ k_cur s = k /\ caps_on s = b /\ lit d (Avr.io h) = l.
Proof. intros lit d o k b l H. destruct o as [[s h]|u]; [|discriminate H]. exists s, h. cbn [look] in H. repeat split; congruence. Qed.

(** Keyboard 0 on the 2560: CAPS LOCK off at power-on, the CAPS LED lit. *)
Theorem C77_caps_led_lit_refuted : exists mms h s h', Avr.at_reset h /\ sys_run (board_2560 false (fun _ => 0%N)) mms h = Ok (s, h') /\
  k_cur s = 0%N /\ caps_on s = false /\ lit_2560 LED3 (Avr.io h') = true.
Proof.
  assert (X : look lit_2560 LED3 (sys_run (board_2560 false (fun _ => 0%N)) [] PropArch2560.hw0) = Some (0%N, false, true))
    by (vm_compute; reflexivity).
  apply look_some in X. destruct X as (s&h'&E&K&C&L). exists [], PropArch2560.hw0, s, h'. split; [repeat split|]. auto.
Qed.
Print Assumptions C77_caps_led_lit_refuted.

(** Keyboard 0 on the 328p, after mode switch 1 was closed and opened again:
    CAPS LOCK on, the CAPS LED dark. *)
Theorem C77_caps_led_lit_328p_refuted : exists mms h s h', Avr.at_reset h /\ sys_run (board_328p false false (fun _ => 0%N)) mms h = Ok (s, h') /\
  k_cur s = 0%N /\ caps_on s = true /\ lit_328p LED3 (Avr.io h') = false.
Proof.
  assert (X : look lit_328p LED3 (sys_run (board_328p false false (fun _ => 0%N)) (map steady (hold 12 [(8, 1)] ++ hold 12 [])) PropArch328.hw0) = Some (0%N, true, false))
    by (vm_compute; reflexivity).
  apply look_some in X. destruct X as (s&h'&E&K&C&L). exists (map steady (hold 12 [(8, 1)] ++ hold 12 [])), PropArch328.hw0, s, h'. split; [repeat split|]. auto.
Qed.
Print Assumptions C77_caps_led_lit_328p_refuted.

(** CAPS pressed on keyboard 0; keyboard 2 selected with mode switch 1, and
    CAPS pressed there. *)
Example C77_example :
  let P rds := look lit_328p LED3 (sys_run (board_328p false true (fun _ => 0xff%N)) (map steady rds) PropArch328.hw0) in
  let Q d rds := look lit_2560 d (sys_run (board_2560 false (fun _ => 0xff%N)) (map steady rds) PropArch2560.hw0) in
  P [] = Some (0%N, false, false) /\ P (hold 12 [(5, 2)]) = Some (0%N, true, true) /\
  P (hold 12 [(5, 2)] ++ hold 12 [] ++ hold 12 [(5, 2)]) = Some (0%N, false, false) /\
  Q LED3 (hold 12 [(5, 2)]) = Some (0%N, true, true) /\
  Q LED3 (hold 12 [(5, 2)] ++ hold 12 [] ++ hold 12 [(5, 2)]) = Some (0%N, false, false) /\
  Q LED1 (hold 12 [(8, 1)]) = Some (2%N, true, true) /\
  Q LED1 (hold 12 [(8, 1)] ++ hold 12 [(8, 1); (0, 0)]) = Some (2%N, false, false) /\
  obs (fun s => inits (events s)) (run (hold 12 [(5, 2)])) = Some 1.
Proof. vm_compute. repeat split. Qed.

(** The outputs of the 328p: LED3 off and on; OUT1 never called, floating; the
    power LED, which keyboard 0 switches on. *)
Example C76_example :
  let l rds := obs (fun s => map (fun pb => expected PropArch328.own PropArch328.shows led328 (fst pb) (snd pb) (events s))
                        [(Avr.PB, 4%N); (Avr.PC, 5%N); (Avr.PC, 4%N)]) (run rds) in
  l [] = Some [Avr.Low; Avr.Float; Avr.Low] /\ l (hold 12 [(5, 2)]) = Some [Avr.High; Avr.Float; Avr.Low].
Proof. vm_compute. repeat split. Qed.
