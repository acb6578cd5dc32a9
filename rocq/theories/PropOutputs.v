(** The RESET and CLEAR SCREEN outputs: C59. *)
From Coq Require Import List NArith ZArith Arith Bool Lia.
From Coq Require Import ZifyBool ZifyNat ZifyN.
From Verif Require Import Base Lib Buffer BufferSpec BufferProofs Repeat Devices DevSpec DevProofs
     Modifiers Hook KeymapData Asdf KeySpec KeyRef Obs Frames PropModState PropRepeatMode PropLeds PropQueues PropHold.
Import ListNotations.

(** RESET and CLEAR are on one key: (2, 0) of keyboards 0 and 1, (6, 2) of
    keyboards 2 and 3. *)
Definition panel_key (k : N) : nat * nat := if (k <? 2)%N then (2, 0) else (6, 2).
(** Everything done to the two outputs, and every pulse delay. *)
Definition panel (e : event) : bool :=
  match e with EvOut d _ => (d =? OUT3_OPEN_HI) || (d =? OUT1_OPEN_LO) | EvPulseShort | EvPulseLong => true | _ => false end.
Definition reset_pulse : list event := [EvOut OUT3_OPEN_HI 0; EvPulseShort; EvOut OUT3_OPEN_HI 1].
Definition clear_pulse : list event := [EvOut OUT1_OPEN_LO 1; EvPulseLong; EvOut OUT1_OPEN_LO 0].

(** ** Proof *)
Definition panel_codes (k : N) (m r c : nat) (code : N) : bool :=
  let at_key := (r =? fst (panel_key k)) && (c =? snd (panel_key k)) in
  match decode code with
  | AVout n => at_key && (((m =? 3) && (n =? 1)) || ((m =? 1) && (n =? 2)))
  | AVled _ => false
  | AMapsel _ => (r =? 8) && negb (at_key && ((m =? 3) || (m =? 1)))
  | _ => negb (at_key && ((m =? 3) || (m =? 1)))
  end.
Lemma panel_codes_ok : all_codes panel_codes = true.
Proof. vm_compute. reflexivity. Qed.

Definition pulses (d : action) : list event :=
  match d with AVout n => if n =? 1 then reset_pulse else if n =? 2 then clear_pulse else [] | _ => [] end.

Definition rest (a : akb) : Prop := (a_cur a < 4)%N -> a_lev a OUT3_OPEN_HI = 1%N /\ a_lev a OUT1_OPEN_LO = 0%N.
Definition away (p : nat) : Prop := p <> OUT3_OPEN_HI /\ p <> OUT1_OPEN_LO.

Lemma drive_away : forall g l lv, Forall away l ->
  filter panel (snd (drive g l lv)) = [] /\
  fst (drive g l lv) OUT3_OPEN_HI = lv OUT3_OPEN_HI /\ fst (drive g l lv) OUT1_OPEN_LO = lv OUT1_OPEN_LO.
Proof.
  induction l as [|p l IH]; intros lv H; cbn [drive]; auto. inv H. destruct H2 as [P1 P2].
  destruct (IH (set_at lv p (g (lv p))) H3) as (A&B&C). destruct (drive g l _) as [lv2 ev]. cbn [fst snd] in *.
  rewrite B, C. unfold set_at. cbn [filter panel].
  destruct (Nat.eqb_spec p OUT3_OPEN_HI); [congruence|]. destruct (Nat.eqb_spec p OUT1_OPEN_LO); [congruence|].
  destruct (Nat.eqb_spec OUT3_OPEN_HI p); [congruence|]. destruct (Nat.eqb_spec OUT1_OPEN_LO p); [congruence|]. auto.
Qed.
Lemma set_away : forall (b : bool) v a, Forall away (own (wiring (a_cur a)) v) ->
  let a' := aact (if b then V_SET_HI else V_SET_LO) v a in
  (exists l, a_log a' = l ++ a_log a /\ filter panel (rev l) = []) /\
  a_lev a' OUT3_OPEN_HI = a_lev a OUT3_OPEN_HI /\ a_lev a' OUT1_OPEN_LO = a_lev a OUT1_OPEN_LO.
Proof.
  intros b v a H. cbn zeta. unfold aact. 
  assert (X : exists g, spec_action (if b then V_SET_HI else V_SET_LO) (own (wiring (a_cur a)) v) (a_lev a) = drive g (own (wiring (a_cur a)) v) (a_lev a))
    by (destruct b; eexists; reflexivity).
  destruct X as [g ->]. destruct (drive_away g _ (a_lev a) H) as (A&B&C). destruct (drive _ _ _) as [lv ev]. cbn [fst snd] in *.
  cbn [a_log a_lev put_log put_lev]. split; auto. exists (rev ev). rewrite rev_involutive. auto.
Qed.
Lemma led_away : forall k, (k < 6)%N -> Forall away (own (wiring k) VCAPS_LED).
Proof.
  intros k H. assert (X : forallb (fun p => negb (p =? OUT3_OPEN_HI) && negb (p =? OUT1_OPEN_LO)) (own (wiring k) VCAPS_LED) = true)
    by (kcases k; reflexivity).
  apply Forall_forall. intros p Hp. rewrite forallb_forall in X. specialize (X _ Hp). unfold away. split; intros ->; discriminate.
Qed.
Lemma shift_away : forall k, (k < 4)%N -> Forall away (own (wiring k) VSHIFT_LED).
Proof. intros k H. rewrite (own_shift _ H). constructor. Qed.

Lemma toggle_away : forall a, (a_cur a < 6)%N ->
  (exists l, a_log (atoggle_caps a) = l ++ a_log a /\ filter panel (rev l) = []) /\
  a_lev (atoggle_caps a) OUT3_OPEN_HI = a_lev a OUT3_OPEN_HI /\ a_lev (atoggle_caps a) OUT1_OPEN_LO = a_lev a OUT1_OPEN_LO.
Proof.
  intros a H. unfold atoggle_caps. cbn zeta. cbn [a_log a_lev put_mod].
  pose proof (set_away (negb (N.lxor (m_caps (a_mod a)) 1 =? 0)%N) VCAPS_LED a (led_away _ H)) as X. cbn zeta in X.
  destruct (N.lxor (m_caps (a_mod a)) 1 =? 0)%N; exact X.
Qed.
Lemma select_away : forall i a, rest a -> rest (aselect i a) /\ exists l, a_log (aselect i a) = l ++ a_log a /\ filter panel (rev l) = [].
Proof.
  intros i a R. unfold aselect. destruct (i =? a_cur a)%N; [split; [auto|exists []; auto]|].
  destruct (N.ltb_spec i 6); [|split; [auto|exists []; auto]]. unfold aswitch.
  set (a1 := note EvArchInit (put_lev (lev (wiring i)) (put_cur i a))).
  assert (R1 : rest a1).
  { intros H4. change (a_cur a1) with i in H4. change (a_lev a1) with (lev (wiring i)). kcases i; try lia; split; reflexivity. }
  assert (C1 : (a_cur a1 < 6)%N) by exact H.
  assert (L1 : a_log a1 = [EvArchInit] ++ a_log a) by reflexivity.
  assert (X : rest (if toggles_caps i then atoggle_caps a1 else a1) /\
    exists l, a_log (if toggles_caps i then atoggle_caps a1 else a1) = l ++ a_log a /\ filter panel (rev l) = []).
  { destruct (toggles_caps i); [|split; [auto|exists [EvArchInit]; auto]].
    destruct (toggle_away a1 C1) as ([l [E F]]&B&C). split.
    - unfold rest. rewrite B, C. intros Y. apply R1. revert Y. unfold atoggle_caps. cbn [a_cur put_mod]. rewrite aact_cur. auto.
    - exists (l ++ [EvArchInit]). rewrite E, L1, <- app_assoc. split; auto. rewrite rev_app_distr. cbn [rev app filter panel]. auto. }
  clearbody a1. destruct X as [X1 [l [X2 X3]]]. destruct (i =? 4)%N; [|eauto].
  split; [exact X1|]. exists (EvStrobeNeg :: l). cbn [a_log note put_log]. rewrite X2. split; auto.
  cbn [rev]. rewrite filter_app, X3. reflexivity.
Qed.

Lemma keep_away : forall a b, rest a -> a_cur b = a_cur a -> a_lev b = a_lev a -> a_log b = a_log a ->
  rest b /\ exists l, a_log b = l ++ a_log a /\ filter panel (rev l) = [].
Proof. intros a b R C L E. split; [unfold rest; rewrite C, L; exact R|]. exists []. auto. Qed.

Lemma press_panel : forall k m r c code a, panel_codes k m r c code = true -> (a_cur a < 4)%N -> rest a ->
  rest (apress code a) /\ exists l, a_log (apress code a) = l ++ a_log a /\ filter panel (rev l) = pulses (decode code).
Proof.
  intros k m r c code a PC H R.
  destruct (N.ltb_spec 0xA0 code) as [HI|LO].
  - unfold apress. replace (0xA0 <? code)%N with true by lia. unfold aaction_on. unfold panel_codes in PC.
    destruct (decode code) eqn:DC; try discriminate; cbn [pulses]; try (apply keep_away; auto; fail).
    + unfold aset_shift. cbn zeta. destruct (set_away (N.testbit 1 1) VSHIFT_LED a (shift_away _ H)) as (A&B&C).
      split; [|exact A]. unfold rest. cbn [a_cur a_lev put_mod]. rewrite aact_cur, B, C. exact R.
    + unfold aset_shift. cbn zeta.
      destruct (set_away (N.testbit (N.lor (m_shift (a_mod a)) 2) 1) VSHIFT_LED a (shift_away _ H)) as (A&B&C).
      split; [|exact A]. unfold rest. cbn [a_cur a_lev put_mod]. rewrite aact_cur, B, C. exact R.
    + unfold aset_shift. cbn zeta.
      destruct (set_away (N.testbit (N.lxor (m_shift (a_mod a)) 2) 1) VSHIFT_LED a (shift_away _ H)) as (A&B&C).
      split; [|exact A]. unfold rest. cbn [a_cur a_lev put_mod]. rewrite aact_cur, B, C. exact R.
    + destruct (toggle_away a ltac:(lia)) as (A&B&C). split; [|exact A]. unfold rest. rewrite B, C.
      unfold atoggle_caps. cbn [a_cur put_mod]. rewrite aact_cur. exact R.
    + apply select_away; auto.
    + split; [exact R|]. exists [EvStrobePos]. auto.
    + assert (HN : n = 1 \/ n = 2) by (clear - PC; lia). destruct (own_vout _ H) as [O1 O2]. destruct (R H) as [R1 R2].
      assert (F : fn (wiring (a_cur a)) 1 = V_PULSE_SHORT /\ fn (wiring (a_cur a)) 2 = V_PULSE_LONG).
      { clear - H. generalize dependent (a_cur a). intros q H. kcases q; try lia; split; reflexivity. }
      destruct F as [F1 F2]. unfold aact, rest.
      destruct HN as [-> | ->]; [rewrite F1, O1|rewrite F2, O2]; cbn [spec_action drive app];
        cbn [a_cur a_lev a_log put_log put_lev]; unfold set_at; cbn [Nat.eqb OUT3_OPEN_HI OUT1_OPEN_LO];
        change 8 with OUT3_OPEN_HI; change 3 with OUT1_OPEN_LO; rewrite ?R1, ?R2; (split; [auto|]);
        (eexists (rev [_; _; _]); split; [reflexivity|reflexivity]).
    + destruct (message _ _); apply keep_away; auto.
  - assert (P : pulses (decode code) = []).
    { destruct (N.eq_dec code 0xA0) as [->|]; [reflexivity|]. rewrite decode_high by lia. reflexivity. }
    rewrite P. unfold apress. replace (0xA0 <? code)%N with false by lia. cbn zeta.
    destruct (a_last a =? code)%N; apply keep_away; auto.
Qed.
Lemma release_panel : forall code a, (a_cur a < 4)%N -> rest a ->
  rest (arelease code a) /\ exists l, a_log (arelease code a) = l ++ a_log a /\ filter panel (rev l) = [].
Proof.
  intros code a H R. unfold arelease. destruct (0xA0 <? code)%N; [|destruct (a_last a =? code)%N; apply keep_away; auto].
  unfold aaction_off. destruct (decode code); try (apply keep_away; auto; fail).
  - unfold aset_shift. cbn zeta. destruct (set_away (N.testbit 0 1) VSHIFT_LED a (shift_away _ H)) as (A&B&C).
    split; [|exact A]. unfold rest. cbn [a_cur a_lev put_mod]. rewrite aact_cur, B, C. exact R.
  - apply select_away; auto.
  - split; [exact R|]. exists [EvStrobeNeg]. auto.
Qed.

(** One key. *)
Lemma panel_step : forall rd r c a a', key_step rd r c a = Some a' -> last_low a -> rest a -> r < 9 -> c < 8 ->
  last_low a' /\ rest a' /\ (r <> 8 -> a_cur a' = a_cur a) /\ (r <> 0 -> m_ctrl (a_mod a') = m_ctrl (a_mod a)) /\
  exists l, a_log a' = l ++ a_log a /\
    filter panel (rev l) = if negb (a_dn a r c) && a_dn a' r c then pulses (decode (code_now a r c)) else [].
Proof.
  intros rd r c a a' E L R Hr Hc. destruct (key_step_cases _ _ _ _ _ E) as [H1 H2|H1 H2|H0 H1 H2|H0 H1 H2 H3|H0 H1 H2 H3].
  - repeat (split; [auto|]). exists []. rewrite H2. auto.
  - repeat (split; [auto|]). exists []. cbn [a_dn put_ct]. destruct (a_dn a r c); auto.
  - destruct (aheld_dn (code_now a r c) a) as [D _]. split; [apply held_last_low; auto|].
    split; [unfold rest; rewrite held_cur, held_lev by auto; exact R|].
    rewrite held_cur, held_mod, held_log by auto. repeat (split; [auto|]). exists []. rewrite H2. auto.
  - pose proof (code_now_check _ panel_codes_ok a r c H0 Hr Hc) as P.
    pose proof (code_now_check _ ctrl_codes_ok a r c H0 Hr Hc) as CC. unfold ctrl_codes in CC.
    split; [apply press_last_low; exact L|].
    destruct (press_panel _ _ _ _ _ (accept r c true a) P H0 R) as [P1 P2]. split; auto.
    split. { intros N8. rewrite press_cur; auto. intros n X. unfold panel_codes in P. cbn zeta in P. rewrite X in P. lia. }
    split. { intros N0. rewrite press_ctrl; auto. intros X. rewrite X in CC. lia. }
    destruct (apress_dn (code_now a r c) (accept r c true a)) as [-> _]. cbn [a_dn accept put_dn]. rewrite set2_same, H2. exact P2.
  - pose proof (code_now_check _ panel_codes_ok a r c H0 Hr Hc) as P.
    pose proof (code_now_check _ ctrl_codes_ok a r c H0 Hr Hc) as CC. unfold ctrl_codes in CC.
    split; [apply release_last_low; exact L|].
    destruct (release_panel (code_now a r c) (accept r c false a) H0 R) as [P1 P2]. split; auto.
    split. { intros N8. rewrite release_cur; auto. intros n X. unfold panel_codes in P. cbn zeta in P. rewrite X in P. lia. }
    split. { intros N0. rewrite release_ctrl; auto. intros X. rewrite X in CC. lia. }
    rewrite H2. exact P2.
Qed.

(** Stretches of keys without the panel key. *)
Lemma panel_quiet : forall rd ps a a', keys_step rd ps a = Some a' -> last_low a -> rest a ->
  Forall (fun p => fst p < 9 /\ snd p < 8) ps ->
  Forall (fun p => fst p = 8) ps \/ Forall (fun p => fst p <> 8 /\ p <> panel_key (a_cur a)) ps ->
  last_low a' /\ rest a' /\ (Forall (fun p => fst p <> 8) ps -> a_cur a' = a_cur a) /\
  (Forall (fun p => fst p <> 0) ps -> m_ctrl (a_mod a') = m_ctrl (a_mod a)) /\
  exists l, a_log a' = l ++ a_log a /\ filter panel (rev l) = [].
Proof.
  induction ps as [|[r c] ps IH]; intros a a' E L R HF HP; cbn [keys_step] in E.
  - inv E. repeat (split; [auto|]). exists []. auto.
  - apply obind_some in E. destruct E as [a1 [E1 E]]. inv HF. cbn [fst snd] in H1. destruct H1 as (Hr&Hc).
    destruct (panel_step _ _ _ _ _ E1 L R Hr Hc) as (L1&R1&C1&M1&l1&G1&F1).
    assert (NP : (a_cur a < 4)%N -> (r, c) <> panel_key (a_cur a)).
    { intros _. destruct HP as [HP|HP]; inv HP; cbn [fst] in *.
      - unfold panel_key. destruct (a_cur a <? 2)%N; congruence.
      - tauto. }
    assert (F1' : filter panel (rev l1) = []).
    { destruct (negb (a_dn a r c) && a_dn a1 r c) eqn:B; auto. rewrite F1.
      destruct (key_step_cases _ _ _ _ _ E1) as [X1 X2|X1 X2|X0 X1 X2|X0 X1 X2 X3|X0 X1 X2 X3];
        try (cbn [a_dn put_ct] in B; rewrite ?X2 in B; try destruct (a_dn a r c); discriminate).
      pose proof (code_now_check _ panel_codes_ok a r c X0 Hr Hc) as P. unfold panel_codes in P. cbn zeta in P.
      destruct (decode (code_now a r c)); auto. exfalso.
      assert (r = fst (panel_key (a_cur a)) /\ c = snd (panel_key (a_cur a))) as [Z1 Z2] by (clear - P; lia).
      apply (NP X0). rewrite Z1, Z2. destruct (panel_key (a_cur a)); auto. }
    clear F1.
    assert (HP1 : Forall (fun p => fst p = 8) ps \/ Forall (fun p => fst p <> 8 /\ p <> panel_key (a_cur a1)) ps).
    { destruct HP as [HP|HP]; inv HP; cbn [fst] in *; [auto|]. right. rewrite C1 by tauto. auto. }
    destruct (IH a1 a' E L1 R1 H2 HP1) as (L2&R2&C2&M2&l2&G2&F2).
    split; auto. split; auto.
    split. { intros X. inv X. cbn [fst] in *. rewrite C2 by auto. auto. }
    split. { intros X. inv X. cbn [fst] in *. rewrite M2 by auto. auto. }
    exists (l2 ++ l1). rewrite G2, G1, app_assoc. split; auto. rewrite rev_app_distr, filter_app, F1', F2. auto.
Qed.

(** Rows beyond the ninth exist only while a keyboard without codes is selected:
    nothing happens there. *)
Lemma high_quiet : forall rd ps a a', keys_step rd ps a = Some a' -> (4 <= a_cur a)%N ->
  a_log a' = a_log a /\ a_mod a' = a_mod a /\ a_lev a' = a_lev a /\ a_cur a' = a_cur a.
Proof.
  induction ps as [|[r c] ps IH]; intros a a' E H; cbn [keys_step] in E.
  - inv E. auto.
  - apply obind_some in E. destruct E as [a1 [E1 E]].
    destruct (key_step_cases _ _ _ _ _ E1) as [X1 X2|X1 X2|X0 X1 X2|X0 X1 X2 X3|X0 X1 X2 X3]; try lia; apply IH in E; auto.
Qed.

(** The grid around the panel key. *)
Definition before_panel (k : N) : list (nat * nat) := if (k <? 2)%N then firstn 16 (grid 0 9) else firstn 50 (grid 0 9).
Definition after_panel (k : N) : list (nat * nat) :=
  if (k <? 2)%N then firstn 47 (skipn 17 (grid 0 9)) else firstn 13 (skipn 51 (grid 0 9)).
Definition row8 : list (nat * nat) := map (pair 8) (seq 0 8).
Lemma grid_panel : forall k, grid 0 9 = before_panel k ++ panel_key k :: after_panel k ++ row8.
Proof. intros k. unfold before_panel, panel_key, after_panel. destruct (k <? 2)%N; reflexivity. Qed.
Lemma keys_app : forall rd p q a, keys_step rd (p ++ q) a = obind (keys_step rd p a) (keys_step rd q).
Proof. induction p as [|[r c] p IH]; intros q a; auto. cbn [app keys_step]. destruct (key_step rd r c a); cbn [obind]; auto. Qed.

Lemma around_panel : forall k,
  Forall (fun p => fst p < 9 /\ snd p < 8) (before_panel k) /\ Forall (fun p => fst p < 9 /\ snd p < 8) (after_panel k) /\
  Forall (fun p => fst p <> 8 /\ p <> panel_key k) (before_panel k) /\ Forall (fun p => fst p <> 8 /\ p <> panel_key k) (after_panel k) /\
  Forall (fun p => fst p <> 0) (after_panel k) /\ Forall (fun p => snd p < 8 /\ is_shift (fst p) (snd p) = false) (after_panel k).
Proof.
  assert (X : forall k, forallb (fun p => (fst p <? 9) && (snd p <? 8) && negb (fst p =? 8) &&
       negb ((fst p =? fst (panel_key k)) && (snd p =? snd (panel_key k)))) (before_panel k ++ after_panel k) = true /\
     forallb (fun p => negb (fst p =? 0)) (after_panel k) = true).
  { intros k. unfold before_panel, panel_key, after_panel. destruct (k <? 2)%N; split; reflexivity. }
  intros k. destruct (X k) as [X1 X2]. rewrite forallb_app in X1. apply andb_true_iff in X1. destruct X1 as [X0 X1].
  rewrite forallb_forall in X0, X1, X2.
  assert (Y : forall p q : nat * nat, p = q -> fst p = fst q /\ snd p = snd q) by (intros; subst; auto).
  repeat split; apply Forall_forall; intros p Hp;
    try (specialize (X0 _ Hp)); try (specialize (X1 _ Hp)); try (specialize (X2 _ Hp)); unfold is_shift;
    repeat split; try (clear Y; lia); intros Z; apply Y in Z; clear Y; lia.
Qed.
Lemma panel_apart : forall k,
  existsb (fun p => (fst p =? fst (panel_key k)) && (snd p =? snd (panel_key k))) (before_panel k) = false /\
  existsb (fun p => (fst p =? fst (panel_key k)) && (snd p =? snd (panel_key k))) (after_panel k ++ row8) = false.
Proof. intros k. unfold before_panel, panel_key, after_panel. destruct (k <? 2)%N; split; reflexivity. Qed.
Lemma panel_nodup : forall k, NoDup (before_panel k) /\ NoDup (after_panel k ++ row8).
Proof.
  intros k. pose proof (NoDup_grid 0 9) as H. rewrite (grid_panel k) in H.
  split; [eapply NoDup_app_remove_r; eauto|]. apply NoDup_app_remove_l in H. apply NoDup_cons_iff in H. apply H.
Qed.
Lemma row8_facts : Forall (fun p => fst p < 9 /\ snd p < 8) row8 /\ Forall (fun p => fst p = 8) row8 /\
  Forall (fun p => fst p <> 0) row8 /\ Forall (fun p => snd p < 8 /\ is_shift (fst p) (snd p) = false) row8.
Proof. unfold row8. cbn [map seq]. repeat split; repeat constructor; cbn; lia. Qed.
Lemma Forall_fst9 : forall l : list (nat * nat), Forall (fun p => fst p < 9 /\ snd p < 8) l -> Forall (fun p => fst p < 9) l.
Proof. intros l H. eapply Forall_impl; [|exact H]. intros p [X _]. exact X. Qed.
Lemma Forall_n8 : forall k l, Forall (fun p : nat * nat => fst p <> 8 /\ p <> panel_key k) l -> Forall (fun p => fst p <> 8) l.
Proof. intros k l H. eapply Forall_impl; [|exact H]. intros p [X _]. exact X. Qed.

Definition panel_now (ctrl shift : bool) : list event := if ctrl then reset_pulse else if shift then clear_pulse else [].
Definition mods_ctrl (m : mods) : bool := negb (m_ctrl m =? 0)%N.
Definition mods_shift (m : mods) : bool := negb (m_shift m =? 0)%N.

Lemma key_pulses : forall a r c, (a_cur a < 4)%N -> (r, c) = panel_key (a_cur a) ->
  pulses (decode (code_now a r c)) = panel_now (mods_ctrl (a_mod a)) (mods_shift (a_mod a)).
Proof.
  intros a r c H K.
  assert (B : r = fst (panel_key (a_cur a)) /\ c = snd (panel_key (a_cur a))) by (rewrite <- K; auto). destruct B as [Br Bc].
  assert (Hr : r < 9 /\ c < 8) by (unfold panel_key in *; destruct (a_cur a <? 2)%N; cbn in *; lia).
  pose proof (code_now_check _ panel_codes_ok a r c H (proj1 Hr) (proj2 Hr)) as P. unfold panel_codes in P. cbn zeta in P.
  rewrite <- Br, <- Bc, !Nat.eqb_refl in P. cbn [andb] in P. unfold panel_now, mods_ctrl, mods_shift, map_now in *.
  destruct (m_ctrl (a_mod a) =? 0)%N; cbn [negb] in *.
  - destruct (m_shift (a_mod a) =? 0)%N; cbn [negb] in *.
    + destruct (m_caps (a_mod a) =? 0)%N; cbn [negb] in *; destruct (decode (code_now a r c)); cbn [Nat.eqb andb orb negb] in P; try discriminate; auto.
    + destruct (decode (code_now a r c)); cbn [Nat.eqb andb orb negb] in P; try discriminate; try (rewrite andb_false_r in P; discriminate).
      assert (n = 2) by (clear - P; lia). subst n. reflexivity.
  - destruct (decode (code_now a r c)); cbn [Nat.eqb andb orb negb] in P; try discriminate; try (rewrite andb_false_r in P; discriminate).
    assert (n = 1) by (clear - P; lia). subst n. reflexivity.
Qed.

Lemma tick_panel : forall rd a a', atick rd a = Some a' -> last_low a -> rest a -> (a_cur a < 4)%N ->
  let R := panel_key (a_cur a) in
  exists l, a_log a' = l ++ a_log (asend a) /\
    filter panel (rev l) = if negb (a_dn a (fst R) (snd R)) && a_dn a' (fst R) (snd R)
                           then panel_now (mods_ctrl (a_mod a')) (mods_shift (a_mod a')) else [].
Proof.
  intros rd a a' E L R HC. cbn zeta. unfold atick, ascan in E.
  assert (L0 : last_low (asend a)) by (unfold last_low in *; rewrite send_last; auto).
  assert (R0 : rest (asend a)) by (unfold rest; rewrite send_cur, send_lev; auto).
  rewrite <- (send_cur a) in *. destruct (asend_dn a) as [<- _].
  revert L0 R0 HC E. generalize (asend a). clear L R a. intros a L R HC E.
  apply obind_some in E. destruct E as [z [EZ E]]. rewrite (grid_panel (a_cur a)) in EZ.
  set (k := a_cur a) in *. destruct (panel_key k) as [r c] eqn:PK.
  rewrite keys_app in EZ. apply obind_some in EZ. destruct EZ as [x [EX EZ]].
  rewrite keys_cons in EZ. apply obind_some in EZ. destruct EZ as [y [EY EZ]].
  assert (EAll := EZ). rewrite keys_app in EZ. apply obind_some in EZ. destruct EZ as [w [EW EZ]].
  destruct (around_panel k) as (A1&A2&A3&A4&A5&A6). destruct row8_facts as (B1&B2&B3&B4).
  destruct (panel_quiet _ _ _ _ EX L R A1 (or_intror A3)) as (L1&R1&C1&_&l1&G1&F1).
  specialize (C1 (Forall_n8 _ _ A3)).
  assert (Hrc : r < 9 /\ c < 8 /\ r <> 0 /\ r <> 8).
  { clear - PK. unfold panel_key in PK. destruct (k <? 2)%N; inversion PK; lia. }
  destruct Hrc as (Hr&Hc&Hr0&Hr8).
  destruct (panel_step _ _ _ _ _ EY L1 R1 Hr Hc) as (L2&R2&C2&M2&l2&G2&F2). specialize (C2 Hr8). specialize (M2 Hr0).
  destruct (key_step_shift _ _ _ _ _ EY L1 Hr Hc) as [_ S2].
  replace (is_shift r c) with false in S2 by (unfold is_shift; clear - Hr0; lia). cbn [andb] in S2.
  assert (CY : a_cur y = k) by (unfold k; congruence).
  destruct (panel_quiet _ _ _ _ EW L2 R2 A2) as (L3&R3&C3&M3&l3&G3&F3).
  { right. rewrite CY. exact A4. }
  specialize (C3 (Forall_n8 _ _ A4)). specialize (M3 A5).
  destruct (keys_no_shift _ _ _ _ EW L2) as [_ S3]; [rewrite CY; clear - HC; lia|exact A6|left; apply Forall_fst9; auto|].
  destruct (panel_quiet _ _ _ _ EZ L3 R3 B1 (or_introl B2)) as (L4&R4&_&M4&l4&G4&F4). specialize (M4 B3).
  destruct (keys_no_shift _ _ _ _ EZ L3) as [_ S4]; [rewrite C3, CY; clear - HC; lia|exact B4|left; apply Forall_fst9; auto|].
  destruct (keys_cur_high _ _ _ _ EZ) as [CZ _]; [rewrite C3, CY; clear - HC; lia|].
  assert (HI : a_log a' = a_log z /\ a_mod a' = a_mod z).
  { destruct (N.leb_spec 4 (a_cur z)).
    - destruct (high_quiet _ _ _ _ E H) as (X1&X2&_). auto.
    - rewrite rows_9, Nat.sub_diag, keys_none in E by auto. inv E. auto. }
  destruct HI as [-> HM].
  exists (l4 ++ l3 ++ l2 ++ l1). rewrite G4, G3, G2, G1, !app_assoc. split; auto.
  rewrite !rev_app_distr, !filter_app, F1, F3, F4, F2. cbn [app]. rewrite !app_nil_r.
  (* the key itself *)
  destruct (panel_apart k) as [P1 P2]. destruct (panel_nodup k) as [N1 N2]. rewrite PK in P1, P2. cbn [fst snd] in P1, P2.
  pose proof (keys_step_db _ _ _ _ r c EX N1) as D1. rewrite P1 in D1.
  pose proof (keys_step_db _ _ _ _ r c EAll N2) as D2. rewrite P2 in D2.
  pose proof (keys_step_db _ _ _ _ r c E (NoDup_grid _ _)) as D3.
  match type of D3 with context [existsb ?f ?l] => destruct (existsb f l) eqn:W end; [apply in_grid in W; clear - W Hr; lia|].
  apply pair_inj in D1, D2, D3. destruct D1 as [D1 _]. destruct D2 as [D2 _]. destruct D3 as [D3 _].
  cbn [fst snd]. rewrite D3, D2, D1. destruct (negb (a_dn a r c) && a_dn y r c) eqn:PR; auto.
  rewrite (key_pulses x r c) by (rewrite C1; auto). unfold mods_ctrl, mods_shift. rewrite HM, M4, M3, M2, S4, S3, S2. reflexivity.
Qed.

Lemma rest_inv : forall rds a, arun rds = Some a -> last_low a /\ rest a.
Proof.
  intros rds a. apply (ainv (fun _ => True)) with (rds := rds) (Inv := fun a => last_low a /\ rest a); [ | | | | | |apply True_all].
  - split; [exact (N.le_refl 0xA0)|]. intros _. split; reflexivity.
  - intros x [A B]. unfold last_low, rest in *. rewrite send_last, send_cur, send_lev. auto.
  - intros x y H. exact H.
  - intros rd r c x _ [A B] Hr Hc Hk _ _. split; [apply held_last_low; auto|]. unfold rest. rewrite held_cur, held_lev by auto. exact B.
  - intros rd r c x _ [A B] Hr Hc Hk _ _. split; [apply press_last_low; exact A|].
    apply (press_panel _ _ _ _ _ (accept r c true x) (code_now_check _ panel_codes_ok x r c Hk Hr Hc) Hk B).
  - intros rd r c x _ [A B] Hr Hc Hk _ _. split; [apply release_last_low; exact A|].
    apply (release_panel (code_now x r c) (accept r c false x) Hk B).
Qed.

(** What a tick does to the RESET and CLEAR outputs: nothing, unless the key that
    carries them is accepted in this tick; then one RESET pulse with CTRL, one
    CLEAR pulse with SHIFT alone, nothing otherwise. *)
Theorem C59_panel_outputs : forall rds rd s s', run rds = Ok s -> run (rds ++ [rd]) = Ok s' -> (k_cur s < 4)%N ->
  let '(r, c) := panel_key (k_cur s) in
  exists l, events s' = events s ++ l /\
    filter panel l = if negb (down s r c) && down s' r c
                     then (if down s' 0 6 then reset_pulse else if shift_on s' then clear_pulse else []) else [].
Proof.
  intros rds rd s s' H H' HC. destruct (reach _ _ H) as [a [A RL]]. destruct (reach _ _ H') as [a' [A' RL']].
  destruct (rest_inv _ _ A) as [L R]. pose proof (C33_ctrl_iff_key_down _ _ H') as CT.
  unfold arun in A'. rewrite aticks_app in A'. fold (arun rds) in A'. rewrite A in A'. cbn [obind aticks] in A'.
  destruct (atick rd a) as [b|] eqn:E; [|discriminate]. cbn in A'. inv A'.
  rewrite (rl_cur _ _ RL) in *. destruct (tick_panel _ _ _ E L R HC) as [l [G F]].
  destruct (panel_key (a_cur a)) as [r c] eqn:PK. cbn [fst snd] in F.
  assert (Hrc : r < 9 /\ c < 8). { clear - PK. unfold panel_key in PK. destruct (a_cur a <? 2)%N; inversion PK; lia. }
  assert (S : exists l0, a_log (asend a) = l0 ++ a_log a /\ filter panel (rev l0) = []).
  { unfold asend. destruct (a_qm a); [destruct (a_qk a) as [|n q]; [exists []; auto|destruct (n <? 0xA0)%N;
      [exists [EvSend n]; auto|exists []; auto]]|eexists [_; _]; split; reflexivity]. }
  destruct S as [l0 [S0 S1]]. exists (rev (l ++ l0)).
  rewrite (events_ok _ _ RL), (events_ok _ _ RL'), G, S0, app_assoc, rev_app_distr. split; auto.
  rewrite rev_app_distr, filter_app, S1, F. cbn [app].
  rewrite (down_ok _ _ _ _ RL), (down_ok _ _ _ _ RL') by lia. rewrite <- CT.
  unfold panel_now, mods_ctrl, mods_shift, ctrl_on, shift_on. rewrite (rl_mod _ _ RL'). reflexivity.
Qed.
Print Assumptions C59_panel_outputs.

(** CTRL with the key, SHIFT with the key, the key alone, on keyboard 0. *)
Example C59_example :
  obs (fun s => filter panel (events s)) (run (hold 12 [(0, 6)] ++ hold 12 [(0, 6); (2, 0)])) = Some reset_pulse /\
  obs (fun s => filter panel (events s)) (run (hold 12 [(0, 1); (2, 0)])) = Some clear_pulse /\
  obs (fun s => filter panel (events s)) (run (hold 12 [(8, 1); (0, 6)] ++ hold 600 [(8, 1); (0, 6); (6, 2)])) = Some reset_pulse /\
  obs (fun s => filter panel (events s)) (run (hold 600 [(2, 0)])) = Some [].
Proof. vm_compute. auto. Qed.

(** Hence neither line is ever left asserted. *)
Lemma shown_filter : forall p l o, p = OUT3_OPEN_HI \/ p = OUT1_OPEN_LO ->
  fold_left (led_step p) l o = None \/ fold_left (led_step p) l o = fold_left (led_step p) (filter panel l) o.
Proof.
  intros p l o Hp. induction l as [|e l IH] using rev_ind; auto.
  rewrite filter_app, !fold_left_app. destruct e as [|d v| | | | | |]; cbn [filter panel]; cbn [fold_left led_step]; auto.
  destruct (Nat.eqb_spec d p).
  - assert (X : (d =? OUT3_OPEN_HI) || (d =? OUT1_OPEN_LO) = true) by (destruct Hp; subst; reflexivity).
    rewrite X. cbn [fold_left led_step]. subst d. rewrite Nat.eqb_refl. auto.
  - destruct ((d =? OUT3_OPEN_HI) || (d =? OUT1_OPEN_LO)); cbn [fold_left led_step]; auto.
    destruct (Nat.eqb_spec d p); [congruence|auto].
Qed.

Theorem C59_never_left_asserted : forall rds s, run rds = Ok s -> (k_cur s < 4)%N ->
  (shown OUT3_OPEN_HI s = None \/ shown OUT3_OPEN_HI s = Some 1%N) /\
  (shown OUT1_OPEN_LO s = None \/ shown OUT1_OPEN_LO s = Some 0%N).
Proof.
  induction rds as [|rd rds IH] using rev_ind; intros s H HC.
  - assert (X : obs (fun s => (shown OUT3_OPEN_HI s, shown OUT1_OPEN_LO s)) (run []) = Some (None, None)) by (vm_compute; reflexivity).
    rewrite H in X. cbn [obs] in X. split; left; congruence.
  - pose proof H as H'. rewrite run_app in H'. destruct (run rds) as [s0|] eqn:E0; [|discriminate]. cbn [bind] in H'.
    assert (C0 : (k_cur s0 < 4)%N).
    { destruct (reach _ _ E0) as [a0 [A0 R0]]. destruct (reach _ _ H) as [a [A RL]]. rewrite (rl_cur _ _ R0). rewrite (rl_cur _ _ RL) in HC.
      unfold arun in A. rewrite aticks_app in A. fold (arun rds) in A. rewrite A0 in A. cbn [obind] in A.
      destruct (N.ltb_spec (a_cur a0) 4); auto. exfalso.
      cbn [aticks] in A. apply obind_some in A. destruct A as [b [A X]]. inv X.
      unfold atick, ascan in A. apply obind_some in A. destruct A as [z [A1 A2]].
      pose proof (rl_lt _ _ R0) as LT. destruct (keys_cur_high _ _ _ _ A1) as [Z1 Z2]; [rewrite send_cur; exact LT|].
      rewrite send_cur in Z2. specialize (Z2 H0). destruct (keys_cur_high _ _ _ _ A2 Z1) as [_ Z3]. rewrite Z3, Z2 in HC; [lia|lia]. }
    destruct (IH _ eq_refl C0) as [I1 I2]. pose proof (C59_panel_outputs _ _ _ _ E0 H C0) as P.
    destruct (panel_key (k_cur s0)) as [r c]. destruct P as [l [EV F]]. unfold shown in *. rewrite EV, !fold_left_app.
    revert I1 I2. generalize (fold_left (led_step OUT3_OPEN_HI) (events s0) None), (fold_left (led_step OUT1_OPEN_LO) (events s0) None).
    intros o1 o2 I1 I2.
    destruct (shown_filter OUT3_OPEN_HI l o1 (or_introl eq_refl)) as [->| ->], (shown_filter OUT1_OPEN_LO l o2 (or_intror eq_refl)) as [->| ->];
      rewrite ?F; destruct (_ && _); try destruct (down s 0 6); try destruct (shift_on s); cbn; auto.
Qed.
Print Assumptions C59_never_left_asserted.
