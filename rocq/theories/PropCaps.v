(** What changes CAPS LOCK: C96. *)
From Coq Require Import List NArith ZArith Arith Bool Lia.
From Coq Require Import ZifyBool ZifyNat ZifyN.
From Verif Require Import Base Lib Buffer BufferSpec BufferProofs Repeat Devices DevSpec DevProofs
     Modifiers Hook KeymapData Asdf KeySpec KeyRef Obs Frames PropModState PropQueues PropHold PropDebounce PropLeds.
Import ListNotations.

(** ** Specification *)
(** The CAPS LOCK key. *)
Definition caps_key (k : N) : nat * nat := if (k <? 2)%N then (5, 2) else (0, 0).
(** The key is accepted as pressed, as released, between two states. *)
Definition went_down (s s' : kb) (p : nat * nat) : bool := negb (down s (fst p) (snd p)) && down s' (fst p) (snd p).
Definition went_up (s s' : kb) (p : nat * nat) : bool := down s (fst p) (snd p) && negb (down s' (fst p) (snd p)).
(** Mode switches 0 and 1 pass through the setting of keyboard 2, switch 0 moving
    before switch 1 if both move: 0 opens while 1 is closed, or 1 closes while 0 is open. *)
Definition enters_apple (s s' : kb) : bool :=
  went_up s s' (8, 0) && down s 8 1 || went_down s s' (8, 1) && negb (down s' 8 0).

(** ** Proof *)
Definition cp (a : akb) : bool := negb (m_caps (a_mod a) =? 0)%N.
Definition is_caps (x : action) : bool := match x with ACaps => true | _ => false end.
Definition is_at (p : nat * nat) (r c : nat) : bool := (r =? fst p) && (c =? snd p).
Definition caps_codes (k : N) (m r c : nat) (code : N) : bool := Bool.eqb (is_caps (decode code)) (is_at (caps_key k) r c).
Lemma caps_codes_ok : all_codes caps_codes = true.
Proof. vm_compute. reflexivity. Qed.

Definition CK (a : akb) : Prop := last_low a /\ (m_caps (a_mod a) < 2)%N /\ (a_cur a < 4)%N.

Lemma step_quiet : forall rd r c a b, key_step rd r c a = Some b -> CK a -> r < 9 -> c < 8 ->
  is_at (caps_key (a_cur a)) r c = false -> ~ (r = 8 /\ c < 4) -> a_cur b = a_cur a /\ m_caps (a_mod b) = m_caps (a_mod a) /\ CK b.
Proof.
  intros rd r c a b E (L&M&C) Hr Hc NC NS.
  pose proof (code_now_check _ caps_codes_ok a r c C Hr Hc) as CC. unfold caps_codes in CC. rewrite NC in CC.
  pose proof (code_now_check _ sel_codes_ok a r c C Hr Hc) as SC. unfold sel_codes in SC.
  assert (D1 : decode (code_now a r c) <> ACaps) by (intros X; rewrite X in CC; discriminate).
  assert (D2 : forall n, decode (code_now a r c) <> AMapsel n).
  { intros n X. pose proof (decode_mapsel _ _ X). rewrite X in SC. lia. }
  assert (X : a_cur b = a_cur a /\ m_caps (a_mod b) = m_caps (a_mod a) /\ last_low b).
  { destruct (key_step_cases _ _ _ _ _ E); auto.
    - rewrite held_cur, held_mod by auto. split; auto. split; auto. apply held_last_low; auto.
    - rewrite press_cur, press_caps by auto. split; auto. split; auto. apply press_last_low; auto.
    - rewrite release_cur, release_caps by auto. split; auto. split; auto. apply release_last_low; auto. }
  destruct X as (X1&X2&X3). unfold CK. rewrite X1, X2. auto.
Qed.

Lemma keys_quiet : forall rd ps a b, keys_step rd ps a = Some b -> CK a ->
  forallb (fun p => (fst p <? 9) && (snd p <? 8) && negb (is_at (caps_key (a_cur a)) (fst p) (snd p)) && negb ((fst p =? 8) && (snd p <? 4))) ps = true ->
  a_cur b = a_cur a /\ m_caps (a_mod b) = m_caps (a_mod a) /\ CK b.
Proof.
  induction ps as [|[r c] ps IH]; intros a b E H F.
  - cbn in E. inv E. auto.
  - rewrite keys_cons in E. apply obind_some in E. destruct E as [a1 [E1 E]]. cbn [forallb fst snd] in F.
    apply andb_true_iff in F. destruct F as [F1 F].
    assert (NC : is_at (caps_key (a_cur a)) r c = false) by (destruct (is_at _ r c); auto; clear -F1; cbn [negb] in F1; lia).
    destruct (step_quiet _ _ _ _ _ E1 H ltac:(clear -F1; lia) ltac:(clear -F1; lia) NC ltac:(clear -F1; lia)) as (X1&X2&X3).
    rewrite <- X1 in F. destruct (IH a1 b E X3 F) as (Y1&Y2&Y3). rewrite Y1, Y2. auto.
Qed.

Lemma step_caps : forall rd r c a b, key_step rd r c a = Some b -> CK a -> r < 9 -> c < 8 ->
  is_at (caps_key (a_cur a)) r c = true ->
  a_cur b = a_cur a /\ CK b /\ cp b = xorb (cp a) (negb (a_dn a r c) && a_dn b r c).
Proof.
  intros rd r c a b E (L&M&C) Hr Hc NC.
  pose proof (code_now_check _ caps_codes_ok a r c C Hr Hc) as CC. unfold caps_codes in CC. rewrite NC in CC.
  assert (DC : decode (code_now a r c) = ACaps) by (destruct (decode (code_now a r c)); try discriminate; auto).
  destruct (key_step_cases _ _ _ _ _ E) as [H1 H2|H1 H2|H0 H1 H2|H0 H1 H2 H3|H0 H1 H2 H3].
  - rewrite H2. cbn. rewrite xorb_false_r. repeat split; auto.
  - cbn [a_cur a_dn a_mod put_ct]. split; auto. split; [repeat split; auto|]. unfold cp. cbn [a_mod put_ct].
    destruct (a_dn a r c); cbn; rewrite xorb_false_r; auto.
  - unfold CK, cp. rewrite held_cur, held_mod, H2 by auto. cbn [negb andb]. rewrite xorb_false_r. split; auto. split; auto. split; auto.
    apply held_last_low; auto.
  - destruct (apress_dn (code_now a r c) (accept r c true a)) as [-> _]. cbn [a_dn accept put_dn]. rewrite set2_same, H2. cbn [negb andb].
    rewrite (press_act _ _ _ DC) by discriminate. unfold aaction_on. rewrite DC.
    assert (CU : a_cur (atoggle_caps (accept r c true a)) = a_cur a) by (unfold atoggle_caps; cbn [a_cur put_mod]; rewrite aact_cur; reflexivity).
    assert (LL : last_low (atoggle_caps (accept r c true a))) by (unfold last_low, atoggle_caps; cbn [a_last put_mod]; rewrite aact_last; exact L).
    unfold CK, cp. rewrite CU, toggle_caps_val by exact M. split; auto. split; [repeat split; auto; clear; lia|].
    change (a_mod (accept r c true a)) with (a_mod a).
    assert (V : m_caps (a_mod a) = 0%N \/ m_caps (a_mod a) = 1%N) by (clear -M; lia). destruct V as [-> | ->]; reflexivity.
  - destruct (arelease_dn (code_now a r c) (accept r c false a)) as [-> _]. cbn [a_dn accept put_dn]. rewrite set2_same, H2. cbn [negb andb].
    rewrite xorb_false_r. unfold CK, cp. rewrite release_cur, release_caps by (intros; congruence). split; auto. split; auto. split; auto.
    apply release_last_low; auto.
Qed.

Lemma select_cp : forall i a, (i < 4)%N -> CK a ->
  a_cur (aselect i a) = i /\ CK (aselect i a) /\ cp (aselect i a) = xorb (cp a) (negb (i =? a_cur a)%N && (i =? 2)%N).
Proof.
  intros i a Hi (L&M&C). assert (CU : a_cur (aselect i a) = i) by (apply select_cur; lia). split; auto.
  unfold CK. rewrite CU. split; [split; [unfold last_low; rewrite select_last; exact L|split; [apply select_caps_lt; auto|auto]]|].
  clear CU. unfold aselect. destruct (N.eqb_spec i (a_cur a)); [cbn [negb andb]; rewrite xorb_false_r; auto|].
  replace (i <? 6)%N with true by lia. cbn [negb andb]. unfold aswitch. replace (i =? 4)%N with false by lia.
  assert (T : toggles_caps i = (i =? 2)%N).
  { assert (X : i = 0%N \/ i = 1%N \/ i = 2%N \/ i = 3%N) by lia. destruct X as [-> |[-> |[-> | ->]]]; reflexivity. }
  rewrite T. destruct (i =? 2)%N; [|rewrite xorb_false_r; reflexivity].
  unfold cp. rewrite toggle_caps_val by exact M. cbn [a_mod note put_log put_lev put_cur].
  assert (V : m_caps (a_mod a) = 0%N \/ m_caps (a_mod a) = 1%N) by lia. destruct V as [-> | ->]; reflexivity.
Qed.

Lemma step_sel : forall rd n a b, key_step rd 8 n a = Some b -> CK a -> n < 2 ->
  a_cur b = (if Bool.eqb (a_dn a 8 n) (a_dn b 8 n) then a_cur a
             else if a_dn b 8 n then N.setbit (a_cur a) (N.of_nat n) else N.clearbit (a_cur a) (N.of_nat n)) /\
  CK b /\ cp b = xorb (cp a) (negb (a_cur b =? a_cur a)%N && (a_cur b =? 2)%N).
Proof.
  intros rd n a b E H Hn. destruct H as (L&M&C).
  pose proof (code_now_check _ sel_codes_ok a 8 n C ltac:(lia) ltac:(lia)) as SC. unfold sel_codes in SC.
  assert (DC : decode (code_now a 8 n) = AMapsel (N.of_nat n)).
  { destruct (decode (code_now a 8 n)); try (exfalso; clear -SC Hn; lia). f_equal. clear -SC. lia. }
  assert (SAME : forall b, a_dn b = a_dn a -> a_cur b = a_cur a -> a_mod b = a_mod a -> last_low b ->
    a_cur b = (if Bool.eqb (a_dn a 8 n) (a_dn b 8 n) then a_cur a
             else if a_dn b 8 n then N.setbit (a_cur a) (N.of_nat n) else N.clearbit (a_cur a) (N.of_nat n)) /\
    CK b /\ cp b = xorb (cp a) (negb (a_cur b =? a_cur a)%N && (a_cur b =? 2)%N)).
  { intros x X1 X2 X3 X4. unfold CK, cp. rewrite X1, X2, X3, eqb_reflx, N.eqb_refl. cbn [negb andb]. rewrite xorb_false_r. auto. }
  destruct (key_step_cases _ _ _ _ _ E) as [H1 H2|H1 H2|H0 H1 H2|H0 H1 H2 H3|H0 H1 H2 H3].
  - apply SAME; auto.
  - apply SAME; auto.
  - apply SAME; [destruct (aheld_dn (code_now a 8 n) a) as [-> _]|rewrite held_cur|rewrite held_mod|apply held_last_low]; auto.
  - destruct (apress_dn (code_now a 8 n) (accept 8 n true a)) as [-> _]. cbn [a_dn accept put_dn]. rewrite set2_same, H2. cbn [Bool.eqb].
    rewrite (press_act _ _ _ DC) by discriminate. unfold aaction_on. rewrite DC. cbn [a_cur accept put_dn put_ct].
    destruct (select_cp (N.setbit (a_cur a) (N.of_nat n)) (accept 8 n true a)) as (A1&A2&A3).
    { assert (X : a_cur a = 0%N \/ a_cur a = 1%N \/ a_cur a = 2%N \/ a_cur a = 3%N) by (clear -C; lia).
      destruct n as [|[|n]]; [| |lia]; destruct X as [-> |[-> |[-> | ->]]]; reflexivity. }
    { repeat split; auto. }
    rewrite A1. split; auto.
  - destruct (arelease_dn (code_now a 8 n) (accept 8 n false a)) as [-> _]. cbn [a_dn accept put_dn]. rewrite set2_same, H2. cbn [Bool.eqb].
    rewrite (release_act _ _ _ DC) by discriminate. unfold aaction_off. rewrite DC. cbn [a_cur accept put_dn put_ct].
    destruct (select_cp (N.clearbit (a_cur a) (N.of_nat n)) (accept 8 n false a)) as (A1&A2&A3).
    { assert (X : a_cur a = 0%N \/ a_cur a = 1%N \/ a_cur a = 2%N \/ a_cur a = 3%N) by (clear -C; lia).
      destruct n as [|[|n]]; [| |lia]; destruct X as [-> |[-> |[-> | ->]]]; reflexivity. }
    { repeat split; auto. }
    rewrite A1. split; auto.
Qed.

Lemma keys_app : forall rd p q a, keys_step rd (p ++ q) a = obind (keys_step rd p a) (keys_step rd q).
Proof.
  intros rd p. induction p as [|[r c] p IH]; intros q a; [reflexivity|]. cbn [app]. rewrite !keys_cons.
  destruct (key_step rd r c a); [cbn [obind]; apply IH|reflexivity].
Qed.

(** The scan, cut at the CAPS LOCK key and the mode switches. *)
Definition before_caps (k : N) : list (nat * nat) := if (k <? 2)%N then firstn 42 (grid 0 9) else [].
Definition after_caps (k : N) : list (nat * nat) := if (k <? 2)%N then firstn 21 (skipn 43 (grid 0 9)) else firstn 63 (skipn 1 (grid 0 9)).
Lemma scan_parts : forall k, grid 0 9 = before_caps k ++ [caps_key k] ++ after_caps k ++ [(8, 0)] ++ [(8, 1)] ++ [(8, 2)] ++ [(8, 3)] ++ skipn 68 (grid 0 9).
Proof. intros k. unfold before_caps, after_caps, caps_key. destruct (k <? 2)%N; reflexivity. Qed.

Lemma dn_outside : forall rd ps a b r c, keys_step rd ps a = Some b ->
  existsb (fun p => (fst p =? r) && (snd p =? c)) ps = false -> a_dn b r c = a_dn a r c.
Proof.
  intros rd. induction ps as [|[x y] ps IH]; intros a b r c E F.
  - cbn in E. inv E. auto.
  - rewrite keys_cons in E. apply obind_some in E. destruct E as [a1 [E1 E]]. cbn [existsb fst snd] in F.
    apply orb_false_iff in F. destruct F as [F1 F2]. rewrite (IH a1 b r c E F2).
    destruct (key_step_frame _ _ _ _ _ r c E1) as [-> _]; auto. clear -F1. lia.
Qed.
Lemma keys_one : forall rd r c a, keys_step rd [(r, c)] a = key_step rd r c a.
Proof. intros. rewrite keys_cons. destruct (key_step rd r c a); reflexivity. Qed.

Definition quiet_at (k : N) (p : nat * nat) : bool :=
  (fst p <? 9) && (snd p <? 8) && negb (is_at (caps_key k) (fst p) (snd p)) && negb ((fst p =? 8) && (snd p <? 4)).
Lemma parts_quiet : forall k, forallb (quiet_at k) (before_caps k) = true /\ forallb (quiet_at k) (after_caps k) = true /\
  forallb (quiet_at k) (skipn 68 (grid 0 9)) = true.
Proof. intros k. unfold before_caps, after_caps, quiet_at, caps_key. destruct (k <? 2)%N; repeat split; reflexivity. Qed.
Definition lacks (r c : nat) (ps : list (nat * nat)) : bool := negb (existsb (fun p => (fst p =? r) && (snd p =? c)) ps).
Lemma parts_lack : forall k, let p := caps_key k in
  lacks (fst p) (snd p) (before_caps k) = true /\ lacks (fst p) (snd p) (after_caps k) = true /\
  lacks (fst p) (snd p) [(8, 0)] = true /\ lacks (fst p) (snd p) [(8, 1)] = true /\ lacks (fst p) (snd p) (skipn 68 (grid 0 9)) = true /\
  (forall c, c < 8 -> lacks 8 c (before_caps k) = true /\ lacks 8 c [p] = true /\ lacks 8 c (after_caps k) = true).
Proof.
  intros k. unfold before_caps, after_caps, caps_key. destruct (k <? 2)%N; cbv zeta; do 5 (split; [reflexivity|]); intros c Hc;
    repeat split; reflexivity.
Qed.
Lemma dn_lacks : forall rd ps a b r c, keys_step rd ps a = Some b -> lacks r c ps = true -> a_dn b r c = a_dn a r c.
Proof. intros rd ps a b r c E H. apply (dn_outside _ _ _ _ _ _ E). unfold lacks in H. apply negb_true_iff in H. exact H. Qed.
Lemma step_open : forall rd c a b, keys_step rd [(8, c)] a = Some b -> reading rd 8 c = false -> a_dn a 8 c = false -> b = a.
Proof. intros rd c a b E R D. rewrite keys_one in E. unfold key_step in E. rewrite R, D in E. cbn [Bool.eqb] in E. congruence. Qed.

Lemma caps_tick : forall rd a a', atick rd a = Some a' -> SelInv a -> (m_caps (a_mod a) < 2)%N -> dips_off rd ->
  let p := caps_key (a_cur a) in
  cp a' = xorb (cp a) (xorb (negb (a_dn a (fst p) (snd p)) && a_dn a' (fst p) (snd p))
    (a_dn a 8 0 && negb (a_dn a' 8 0) && a_dn a 8 1 || negb (a_dn a 8 1) && a_dn a' 8 1 && negb (a_dn a' 8 0))).
Proof.
  intros rd a a' E (L&D2&D3&S0) M [R2 R3] p. pose proof (selected_lt a) as SL. rewrite <- S0 in SL.
  unfold atick, ascan in E. apply obind_some in E. destruct E as [z [E E9]].
  assert (CA : CK (asend a)) by (unfold CK, last_low; rewrite send_last, send_mod, send_cur; auto).
  assert (CPA : cp (asend a) = cp a) by (unfold cp; rewrite send_mod; auto).
  assert (CUA : a_cur (asend a) = a_cur a) by apply send_cur.
  destruct (asend_dn a) as [DA _]. set (a0 := asend a) in *. clearbody a0.
  rewrite (scan_parts (a_cur a)), !keys_app in E.
  apply obind_some in E. destruct E as [a1 [E1 E]].
  rewrite keys_app in E. apply obind_some in E. destruct E as [a2 [E2 E]].
  rewrite keys_app in E. apply obind_some in E. destruct E as [a3 [E3 E]].
  rewrite keys_app in E. apply obind_some in E. destruct E as [a4 [E4 E]].
  rewrite keys_app in E. apply obind_some in E. destruct E as [a5 [E5 E]].
  rewrite keys_app in E. apply obind_some in E. destruct E as [a6 [E6 E]].
  rewrite keys_app in E. apply obind_some in E. destruct E as [a7 [E7 E8]].
  destruct (parts_quiet (a_cur a)) as (Q1&Q2&Q3). destruct (parts_lack (a_cur a)) as (K1&K2&K3&K4&K5&K8). fold p in K1, K2, K3, K4, K5, K8.
  destruct (keys_quiet _ _ _ _ E1 CA) as (U1&V1&W1); [rewrite CUA; exact Q1|]. rewrite CUA in U1.
  destruct (caps_key (a_cur a)) as [pr pc] eqn:EP. cbv zeta in p. subst p. cbn [fst snd] in *.
  assert (PB : pr < 8 /\ pc < 8) by (clear -EP; revert EP; unfold caps_key; destruct (a_cur a <? 2)%N; intros EP; inv EP; lia).
  pose proof E2 as F2. rewrite keys_one in F2.
  destruct (step_caps _ _ _ _ _ F2 W1) as (U2&W2&P2); [clear -PB; lia|clear -PB; lia|rewrite U1, EP; unfold is_at; cbn [fst snd]; rewrite !Nat.eqb_refl; reflexivity|].
  rewrite U1 in U2.
  destruct (keys_quiet _ _ _ _ E3 W2) as (U3&V3&W3); [rewrite U2; exact Q2|]. rewrite U2 in U3.
  pose proof E4 as F4. rewrite keys_one in F4. destruct (step_sel _ _ _ _ F4 W3) as (U4&W4&P4); [clear; lia|].
  pose proof E5 as F5. rewrite keys_one in F5. destruct (step_sel _ _ _ _ F5 W4) as (U5&W5&P5); [clear; lia|].
  assert (DN : forall c, c < 8 -> a_dn a3 8 c = a_dn a 8 c).
  { intros c Hc. destruct (K8 c Hc) as (X1&X2&X3). rewrite (dn_lacks _ _ _ _ _ _ E3 X3), (dn_lacks _ _ _ _ _ _ E2 X2), (dn_lacks _ _ _ _ _ _ E1 X1), DA. auto. }
  assert (D52 : a_dn a5 8 2 = false).
  { rewrite (dn_lacks _ _ _ _ 8 2 E5 eq_refl), (dn_lacks _ _ _ _ 8 2 E4 eq_refl), DN by (clear; lia). exact D2. }
  assert (D53 : a_dn a5 8 3 = false).
  { rewrite (dn_lacks _ _ _ _ 8 3 E5 eq_refl), (dn_lacks _ _ _ _ 8 3 E4 eq_refl), DN by (clear; lia). exact D3. }
  apply (step_open _ _ _ _ E6 R2) in D52. subst a6. apply (step_open _ _ _ _ E7 R3) in D53. subst a7.
  destruct (keys_quiet _ _ _ _ E8 W5) as (U8&V8&W8).
  { destruct (parts_quiet (a_cur a5)) as (_&_&X). exact X. }
  assert (a' = z).
  { replace (nrows (a_cur z) - 9) with 0 in E9; [cbn in E9; congruence|]. destruct W8 as (_&_&W8). revert W8. clear. intros W8.
    assert (X : a_cur z = 0%N \/ a_cur z = 1%N \/ a_cur z = 2%N \/ a_cur z = 3%N) by lia. destruct X as [-> |[-> |[-> | ->]]]; reflexivity. }
  subst z.
  assert (DP : a_dn a' pr pc = a_dn a2 pr pc).
  { rewrite (dn_lacks _ _ _ _ _ _ E8 K5), (dn_lacks _ _ _ _ _ _ E5 K4), (dn_lacks _ _ _ _ _ _ E4 K3), (dn_lacks _ _ _ _ _ _ E3 K2). auto. }
  assert (DP1 : a_dn a1 pr pc = a_dn a pr pc) by (rewrite (dn_lacks _ _ _ _ _ _ E1 K1), DA; auto).
  assert (D80 : a_dn a' 8 0 = a_dn a4 8 0) by (rewrite (dn_lacks _ _ _ _ 8 0 E8 eq_refl), (dn_lacks _ _ _ _ 8 0 E5 eq_refl); auto).
  assert (D81 : a_dn a' 8 1 = a_dn a5 8 1) by (rewrite (dn_lacks _ _ _ _ 8 1 E8 eq_refl); auto).
  assert (D41 : a_dn a4 8 1 = a_dn a 8 1) by (rewrite (dn_lacks _ _ _ _ 8 1 E4 eq_refl), DN by (clear; lia); auto).
  assert (C5 : cp a' = cp a5) by (unfold cp; rewrite V8; auto). assert (C3 : cp a3 = cp a2) by (unfold cp; rewrite V3; auto).
  assert (C1 : cp a1 = cp a) by (rewrite <- CPA; unfold cp; rewrite V1; auto).
  rewrite (DN 0) in U4 by (clear; lia). rewrite D41 in U5. rewrite U3 in U4, P4.
  rewrite C5, P5, P4, C3, P2, C1, DP, DP1, D80, D81, !xorb_assoc. f_equal. f_equal.
  rewrite U5, U4, S0. unfold selected. clear. destruct (a_dn a 8 0), (a_dn a 8 1), (a_dn a4 8 0), (a_dn a5 8 1); reflexivity.
Qed.

(** ** C96 *)
(** In every scan CAPS LOCK changes exactly if the CAPS LOCK key of the keyboard in
    use is accepted as pressed, or the mode switches pass through keyboard 2 - and
    not if both.  Nothing else, and no release, ever changes it. *)
Theorem C96_caps_lock_law : forall rds rd s s', Forall dips_off (rds ++ [rd]) -> run rds = Ok s -> run (rds ++ [rd]) = Ok s' ->
  caps_on s' = xorb (caps_on s) (xorb (went_down s s' (caps_key (k_cur s))) (enters_apple s s')).
Proof.
  intros rds rd s s' HF H H'. apply Forall_app in HF. destruct HF as [HF HD]. inv HD.
  destruct (reach _ _ H) as [a [A RL]]. destruct (reach _ _ H') as [a' [A' RL']].
  destruct (sel_total _ HF) as [x [X SI]]. assert (x = a) by congruence. subst x.
  pose proof (led_inv _ _ A) as (_&M&_).
  unfold arun in A'. rewrite aticks_app in A'. fold (arun rds) in A'. rewrite A in A'. cbn [obind aticks] in A'.
  apply obind_some in A'. destruct A' as [b [A' Y]]. assert (b = a') by congruence. subst b.
  pose proof (caps_tick _ _ _ A' SI M H2) as T. cbv zeta in T.
  unfold caps_on, enters_apple, went_down, went_up. cbn [fst snd]. rewrite (rl_mod _ _ RL), (rl_mod _ _ RL'), (rl_cur _ _ RL).
  fold (cp a) (cp a'). rewrite T. cbn [fst snd].
  assert (PB : fst (caps_key (a_cur a)) < 16 /\ snd (caps_key (a_cur a)) < 8) by (clear; unfold caps_key; destruct (a_cur a <? 2)%N; cbn; lia).
  destruct PB as [B1 B2].
  rewrite !(down_ok _ _ _ _ RL), !(down_ok _ _ _ _ RL') by (exact B1 || exact B2 || (clear; lia)).
  reflexivity.
Qed.
Print Assumptions C96_caps_lock_law.

(** Presses of the CAPS LOCK key and passages through keyboard 2 in a run. *)
Definition between (f : kb -> kb -> bool) (rds : list (nat -> N)) (i : nat) : bool :=
  match run (firstn i rds), run (firstn (S i) rds) with Ok s, Ok s' => f s s' | _, _ => false end.
Definition times (f : kb -> kb -> bool) (rds : list (nat -> N)) : nat :=
  length (filter (between f rds) (seq 0 (length rds))).
Definition caps_pressed (s s' : kb) : bool := went_down s s' (caps_key (k_cur s)).

Lemma times_snoc : forall f rds rd s s', run rds = Ok s -> run (rds ++ [rd]) = Ok s' ->
  times f (rds ++ [rd]) = times f rds + (if f s s' then 1 else 0).
Proof.
  intros f rds rd s s' H H'. unfold times. rewrite app_length. cbn [length]. rewrite seq_app, filter_app, app_length. f_equal.
  - f_equal. apply filter_ext_in. intros i Hi. apply in_seq in Hi. unfold between.
    rewrite !firstn_app. replace (i - length rds) with 0 by lia. replace (S i - length rds) with 0 by lia.
    cbn [firstn]. rewrite !app_nil_r. reflexivity.
  - cbn [seq plus filter]. unfold between.
    replace (firstn (length rds) (rds ++ [rd])) with rds.
    2:{ rewrite firstn_app, Nat.sub_diag, firstn_all. cbn [firstn]. rewrite app_nil_r. reflexivity. }
    replace (firstn (S (length rds)) (rds ++ [rd])) with (rds ++ [rd]).
    2:{ rewrite firstn_all2; [reflexivity|]. rewrite app_length. cbn [length]. lia. }
    rewrite H, H'. destruct (f s s'); reflexivity.
Qed.

(** Over a whole run: CAPS LOCK is on exactly if these happened an odd number of
    times altogether. *)
Theorem C96_caps_lock_parity : forall rds s, Forall dips_off rds -> run rds = Ok s ->
  caps_on s = Nat.odd (times caps_pressed rds + times enters_apple rds).
Proof.
  induction rds as [|rd rds IH] using rev_ind; intros s HF H.
  - destruct (reach _ _ H) as [a [A RL]]. assert (E : aboot = a) by (clear -A; unfold arun in A; cbn [aticks] in A; congruence).
    unfold caps_on. rewrite (rl_mod _ _ RL), <- E. reflexivity.
  - pose proof HF as HF'. apply Forall_app in HF. destruct HF as [HF _]. destruct (C52_no_undefined_behaviour _ HF) as [s0 H0].
    rewrite (C96_caps_lock_law _ _ _ _ HF' H0 H), (IH s0 HF H0), (times_snoc _ _ _ _ _ H0 H), (times_snoc _ _ _ _ _ H0 H).
    fold (caps_pressed s0 s). generalize (times caps_pressed rds) (times enters_apple rds) (caps_pressed s0 s) (enters_apple s0 s).
    clear. intros x y [|] [|]; cbn [xorb]; rewrite ?xorb_false_r, ?xorb_true_r, !Nat.odd_add; cbn [Nat.odd Nat.even negb xorb];
      destruct (Nat.odd x), (Nat.odd y); reflexivity.
Qed.
Print Assumptions C96_caps_lock_parity.

(** CAPS LOCK pressed on keyboard 0, then switches 0 and 1 closed (keyboard 3), then
    both opened in the same scan: keyboard 2 is passed through, CAPS LOCK is off. *)
Definition passing : list (nat -> N) := hold 12 [(5, 2)] ++ hold 12 [(8, 0); (8, 1)] ++ hold 12 [].
Example C96_example : Forall dips_off passing /\
  obs (fun s => (k_cur s, caps_on s)) (run (hold 12 [(5, 2)])) = Some (0%N, true) /\
  obs (fun s => (k_cur s, caps_on s)) (run (hold 12 [(5, 2)] ++ hold 12 [(8, 0); (8, 1)])) = Some (3%N, true) /\
  obs (fun s => (k_cur s, caps_on s)) (run passing) = Some (0%N, false) /\
  times caps_pressed passing = 1 /\ times enters_apple passing = 1.
Proof.
  split; [repeat (apply Forall_app; split); apply Forall_forall; intros x Hx; apply repeat_spec in Hx; subst x; split; reflexivity|].
  vm_compute. auto 10.
Qed.
