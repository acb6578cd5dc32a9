(** What a firmware built from any keymaps does depends on the sequence of
    accepted key transitions only (C100). *)
From Coq Require Import List NArith ZArith Arith Bool Lia.
From Coq Require Import ZifyBool ZifyNat ZifyN.
From Verif Require Import Base Lib Buffer BufferSpec BufferProofs Repeat Devices DevSpec DevProofs
     Modifiers Hook KeymapData Asdf KeySpec KeyRef Obs PropDebounce Custom CustomSpec CustomRef PropCustom.
Import ListNotations.
Local Open Scope outcome_scope.

(** ** Specification *)

(** The transitions accepted while [rds] is read after [pre]: key by key from
    its own readings, in the order of the scan. *)
Definition accepted_after (l : list (nat -> N)) (r c : nat) : bool := fst (dstate (key_readings l r c)).
Definition key_event (pre : list (nat -> N)) (rd : nat -> N) (r c : nat) : list (nat * nat * bool) :=
  let b := accepted_after (pre ++ [rd]) r c in
  if Bool.eqb (accepted_after pre r c) b then [] else [(r, c, b)].
Definition scan_events (R C : nat) (pre : list (nat -> N)) (rd : nat -> N) : list (nat * nat * bool) :=
  flat_map (fun r => flat_map (key_event pre rd r) (seq 0 C)) (seq 0 R).
Fixpoint transitions (R C : nat) (pre rds : list (nat -> N)) : list (nat * nat * bool) :=
  match rds with
  | [] => []
  | rd :: t => scan_events R C pre rd ++ transitions R C (pre ++ [rd]) t
  end.

(** Modes and selected keyboard. *)
Record setting := mkSetting {
  e_kb : N; e_shift : bool; e_lock : bool; e_caps : bool; e_ctrl : bool }.

(** The code of a key: CTRL before SHIFT before CAPS LOCK. *)
Definition map_in (e : setting) : nat :=
  if e_ctrl e then 3 else if e_shift e || e_lock e then 1 else if e_caps e then 2 else 0.
Definition code_in (kbs : N -> option (list setup_cmd)) (e : setting) (r c : nat) : N :=
  match kbs (e_kb e) with
  | Some cs => match table_of cs (map_in e) with Some (m, _, C) => nth (r * C + c) m 0%N | None => 0%N end
  | None => 0%N
  end.

(** Selecting a keyboard: its setup function may toggle CAPS LOCK. *)
Definition caps_toggles (cs : list setup_cmd) : nat :=
  length (filter (fun c => match c with SCapslock => true | _ => false end) cs).
Definition choose (kbs : N -> option (list setup_cmd)) (i : N) (e : setting) : setting :=
  if (i =? e_kb e)%N then e
  else match kbs i with
       | Some cs => mkSetting i (e_shift e) (e_lock e) (xorb (e_caps e) (Nat.odd (caps_toggles cs))) (e_ctrl e)
       | None => e
       end.

Definition after_press (kbs : N -> option (list setup_cmd)) (x : N) (e : setting) : setting :=
  match decode x with
  | AShift => mkSetting (e_kb e) true false (e_caps e) (e_ctrl e)
  | AShiftlockOn => mkSetting (e_kb e) (e_shift e) true (e_caps e) (e_ctrl e)
  | AShiftlockToggle => mkSetting (e_kb e) (e_shift e) (negb (e_lock e)) (e_caps e) (e_ctrl e)
  | ACaps => mkSetting (e_kb e) (e_shift e) (e_lock e) (negb (e_caps e)) (e_ctrl e)
  | ACtrl => mkSetting (e_kb e) (e_shift e) (e_lock e) (e_caps e) true
  | AMapsel n => choose kbs (u8 (N.setbit (e_kb e) n)) e
  | _ => e
  end.
Definition after_release (kbs : N -> option (list setup_cmd)) (x : N) (e : setting) : setting :=
  match decode x with
  | AShift => mkSetting (e_kb e) false false (e_caps e) (e_ctrl e)
  | ACtrl => mkSetting (e_kb e) (e_shift e) (e_lock e) (e_caps e) false
  | AMapsel n => choose kbs (u8 (N.clearbit (e_kb e) n)) e
  | _ => e
  end.
Definition after_event (kbs : N -> option (list setup_cmd)) (e : setting) (t : nat * nat * bool) : setting :=
  let '(r, c, b) := t in
  let x := code_in kbs e r c in
  if (b : bool) then after_press kbs x e else after_release kbs x e.

(** At power-on keyboard 0 is set up. *)
Definition at_start (kbs : N -> option (list setup_cmd)) : setting :=
  mkSetting 0 false false
    (match kbs 0%N with Some cs => Nat.odd (caps_toggles cs) | None => false end) false.

Definition setting_is (e : setting) (s : kb) : Prop :=
  k_cur s = e_kb e /\ shift_on s = (e_shift e || e_lock e) /\ caps_on s = e_caps e /\ ctrl_on s = e_ctrl e.

(** Calls into the architecture layer other than sending. *)
Definition calls (l : list event) : list event :=
  filter (fun e => match e with EvSend _ | EvDelayMs _ => false | _ => true end) l.

(** All tables of the firmware have [R] rows and [C] columns. *)
Definition same_size (R C : nat) (kbs : N -> option (list setup_cmd)) : Prop :=
  forall i cs mi, kbs i = Some cs -> mi < 4 -> exists m, table_of cs mi = Some (m, R, C).

(** ** The part of the state that only transitions change *)
Definition E (g h : gkb) : Prop :=
  g_last g = g_last h /\ g_mod g = g_mod h /\ g_vs g = g_vs h /\ calls (g_log g) = calls (g_log h) /\
  g_cur g = g_cur h /\ g_maps g = g_maps h /\ g_hook g = g_hook h.

Lemma E_refl : forall g, E g g.
Proof. repeat split. Qed.
Lemma E_sym : forall g h, E g h -> E h g.
Proof. intros g h (A1&A2&A3&A4&A5&A6&A7). repeat split; auto. Qed.
Lemma E_trans : forall g h k, E g h -> E h k -> E g k.
Proof. intros g h k (A1&A2&A3&A4&A5&A6&A7) (B1&B2&B3&B4&B5&B6&B7). repeat split; congruence. Qed.

Ltac ee H := let A1 := fresh "A1" in let A2 := fresh "A2" in let A3 := fresh "A3" in let A4 := fresh "A4" in
  let A5 := fresh "A5" in let A6 := fresh "A6" in let A7 := fresh "A7" in
  destruct H as (A1&A2&A3&A4&A5&A6&A7).

Lemma calls_app : forall a b, calls (a ++ b) = calls a ++ calls b.
Proof. intros. unfold calls. apply filter_app. Qed.

Lemma calls_rev : forall l, calls (rev l) = rev (calls l).
Proof.
  induction l as [|e l IH]; auto. cbn [rev]. rewrite calls_app, IH.
  change (calls (e :: l)) with (calls ([e] ++ l)). rewrite calls_app, rev_app_distr. f_equal.
  destruct e; reflexivity.
Qed.

Lemma E_act : forall f v g h, E g h -> E (gact f v g) (gact f v h).
Proof.
  intros f v g h H. ee H. unfold gact. rewrite A3. destruct (spec_action _ _ _) as [lv ev].
  unfold E. cbn [gp_log gp_vs g_last g_mod g_vs g_log g_cur g_maps g_hook]. rewrite !calls_app, A4. auto 10.
Qed.
Lemma E_note : forall e g h, E g h -> E (gnote e g) (gnote e h).
Proof.
  intros e g h H. ee H. unfold E. cbn [gnote gp_log g_last g_mod g_vs g_log g_cur g_maps g_hook].
  repeat split; auto. change (calls ([e] ++ g_log g) = calls ([e] ++ g_log h)). rewrite !calls_app, A4. auto.
Qed.
Lemma E_mod : forall m g h, E g h -> E (gp_mod m g) (gp_mod m h).
Proof. intros m g h H. ee H. repeat split; auto. Qed.
Lemma E_shift : forall x g h, E g h -> E (gset_shift x g) (gset_shift x h).
Proof.
  intros x g h H. unfold gset_shift. cbv zeta. set (f := if N.testbit x 1 then _ else _).
  pose proof (E_act f VSHIFT_LED g h H) as X. pose proof X as Y. ee Y. rewrite A2. apply E_mod. auto.
Qed.
Lemma E_caps : forall g h, E g h -> E (gtoggle_caps g) (gtoggle_caps h).
Proof.
  intros g h H. unfold gtoggle_caps. cbv zeta. pose proof H as Z. ee Z. rewrite A2.
  set (f := if (_ =? 0)%N then _ else _).
  pose proof (E_act f VCAPS_LED g h H) as X. assert (Y : g_mod (gact f VCAPS_LED g) = g_mod (gact f VCAPS_LED h)) by apply X. rewrite Y. apply E_mod. auto.
Qed.
Lemma E_ctrl : forall x g h, E g h -> E (gset_ctrl x g) (gset_ctrl x h).
Proof. intros x g h H. unfold gset_ctrl. pose proof H as Z. ee Z. rewrite A2. apply E_mod. auto. Qed.
Lemma E_setup_step : forall c g h, E g h -> E (gsetup_step c g) (gsetup_step c h).
Proof.
  intros c g h H. pose proof H as Z. ee Z. destruct c; cbn [gsetup_step].
  - destruct ((mi <? 4) && (rows <=? 16) && (cols <=? 8)); auto. rewrite A6. repeat split; auto.
  - destruct ((0 <? id) && (id <? 16)); auto. rewrite A7. repeat split; auto.
  - rewrite A3. repeat split; auto.
  - repeat split; auto.
  - apply E_caps; auto.
  - apply E_note; auto.
Qed.
Lemma E_setup : forall cs g h, E g h -> E (gsetup cs g) (gsetup cs h).
Proof. induction cs as [|c cs IH]; intros g h H; cbn; auto. apply IH. apply E_setup_step. auto. Qed.
Lemma E_clear : forall i g h, E g h -> E (gclear i g) (gclear i h).
Proof. intros i g h H. unfold gclear. apply E_note. ee H. repeat split; auto. Qed.

Lemma E_hook : forall id g h g', E g h -> ghook id g = Ok g' -> E g g' /\ exists h', ghook id h = Ok h' /\ E g' h'.
Proof.
  intros id g h g' H E1. pose proof H as Z. ee Z. unfold ghook in *. rewrite <- A7.
  destruct (nth id (g_hook g) HUnset) as [| | | | |m]; try destruct (format m); inv E1; (split; [repeat split|]); eexists; (split; [reflexivity|]); auto.
Qed.

Section Events.
Variable kbs : N -> option (list setup_cmd).

Lemma E_select : forall i g h, E g h -> E (gselect kbs i g) (gselect kbs i h).
Proof.
  intros i g h H. unfold gselect. pose proof H as Z. ee Z. rewrite A5. destruct (i =? g_cur h)%N; auto.
  unfold gswitch. destruct (kbs i); auto. apply E_setup. apply E_clear. auto.
Qed.

Lemma E_rep : forall r g h, E g h -> E (gp_rep r g) h.
Proof. intros r g h H. ee H. repeat split; auto. Qed.
Lemma E_on : forall x g h g', E g h -> gaction_on kbs x g = Ok g' ->
  exists h', gaction_on kbs x h = Ok h' /\ E g' h'.
Proof.
  intros x g h g' H E1. pose proof H as Z. ee Z. unfold gaction_on in *. rewrite <- ?A2, <- ?A3, <- ?A5.
  destruct (decode x);
    try (match type of E1 with ghook _ _ = _ => destruct (E_hook _ _ _ _ H E1) as [_ X]; exact X end; fail);
    try (inv E1; eexists; (split; [reflexivity|]); auto using E_shift, E_caps, E_ctrl, E_select, E_note, E_act; fail).
  - destruct (n <=? 10); [destruct (E_hook _ _ _ _ H E1) as [_ X]; exact X|]. inv E1. eauto.
Qed.
Lemma E_off : forall x g h, E g h -> E (gaction_off kbs x g) (gaction_off kbs x h).
Proof.
  intros x g h H. pose proof H as Z. ee Z. unfold gaction_off. rewrite <- ?A5.
  destruct (decode x); auto using E_shift, E_ctrl, E_select, E_note;
    apply E_rep, E_sym, E_rep, E_sym, H.
Qed.
Lemma E_press : forall x g h g', E g h -> gpress kbs x g = Ok g' ->
  exists h', gpress kbs x h = Ok h' /\ E g' h'.
Proof.
  intros x g h g' H E1. unfold gpress in *. destruct (0xA0 <? x)%N; [eapply E_on; eauto|].
  ee H. inv E1. rewrite <- A1. destruct (g_last g =? x)%N; eexists; (split; [reflexivity|]); repeat split; auto.
Qed.
Lemma E_release : forall x g h, E g h -> E (grelease kbs x g) (grelease kbs x h).
Proof.
  intros x g h H. unfold grelease. destruct (0xA0 <? x)%N; [apply E_off; auto|].
  ee H. rewrite <- A1. destruct (g_last g =? x)%N; repeat split; auto.
Qed.
Lemma E_code : forall r c g h, E g h -> gcode r c g = gcode r c h.
Proof. intros r c g h H. ee H. unfold gcode. rewrite A2, A5, A6. reflexivity. Qed.

(** The effect of one transition. *)
Definition estep (g : gkb) (t : nat * nat * bool) : gkb :=
  let '(r, c, b) := t in
  match gcode r c g with
  | Ok x => if (b : bool) then match gpress kbs x g with Ok g' => g' | Bad _ => g end else grelease kbs x g
  | Bad _ => g
  end.
Lemma E_estep : forall R0 r c b g h, sound_firmware R0 kbs -> Tab kbs g -> E g h -> E (estep g (r, c, b)) (estep h (r, c, b)).
Proof.
  intros R0 r c b g h S T H. unfold estep. rewrite <- (E_code r c g h H). destruct (gcode r c g) as [x|]; auto.
  destruct b; [|apply E_release; auto]. destruct (press_ok R0 kbs S x g T) as [g' E1].
  destruct (E_press x g h g' H E1) as [h' [E2 HE]]. rewrite E1, E2. auto.
Qed.

(** Repeating codes are never actions. *)
Definition low (g : gkb) : Prop := (g_last g <= 0xA0)%N.
Lemma hook_low : forall id g g', ghook id g = Ok g' -> g_last g' = g_last g.
Proof. intros id g g' H. unfold ghook in H. destruct (nth id (g_hook g) HUnset) as [| | | | |m]; try destruct (format m); inv H; auto. Qed.
Lemma act_last : forall f v g, g_last (gact f v g) = g_last g.
Proof. intros. apply gact_same. Qed.
Lemma select_last : forall i g, g_last (gselect kbs i g) = g_last g.
Proof. intros. unfold gselect. destruct (i =? g_cur g)%N; auto. apply gswitch_same. Qed.
Lemma on_last : forall x g g', gaction_on kbs x g = Ok g' -> g_last g' = g_last g.
Proof.
  intros x g g' H. unfold gaction_on in H. destruct (decode x);
    try (match type of H with ghook _ _ = _ => eapply hook_low; eauto end; fail);
    try (inv H; auto using act_last, select_last; fail).
  - inv H. apply gshift_same.
  - inv H. apply gshift_same.
  - inv H. apply gshift_same.
  - inv H. apply gcaps_same.
  - destruct (n <=? 10); [eapply hook_low; eauto|]. inv H. auto.
Qed.
Lemma off_last : forall x g, g_last (gaction_off kbs x g) = g_last g.
Proof.
  intros x g. unfold gaction_off. destruct (decode x); auto using select_last. apply gshift_same.
Qed.
Lemma press_low : forall x g g', gpress kbs x g = Ok g' -> low g -> low g'.
Proof.
  unfold low. intros x g g' H L. unfold gpress in H. destruct (N.ltb_spec 0xA0 x).
  - rewrite (on_last _ _ _ H). auto.
  - inv H. destruct (g_last g =? x)%N; cbn; auto.
Qed.
Lemma release_low : forall x g, low g -> low (grelease kbs x g).
Proof.
  unfold low. intros x g L. unfold grelease. destruct (0xA0 <? x)%N; [rewrite off_last; auto|].
  destruct (g_last g =? x)%N; cbn; auto. lia.
Qed.
Lemma held_E : forall x g g', gheld kbs x g = Ok g' -> low g -> E g g' /\ low g'.
Proof.
  unfold low. intros x g g' H L. unfold gheld in H. destruct (N.eqb_spec x (g_last g)).
  - destruct (repeat_tick (g_rep g)) as [[] q]; [|inv H; split; [repeat split|auto]].
    unfold gpress in H. replace (0xA0 <? x)%N with false in H by lia.
    cbn [gp_rep g_last] in H. rewrite e, N.eqb_refl in H. inv H. split; [repeat split|auto].
  - inv H. split; [apply E_refl|auto].
Qed.

Variable R C : nat.
Hypothesis sound : sound_firmware R kbs.
Hypothesis size : same_size R C kbs.

Lemma tab_size : forall g, Tab kbs g -> g_rows g = R /\ g_cols g = C.
Proof.
  intros g [cs (A&B&_)]. unfold g_rows, g_cols. pose proof (map_now_lt (g_mod g)) as HL.
  destruct (size _ _ _ A HL) as [m EM]. pose proof (proj1 (tm_table cs _ HL)) as X. rewrite EM in X.
  rewrite B, (nth_error_nth _ _ no_map X). auto.
Qed.
Lemma size_small : R <= 16 /\ C <= 8.
Proof.
  destruct (proj1 sound) as [cs EC]. destruct (size _ _ 0 EC ltac:(lia)) as [m E1]. eapply table_small; eauto.
Qed.

Definition ev1 (g : gkb) (rd : nat -> N) (r c : nat) : list (nat * nat * bool) :=
  let b := fst (db (dbp g r c) (reading rd r c)) in
  if Bool.eqb (g_dn g r c) b then [] else [(r, c, b)].

Lemma key_events : forall rd r c g, Tab kbs g -> low g -> r < R -> c < C ->
  exists g', gkey kbs rd r c g = Ok g' /\ Tab kbs g' /\ low g' /\ E (fold_left estep (ev1 g rd r c) g) g'.
Proof.
  intros rd r c g T L Hr Hc. destruct (tab_size g T) as [W1 W2].
  destruct (key_ok R kbs sound rd r c g T ltac:(lia) ltac:(lia)) as [g' (EK&T'&_)].
  exists g'. split; [auto|]. split; [auto|]. unfold gkey in EK. cbv zeta in EK. unfold ev1, dbp, db. cbn [fst snd].
  destruct (Bool.eqb (reading rd r c) (g_dn g r c)) eqn:EQ; cbn [fst].
  - rewrite Bool.eqb_reflx. cbn [fold_left]. destruct (reading rd r c); [|inv EK; split; [auto|apply E_refl]].
    apply bind_Ok_inv in EK. destruct EK as [x [_ EK]]. destruct (held_E x g g' EK L). auto.
  - destruct (g_ct g r c =? 1)%N; cbn [fst].
    + replace (Bool.eqb (g_dn g r c) (reading rd r c)) with false
        by (destruct (g_dn g r c), (reading rd r c); auto).
      cbn [fold_left]. apply bind_Ok_inv in EK. destruct EK as [x [EX EK]].
      set (g1 := gp_dn (set2 (g_dn g) r c (reading rd r c)) (gp_ct (set2 (g_ct g) r c 10%N) g)) in *.
      assert (E1 : E g g1) by repeat split. assert (T1 : Tab kbs g1) by (apply (Tab_eq kbs g); auto).
      assert (X : estep g1 (r, c, reading rd r c) = g').
      { unfold estep. rewrite EX. destruct (reading rd r c); [rewrite EK; auto|inv EK; auto]. }
      split.
      * destruct (reading rd r c); [eapply press_low; eauto|]. inv EK. apply release_low. auto.
      * rewrite <- X. apply (E_estep R); auto.
    + rewrite Bool.eqb_reflx. inv EK. split; [auto|repeat split].
Qed.

Lemma Tab_estep : forall g t, Tab kbs g -> Tab kbs (estep g t).
Proof.
  intros g [[r c] b] T. unfold estep. destruct (gcode r c g) as [x|]; auto.
  destruct b; [|apply release_tabs; auto]. destruct (gpress kbs x g) as [g'|] eqn:EP; auto.
  eapply press_tabs; eauto.
Qed.
Lemma E_fold : forall l g h, Tab kbs g -> E g h -> E (fold_left estep l g) (fold_left estep l h).
Proof.
  induction l as [|[[r c] b] l IH]; intros g h T H; cbn [fold_left]; auto.
  apply IH; [apply Tab_estep; auto|]. apply (E_estep R); auto.
Qed.
Lemma Tab_fold : forall l g, Tab kbs g -> Tab kbs (fold_left estep l g).
Proof. induction l; intros g T; cbn [fold_left]; auto. apply IHl. apply Tab_estep; auto. Qed.

Lemma cols_events : forall n rd r c g, Tab kbs g -> low g -> r < R -> n + c = 8 ->
  exists g', gcols kbs n rd r c g = Ok g' /\ Tab kbs g' /\ low g' /\
    E (fold_left estep (flat_map (ev1 g rd r) (seq c (C - c))) g) g'.
Proof.
  pose proof size_small as [SR SC].
  induction n as [|n IH]; intros rd r c g T L Hr HN; cbn [gcols].
  - exists g. replace (C - c) with 0 by lia. cbn. auto using E_refl.
  - destruct (tab_size g T) as [W1 W2]. rewrite W2. destruct (Nat.ltb_spec c C).
    + destruct (key_events rd r c g T L Hr H) as [g1 (E1&T1&L1&X1)]. rewrite E1. cbn [bind].
      destruct (IH rd r (S c) g1 T1 L1 Hr ltac:(lia)) as [g' (E2&T2&L2&X2)]. exists g'.
      split; [auto|]. split; [auto|]. split; [auto|].
      replace (C - c) with (S (C - S c)) by lia. cbn [seq flat_map]. rewrite fold_left_app.
      assert (FR : flat_map (ev1 g rd r) (seq (S c) (C - S c)) = flat_map (ev1 g1 rd r) (seq (S c) (C - S c))).
      { rewrite !flat_map_concat_map. f_equal. apply map_ext_in. intros c' Hc'. apply in_seq in Hc'.
        destruct (gkey_frame kbs rd r c g g1 r c' E1 ltac:(lia)) as [A1 A2].
        unfold ev1, dbp. rewrite A1, A2. reflexivity. }
      rewrite FR. eapply E_trans; [|exact X2]. apply E_fold; [apply Tab_fold; auto|auto].
    + exists g. replace (C - c) with 0 by lia. cbn. auto using E_refl.
Qed.

Lemma cols_frame : forall n rd r c g g', gcols kbs n rd r c g = Ok g' -> forall r' c', r' <> r ->
  g_dn g' r' c' = g_dn g r' c' /\ g_ct g' r' c' = g_ct g r' c'.
Proof.
  induction n as [|n IH]; intros rd r c g g' H r' c' HR; cbn [gcols] in H; [inv H; auto|].
  destruct (c <? g_cols g); [|inv H; auto]. apply bind_Ok_inv in H. destruct H as [g1 [E1 H]].
  destruct (gkey_frame kbs rd r c g g1 r' c' E1 ltac:(auto)) as [A1 A2].
  destruct (IH _ _ _ _ _ H r' c' HR) as [B1 B2]. rewrite B1, B2, A1, A2. auto.
Qed.

Lemma rows_events : forall n rd r g, Tab kbs g -> low g -> n + r = 16 ->
  exists g', grows kbs n rd r g = Ok g' /\ Tab kbs g' /\ low g' /\
    E (fold_left estep (flat_map (fun r => flat_map (ev1 g rd r) (seq 0 C)) (seq r (R - r))) g) g'.
Proof.
  pose proof size_small as [SR SC].
  induction n as [|n IH]; intros rd r g T L HN; cbn [grows].
  - exists g. replace (R - r) with 0 by lia. cbn. auto using E_refl.
  - destruct (tab_size g T) as [W1 W2]. rewrite W1. destruct (Nat.ltb_spec r R).
    + destruct (cols_events 8 rd r 0 g T L H eq_refl) as [g1 (E1&T1&L1&X1)]. rewrite E1. cbn [bind].
      destruct (IH rd (S r) g1 T1 L1 ltac:(lia)) as [g' (E2&T2&L2&X2)]. exists g'.
      split; [auto|]. split; [auto|]. split; [auto|].
      replace (R - r) with (S (R - S r)) by lia. cbn [seq flat_map]. rewrite fold_left_app.
      rewrite Nat.sub_0_r in X1.
      assert (FR : flat_map (fun r => flat_map (ev1 g rd r) (seq 0 C)) (seq (S r) (R - S r)) =
                   flat_map (fun r => flat_map (ev1 g1 rd r) (seq 0 C)) (seq (S r) (R - S r))).
      { rewrite !flat_map_concat_map. f_equal. apply map_ext_in. intros r' Hr'. apply in_seq in Hr'.
        rewrite !flat_map_concat_map. f_equal. apply map_ext_in. intros c' _.
        destruct (cols_frame _ _ _ _ _ _ E1 r' c' ltac:(lia)) as [A1 A2].
        unfold ev1, dbp. rewrite A1, A2. reflexivity. }
      rewrite FR. eapply E_trans; [|exact X2]. apply E_fold; [apply Tab_fold; auto|auto].
    + exists g. replace (R - r) with 0 by lia. cbn. auto using E_refl.
Qed.

Lemma emit_E : forall x g g', gemit x g = Ok g' -> E g g'.
Proof.
  intros x g g' H. unfold gemit in H. destruct (x <? 0xA0)%N; [|inv H; apply E_refl].
  destruct (nth HOOK_OUTPUT (g_hook g) HUnset); inv H. repeat split.
Qed.
Lemma send_E : forall g g', gsend g = Ok g' -> E g g'.
Proof.
  intros g g' H. unfold gsend in H. cbv zeta in H. destruct (hd 0xA0 (g_qm g) =? 0xA0)%N.
  - apply emit_E in H. eapply E_trans; [|exact H]. repeat split.
  - apply emit_E in H. eapply E_trans; [|exact H]. repeat split.
Qed.

Lemma tick_events : forall rd g, Tab kbs g -> low g ->
  exists g', gtick kbs rd g = Ok g' /\ Tab kbs g' /\ low g' /\
    E (fold_left estep (flat_map (fun r => flat_map (ev1 g rd r) (seq 0 C)) (seq 0 R)) g) g'.
Proof.
  intros rd g T L. unfold gtick. destruct (send_ok R kbs sound g T) as [g1 (E1&T1&D1&D2)]. rewrite E1. cbn [bind].
  destruct (scan_split R kbs sound rd g1 T1) as [g2 (H2&T2&D3&D4&E2)]. rewrite E2.
  assert (X2 : E g g2) by (eapply E_trans; [apply send_E; eauto|apply (E_hook _ _ _ _ (E_refl g1) H2)]).
  assert (L2 : low g2) by (unfold low in *; destruct X2 as [<- _]; auto).
  destruct (rows_events 16 rd 0 g2 T2 L2 eq_refl) as [g' (E3&T3&L3&X3)]. exists g'.
  split; [auto|]. split; [auto|]. split; [auto|]. rewrite Nat.sub_0_r in X3.
  eapply E_trans; [|exact X3].
  assert (FR : flat_map (fun r => flat_map (ev1 g rd r) (seq 0 C)) (seq 0 R) =
               flat_map (fun r => flat_map (ev1 g2 rd r) (seq 0 C)) (seq 0 R)).
  { unfold ev1, dbp. rewrite D3, D4, D1, D2. reflexivity. }
  rewrite FR. apply E_fold; auto.
Qed.

Lemma at_least_size : at_least C kbs.
Proof.
  intros i cs m R' C' EC EM. destruct (size i cs 0 EC ltac:(lia)) as [m' E1]. rewrite E1 in EM. inv EM. auto.
Qed.

Lemma ticks_events : forall rds pre g, Tab kbs g -> low g ->
  (forall r c, r < R -> c < C -> dbp g r c = dstate (key_readings pre r c)) ->
  exists g', gticks kbs rds g = Ok g' /\ Tab kbs g' /\ E (fold_left estep (transitions R C pre rds) g) g'.
Proof.
  induction rds as [|rd rds IH]; intros pre g T L HD; cbn [gticks transitions].
  - exists g. cbn. auto using E_refl.
  - destruct (tick_events rd g T L) as [g1 (E1&T1&L1&X1)]. rewrite E1. cbn [bind].
    destruct (IH (pre ++ [rd]) g1 T1 L1) as [g' (E2&T2&X2)].
    + intros r c Hr Hc. rewrite (tick_dbp R kbs sound C at_least_size rd g g1 r c T E1 Hr Hc).
      rewrite key_readings_app. change (key_readings [rd] r c) with [reading rd r c]. rewrite dstate_snoc, HD; auto.
    + exists g'. split; [auto|]. split; [auto|]. rewrite fold_left_app. eapply E_trans; [|exact X2].
      apply E_fold; [apply Tab_fold; auto|].
      assert (FR : scan_events R C pre rd = flat_map (fun r => flat_map (ev1 g rd r) (seq 0 C)) (seq 0 R)).
      { unfold scan_events. rewrite !flat_map_concat_map. f_equal. apply map_ext_in. intros r Hr. apply in_seq in Hr.
        rewrite !flat_map_concat_map. f_equal. apply map_ext_in. intros c Hc. apply in_seq in Hc.
        unfold key_event, ev1, accepted_after. rewrite key_readings_app.
        change (key_readings [rd] r c) with [reading rd r c]. rewrite dstate_snoc, <- HD by lia. reflexivity. }
      rewrite FR. auto.
Qed.

Lemma boot_low : low (gboot kbs).
Proof. unfold low, gboot. destruct (gswitch_same kbs 0 gzero) as (_&_&A&_). rewrite A. cbn. lia. Qed.

Lemma run_events : forall rds s, c_run kbs rds = Ok s ->
  exists g, GRel g s /\ Tab kbs g /\ E (fold_left estep (transitions R C [] rds) (gboot kbs)) g.
Proof.
  intros rds s ES. destruct (run_ok_g R kbs sound rds) as (g&s'&E1&T1&E2&RL). rewrite ES in E2. inv E2.
  destruct (ticks_events rds [] (gboot kbs) (tab_boot R kbs sound) boot_low) as [g' (E3&T3&X3)].
  { intros r c _ _. apply boot_dbp. }
  unfold grun in E1. rewrite E1 in E3. inv E3. eauto.
Qed.

(** ** The setting *)
Definition shift_val (e : setting) : N := ((if e_shift e then 1 else 0) + (if e_lock e then 2 else 0))%N.
Definition bitN (b : bool) : N := if b then 1%N else 0%N.
Definition is_set (e : setting) (g : gkb) : Prop :=
  g_cur g = e_kb e /\ g_mod g = mkMods (shift_val e) (bitN (e_caps e)) (bitN (e_ctrl e)).

Lemma set_map : forall e g, is_set e g -> map_now (g_mod g) = map_in e.
Proof.
  intros e g [_ H]. rewrite H. unfold map_now, map_in, shift_val. cbn.
  destruct (e_ctrl e), (e_shift e), (e_lock e), (e_caps e); reflexivity.
Qed.
Lemma set_code : forall e g r c, Tab kbs g -> is_set e g -> r < R -> c < C -> gcode r c g = Ok (code_in kbs e r c).
Proof.
  intros e g r c T HS Hr Hc. pose proof T as [cs (A&B&_)]. unfold code_in. rewrite <- (proj1 HS), A.
  rewrite <- (set_map e g HS). pose proof (map_now_lt (g_mod g)) as HL.
  destruct (proj2 sound _ _ A) as [HI [[R' [C' [_ HM]]] _]].
  destruct (HM _ HL) as [m (EM&LM&_)]. destruct (size _ _ _ A HL) as [m1 E1]. rewrite EM in E1. inv E1.
  rewrite EM. unfold gcode. rewrite B.
  destruct (HM (N.to_nat (g_cur g)) ltac:(lia)) as [m2 (EM2&_)].
  rewrite (proj1 (tm_table cs (N.to_nat (g_cur g)) ltac:(lia))), EM2. cbn [entry km_cols km_rows].
  replace (C =? 0) with false by lia. replace (R =? 0) with false by lia. cbn [orb].
  pose proof (proj1 (tm_table cs _ HL)) as X. rewrite EM in X. rewrite (nth_error_nth _ _ no_map X).
  cbn [entry km_matrix]. apply lget_ok. apply nth_error_nth'. nia.
Qed.

Lemma act_mc : forall f v g, g_mod (gact f v g) = g_mod g /\ g_cur (gact f v g) = g_cur g.
Proof. intros. unfold gact. destruct (spec_action _ _ _). auto. Qed.
Lemma caps_mc : forall g, g_mod (gtoggle_caps g) = mkMods (m_shift (g_mod g)) (N.lxor (m_caps (g_mod g)) 1) (m_ctrl (g_mod g)) /\
  g_cur (gtoggle_caps g) = g_cur g.
Proof.
  intros. unfold gtoggle_caps. cbv zeta. cbn [gp_mod g_mod g_cur].
  destruct (act_mc (if (N.lxor (m_caps (g_mod g)) 1 =? 0)%N then V_SET_LO else V_SET_HI) VCAPS_LED g) as [-> ->]. auto.
Qed.
Lemma shift_mc : forall x g, g_mod (gset_shift x g) = mkMods x (m_caps (g_mod g)) (m_ctrl (g_mod g)) /\
  g_cur (gset_shift x g) = g_cur g.
Proof.
  intros. unfold gset_shift. cbv zeta. cbn [gp_mod g_mod g_cur].
  destruct (act_mc (if N.testbit x 1 then V_SET_HI else V_SET_LO) VSHIFT_LED g) as [-> ->]. auto.
Qed.
Lemma hook_mc : forall id g g', ghook id g = Ok g' -> g_mod g' = g_mod g /\ g_cur g' = g_cur g.
Proof. intros id g g' H. unfold ghook in H. destruct (nth id (g_hook g) HUnset) as [| | | | |m]; try destruct (format m); inv H; auto. Qed.

Lemma setup_mc : forall cs g b sh ct, g_mod g = mkMods sh (bitN b) ct ->
  g_mod (gsetup cs g) = mkMods sh (bitN (xorb b (Nat.odd (caps_toggles cs)))) ct.
Proof.
  induction cs as [|c cs IH]; intros g b sh ct H; [cbn; rewrite xorb_false_r; auto|].
  change (gsetup (c :: cs) g) with (gsetup cs (gsetup_step c g)).
  destruct c; unfold caps_toggles; cbn [filter]; fold (caps_toggles cs); cbn [gsetup_step];
    try (apply IH; auto; fail).
  - apply IH. destruct ((mi <? 4) && (rows <=? 16) && (cols <=? 8)); auto.
  - apply IH. destruct ((0 <? id) && (id <? 16)); auto.
  - cbn [length]. rewrite Nat.odd_succ, <- Nat.negb_odd. fold (caps_toggles cs).
    replace (xorb b (negb (Nat.odd (caps_toggles cs)))) with (xorb (negb b) (Nat.odd (caps_toggles cs)))
      by (destruct b, (Nat.odd (caps_toggles cs)); auto).
    apply IH. destruct (caps_mc g) as [-> _]. rewrite H. cbn. destruct b; reflexivity.
Qed.
Lemma select_set : forall i e g, is_set e g -> is_set (choose kbs i e) (gselect kbs i g).
Proof.
  intros i e g HS. pose proof HS as [H1 H2]. unfold gselect, choose. rewrite H1. destruct (i =? e_kb e)%N; auto.
  destruct (kbs i) as [cs|] eqn:EK; [|unfold gswitch; rewrite EK; auto].
  split; [apply (gswitch_tabs kbs i g cs EK)|]. unfold gswitch. rewrite EK.
  apply setup_mc. exact H2.
Qed.

Lemma low_code : forall x, (x <= 0xA0)%N -> decode x = ANothing \/ decode x = AOther.
Proof.
  intros x H. unfold decode.
  repeat match goal with |- context [if ?b then _ else _] => destruct b eqn:? end; auto; lia.
Qed.
Lemma press_set : forall x e g g', is_set e g -> gpress kbs x g = Ok g' -> is_set (after_press kbs x e) g'.
Proof.
  intros x e g g' HS H. pose proof HS as [H1 H2]. unfold gpress in H. destruct (N.ltb_spec 0xA0 x).
  - unfold gaction_on in H. unfold after_press. destruct (decode x);
      try (match type of H with ghook _ _ = _ => destruct (hook_mc _ _ _ H) as [A B]; split; [rewrite B|rewrite A]; auto end; fail);
      try (inv H; exact HS).
    + inv H. destruct (shift_mc 1 g) as [A B]. split; [rewrite B; auto|]. rewrite A, H2. reflexivity.
    + inv H. destruct (shift_mc (N.lor (m_shift (g_mod g)) 2) g) as [A B]. split; [rewrite B; auto|].
      rewrite A, H2. cbn. f_equal. unfold shift_val. cbn. destruct (e_shift e), (e_lock e); reflexivity.
    + inv H. destruct (shift_mc (N.lxor (m_shift (g_mod g)) 2) g) as [A B]. split; [rewrite B; auto|].
      rewrite A, H2. cbn. f_equal. unfold shift_val. cbn. destruct (e_shift e), (e_lock e); reflexivity.
    + inv H. destruct (caps_mc g) as [A B]. split; [rewrite B; auto|].
      rewrite A, H2. cbn. f_equal. destruct (e_caps e); reflexivity.
    + inv H. split; auto. cbn. rewrite H2. reflexivity.
    + inv H. rewrite H1. apply select_set. auto.
    + inv H. split; (eapply eq_trans; [apply act_mc|auto]).
    + inv H. split; (eapply eq_trans; [apply act_mc|auto]).
    + destruct (n <=? 10); [|inv H; auto]. destruct (hook_mc _ _ _ H) as [A B]. split; [rewrite B|rewrite A]; auto.
  - assert (X : after_press kbs x e = e).
    { unfold after_press. destruct (low_code x) as [D|D]; [lia|rewrite D; auto..]. }
    rewrite X. inv H. destruct (g_last g =? x)%N; auto.
Qed.
Lemma release_set : forall x e g, is_set e g -> is_set (after_release kbs x e) (grelease kbs x g).
Proof.
  intros x e g HS. pose proof HS as [H1 H2]. unfold grelease. destruct (N.ltb_spec 0xA0 x).
  - unfold gaction_off, after_release. destruct (decode x); auto.
    + destruct (shift_mc 0 g) as [A B]. split; [rewrite B; auto|]. rewrite A, H2. reflexivity.
    + split; auto. cbn. rewrite H2. reflexivity.
    + rewrite H1. apply select_set. auto.
  - assert (X : after_release kbs x e = e).
    { unfold after_release. destruct (low_code x) as [D|D]; [lia|rewrite D; auto..]. }
    rewrite X. destruct (g_last g =? x)%N; auto.
Qed.

Lemma estep_set : forall e g r c b, Tab kbs g -> is_set e g -> r < R -> c < C ->
  is_set (after_event kbs e (r, c, b)) (estep g (r, c, b)).
Proof.
  intros e g r c b T HS Hr Hc. unfold after_event, estep. rewrite (set_code e g r c T HS Hr Hc).
  destruct b; [|apply release_set; auto].
  destruct (press_ok R kbs sound (code_in kbs e r c) g T) as [g' EP]. rewrite EP. eapply press_set; eauto.
Qed.
Lemma fold_set : forall l e g, (forall r c b, In (r, c, b) l -> r < R /\ c < C) -> Tab kbs g -> is_set e g ->
  is_set (fold_left (after_event kbs) l e) (fold_left estep l g).
Proof.
  induction l as [|[[r c] b] l IH]; intros e g HL T HS; cbn [fold_left]; auto.
  apply IH; [intros; apply (HL r0 c0 b0); right; auto|apply Tab_estep; auto|].
  destruct (HL r c b (or_introl eq_refl)). apply estep_set; auto.
Qed.
Lemma transitions_in : forall rds pre r c b, In (r, c, b) (transitions R C pre rds) -> r < R /\ c < C.
Proof.
  induction rds as [|rd rds IH]; intros pre r c b H; cbn [transitions] in H; [contradiction|].
  apply in_app_or in H. destruct H as [H|H]; [|eapply IH; eauto].
  unfold scan_events in H. apply in_flat_map in H. destruct H as [r1 [Hr H]].
  apply in_flat_map in H. destruct H as [c1 [Hc H]]. apply in_seq in Hr. apply in_seq in Hc.
  unfold key_event in H. cbv zeta in H. destruct (Bool.eqb _ _); [contradiction|].
  destruct H as [H|[]]. inv H. lia.
Qed.
Lemma start_set : is_set (at_start kbs) (gboot kbs).
Proof.
  destruct (proj1 sound) as [cs EC]. unfold gboot, at_start. rewrite EC. split.
  - apply (gswitch_tabs kbs 0 gzero cs EC).
  - unfold gswitch. rewrite EC. rewrite (setup_mc cs _ false 0 0) by reflexivity. rewrite xorb_false_l. reflexivity.
Qed.
End Events.

(** ** C100 *)
Theorem C100_setting : forall R C kbs rds s, sound_firmware R kbs -> same_size R C kbs ->
  c_run kbs rds = Ok s ->
  setting_is (fold_left (after_event kbs) (transitions R C [] rds) (at_start kbs)) s.
Proof.
  intros R C kbs rds s HS HZ ES. destruct (run_events kbs R C HS HZ rds s ES) as [g (RL&T&X)].
  pose proof (fold_set kbs R C HS HZ _ _ _ (fun r c b => transitions_in R C rds [] r c b) (tab_boot R kbs HS)
                (start_set kbs R HS)) as [I1 I2].
  set (e := fold_left (after_event kbs) (transitions R C [] rds) (at_start kbs)) in *.
  ee X. destruct RL as [RT _]. unfold setting_is, shift_on, caps_on, ctrl_on.
  rewrite (rt_mod _ _ RT), (rt_cur _ _ RT), <- A2, <- A5, I1, I2. cbn. split; [auto|]. unfold shift_val, bitN.
  destruct (e_shift e), (e_lock e), (e_caps e), (e_ctrl e); auto.
Qed.
Print Assumptions C100_setting.

Theorem C100_same_transitions : forall R C kbs rds rds' s s', sound_firmware R kbs -> same_size R C kbs ->
  c_run kbs rds = Ok s -> c_run kbs rds' = Ok s' ->
  transitions R C [] rds = transitions R C [] rds' ->
  calls (events s) = calls (events s') /\ k_mod s = k_mod s' /\ k_cur s = k_cur s' /\ k_last s = k_last s'.
Proof.
  intros R C kbs rds rds' s s' HS HZ E1 E2 HT.
  destruct (run_events kbs R C HS HZ rds s E1) as [g (RL&_&X)].
  destruct (run_events kbs R C HS HZ rds' s' E2) as [g' (RL'&_&X')].
  rewrite HT in X. pose proof (E_trans _ _ _ (E_sym _ _ X) X') as Y. ee Y.
  destruct RL as [RT RS], RL' as [RT' RS'].
  unfold events. rewrite (rt_mod _ _ RT), (rt_cur _ _ RT), (rt_log _ _ RT), (rs_last _ _ RS).
  rewrite (rt_mod _ _ RT'), (rt_cur _ _ RT'), (rt_log _ _ RT'), (rs_last _ _ RS').
  split; [|auto]. rewrite !calls_rev. f_equal. auto.
Qed.
Print Assumptions C100_same_transitions.

(** Keyboards 0 to 3 of the list: SHIFT down, mode switch 1 closed, CAPS LOCK
    typed, SHIFT up, on keyboard 2 (which toggles CAPS LOCK when selected). *)
Definition first_four (i : N) : option N := if (i <? 4)%N then Some i else None.
Lemma first_four_sound : sound_firmware 9 (choice first_four) /\ same_size 9 8 (choice first_four).
Proof.
  split.
  - apply choice_sound; [eexists; reflexivity|]. unfold first_four. intros i k. destruct (N.ltb_spec i 4); intros X; inv X. lia.
  - intros i cs mi. unfold choice, first_four. destruct (N.ltb_spec i 4); [|discriminate]. intros X Hm. inv X.
    assert (i = 0 \/ i = 1 \/ i = 2 \/ i = 3)%N as [-> | [-> | [-> | ->]]] by lia;
      do 4 (destruct mi as [|mi]; [eexists; vm_compute; reflexivity|]); lia.
Qed.
Definition demo : list (nat -> N) :=
  hold 10 [(0, 1)] ++ hold 10 [(0, 1); (8, 1)] ++ hold 10 [(0, 1); (8, 1); (0, 0)] ++ hold 10 [(8, 1)].
Example C100_example :
  transitions 9 8 [] demo = [(0, 1, true); (8, 1, true); (0, 0, true); (0, 0, false); (0, 1, false)] /\
  fold_left (after_event (choice first_four)) (transitions 9 8 [] demo) (at_start (choice first_four)) =
    mkSetting 2 false false false false /\
  obs (fun s => (k_cur s, shift_on s, caps_on s, ctrl_on s)) (c_run (choice first_four) demo) =
    Some (2%N, false, false, false) /\
  obs (fun s => (k_cur s, shift_on s, caps_on s, ctrl_on s)) (c_run (choice first_four) (firstn 20 demo)) =
    Some (2%N, true, true, false).
Proof. repeat split; vm_compute; reflexivity. Qed.

(** ** C101 *)

(** Key (r, c) carries code [x] in every table of every keyboard; in none. *)
Definition always (kbs : N -> option (list setup_cmd)) (x : N) (r c : nat) : Prop :=
  forall i cs mi m R C, kbs i = Some cs -> mi < 4 -> table_of cs mi = Some (m, R, C) -> nth (r * C + c) m 0%N = x.
Definition never (kbs : N -> option (list setup_cmd)) (x : N) (r c : nat) : Prop :=
  forall i cs mi m R C, kbs i = Some cs -> mi < 4 -> table_of cs mi = Some (m, R, C) -> nth (r * C + c) m 0%N <> x.
Definition fixed (R C : nat) (kbs : N -> option (list setup_cmd)) (x : N) : Prop :=
  forall r c, r < R -> c < C -> always kbs x r c \/ never kbs x r c.
Definition absent (R C : nat) (kbs : N -> option (list setup_cmd)) (x : N) : Prop :=
  forall r c, r < R -> c < C -> never kbs x r c.

Section Stuck.
Variable kbs : N -> option (list setup_cmd).
Variable R C : nat.
Hypothesis sound : sound_firmware R kbs.
Hypothesis size : same_size R C kbs.

Definition track (D : nat -> nat -> bool) (t : nat * nat * bool) : nat -> nat -> bool :=
  let '(r, c, b) := t in set2 D r c b.

Lemma track_to : forall f l D r c, (forall r c b, In (r, c, b) l -> b = f r c) ->
  In (r, c, f r c) l \/ D r c = f r c -> fold_left track l D r c = f r c.
Proof.
  intros f. induction l as [|[[r0 c0] b0] l IH]; intros D r c HL H; cbn [fold_left].
  - destruct H as [[]|]; auto.
  - apply IH; [intros; apply HL; right; auto|].
    pose proof (HL r0 c0 b0 (or_introl eq_refl)) as E0.
    cbn [track]. unfold set2. destruct ((r =? r0) && (c =? c0)) eqn:EQ.
    + right. assert (r = r0 /\ c = c0) as [-> ->] by lia. auto.
    + destruct H as [[H|H]|H]; auto. inv H. lia.
Qed.
Lemma scan_track : forall pre rd D, (forall r c, r < R -> c < C -> D r c = accepted_after pre r c) ->
  forall r c, r < R -> c < C -> fold_left track (scan_events R C pre rd) D r c = accepted_after (pre ++ [rd]) r c.
Proof.
  intros pre rd D HD r c Hr Hc. apply track_to.
  - intros r0 c0 b0 H. unfold scan_events in H. apply in_flat_map in H. destruct H as [r1 [_ H]].
    apply in_flat_map in H. destruct H as [c1 [_ H]]. unfold key_event in H. cbv zeta in H.
    destruct (Bool.eqb _ _); [contradiction|]. destruct H as [H|[]]. inv H. auto.
  - destruct (Bool.eqb (accepted_after pre r c) (accepted_after (pre ++ [rd]) r c)) eqn:EQ.
    + right. rewrite HD by auto. apply Bool.eqb_prop. auto.
    + left. unfold scan_events. apply in_flat_map. exists r. split; [apply in_seq; lia|].
      apply in_flat_map. exists c. split; [apply in_seq; lia|]. unfold key_event. cbv zeta. rewrite EQ. left. auto.
Qed.
Lemma run_track : forall rds pre D, (forall r c, r < R -> c < C -> D r c = accepted_after pre r c) ->
  forall r c, r < R -> c < C -> fold_left track (transitions R C pre rds) D r c = accepted_after (pre ++ rds) r c.
Proof.
  induction rds as [|rd rds IH]; intros pre D HD r c Hr Hc; cbn [transitions].
  - rewrite app_nil_r. apply HD; auto.
  - rewrite fold_left_app. replace (pre ++ rd :: rds) with ((pre ++ [rd]) ++ rds) by (rewrite <- app_assoc; auto).
    apply IH; auto. apply scan_track. auto.
Qed.

(** An invariant of settings and accepted states kept by transitions. *)
Lemma setting_inv : forall (P : setting -> (nat -> nat -> bool) -> Prop),
  P (at_start kbs) (fun _ _ => false) ->
  (forall e D r c b, r < R -> c < C -> (exists cs, kbs (e_kb e) = Some cs) -> P e D ->
     P (after_event kbs e (r, c, b)) (set2 D r c b)) ->
  forall rds s, c_run kbs rds = Ok s -> exists e D, P e D /\ setting_is e s /\
    forall r c, r < R -> c < C -> D r c = down s r c.
Proof.
  intros P P0 PS rds s ES.
  exists (fold_left (after_event kbs) (transitions R C [] rds) (at_start kbs)),
         (fold_left track (transitions R C [] rds) (fun _ _ => false)).
  split; [|split; [apply (C100_setting R C); auto|]].
  - assert (X : forall l e D, (forall r c b, In (r, c, b) l -> r < R /\ c < C) -> (exists cs, kbs (e_kb e) = Some cs) ->
      P e D -> P (fold_left (after_event kbs) l e) (fold_left track l D)).
    { induction l as [|[[r c] b] l IH]; intros e D HL HK H; cbn [fold_left]; auto.
      destruct (HL r c b (or_introl eq_refl)) as [Hr Hc].
      apply IH; [intros; apply (HL r0 c0 b0); right; auto| |cbn [track]; apply PS; auto].
      unfold after_event. set (x := code_in kbs e r c).
      assert (CH : forall i, exists cs, kbs (e_kb (choose kbs i e)) = Some cs).
      { intros i. unfold choose. destruct (i =? e_kb e)%N; auto. destruct (kbs i) eqn:EI; auto. cbn. eauto. }
      destruct b; [unfold after_press|unfold after_release]; destruct (decode x); auto. }
    apply X; auto.
    + intros r c b H. apply (transitions_in R C rds [] r c b H).
    + destruct (proj1 sound) as [cs EC]. exists cs. exact EC.
  - intros r c Hr Hc. rewrite (run_track rds [] (fun _ _ => false)); auto.
    symmetry. apply (run_dbp R kbs sound C (at_least_size kbs R C sound size) rds s r c ES Hr Hc).
Qed.

Lemma code_at_some : forall e r c, (exists cs, kbs (e_kb e) = Some cs) ->
  exists i cs mi m, kbs i = Some cs /\ mi < 4 /\ table_of cs mi = Some (m, R, C) /\ code_in kbs e r c = nth (r * C + c) m 0%N.
Proof.
  intros e r c [cs EC]. assert (HL : map_in e < 4).
  { unfold map_in. destruct (e_ctrl e), (e_shift e || e_lock e), (e_caps e); lia. }
  destruct (size _ _ _ EC HL) as [m EM]. exists (e_kb e), cs, (map_in e), m.
  unfold code_in. rewrite EC, EM. auto.
Qed.
Lemma always_code : forall e r c x, (exists cs, kbs (e_kb e) = Some cs) -> always kbs x r c -> code_in kbs e r c = x.
Proof. intros e r c x HK H. destruct (code_at_some e r c HK) as (i&cs&mi&m&A&B&D&->). eapply H; eauto. Qed.
Lemma never_code : forall e r c x, (exists cs, kbs (e_kb e) = Some cs) -> never kbs x r c -> code_in kbs e r c <> x.
Proof. intros e r c x HK H. destruct (code_at_some e r c HK) as (i&cs&mi&m&A&B&D&->). eapply H; eauto. Qed.

Lemma choose_mods : forall i e, e_ctrl (choose kbs i e) = e_ctrl e /\ e_shift (choose kbs i e) = e_shift e /\
  e_lock (choose kbs i e) = e_lock e.
Proof. intros. unfold choose. destruct (i =? e_kb e)%N; auto. destruct (kbs i); auto. Qed.
Lemma decode_ctrl : forall x, decode x = ACtrl -> x = 0xA5%N.
Proof.
  intros x. unfold decode. repeat match goal with |- context [if ?b then _ else _] => destruct b eqn:? end;
    intros H; try discriminate; lia.
Qed.
Lemma decode_shift : forall x, decode x = AShift -> x = 0xA1%N.
Proof.
  intros x. unfold decode. repeat match goal with |- context [if ?b then _ else _] => destruct b eqn:? end;
    intros H; try discriminate; lia.
Qed.
Lemma decode_locks : forall x, decode x = AShiftlockOn \/ decode x = AShiftlockToggle -> x = 0xA2%N \/ x = 0xA3%N.
Proof.
  intros x. unfold decode. repeat match goal with |- context [if ?b then _ else _] => destruct b eqn:? end;
    intros [H|H]; try discriminate; lia.
Qed.

(** What an event does to CTRL and SHIFT. *)
Lemma event_ctrl : forall e r c b, let x := code_in kbs e r c in
  e_ctrl (after_event kbs e (r, c, b)) = if (x =? 0xA5)%N then b else e_ctrl e.
Proof.
  intros e r c b x. unfold after_event. fold x. destruct (N.eqb_spec x 0xA5).
  - rewrite e0. destruct b; reflexivity.
  - destruct b; [unfold after_press|unfold after_release]; destruct (decode x) eqn:DX; auto;
      try (apply choose_mods); apply decode_ctrl in DX; contradiction.
Qed.
Lemma event_shift : forall e r c b, let x := code_in kbs e r c in x <> 0xA2%N -> x <> 0xA3%N -> e_lock e = false ->
  e_shift (after_event kbs e (r, c, b)) = (if (x =? 0xA1)%N then b else e_shift e) /\
  e_lock (after_event kbs e (r, c, b)) = false.
Proof.
  intros e r c b x N2 N3 HL. unfold after_event. fold x. destruct (N.eqb_spec x 0xA1).
  - rewrite e0. destruct b; cbn; auto.
  - destruct b; [unfold after_press|unfold after_release]; destruct (decode x) eqn:DX; auto;
      try (apply decode_shift in DX; contradiction);
      try (destruct (decode_locks x); auto; contradiction);
      try (match goal with |- context [choose kbs ?i e] => destruct (choose_mods i e) as (_&->&->); auto end).
Qed.
End Stuck.

Theorem C101_no_stuck_ctrl : forall R C kbs rds s, sound_firmware R kbs -> same_size R C kbs ->
  fixed R C kbs 0xA5 -> c_run kbs rds = Ok s -> ctrl_on s = true ->
  exists r c, r < R /\ c < C /\ always kbs 0xA5 r c /\ down s r c = true.
Proof.
  intros R C kbs rds s HS HZ HF ES HC.
  destruct (setting_inv kbs R C HS HZ (fun e D => e_ctrl e = true ->
     exists r c, r < R /\ c < C /\ always kbs 0xA5 r c /\ D r c = true)) with (rds := rds) (s := s)
    as (e&D&HP&(_&_&_&I4)&HD); auto.
  - discriminate.
  - intros e D r c b Hr Hc HK HP. rewrite event_ctrl. destruct (N.eqb_spec (code_in kbs e r c) 0xA5).
    + intros ->. exists r, c. split; [auto|]. split; [auto|].
      destruct (HF r c Hr Hc) as [A|A]; [|exfalso; apply (never_code kbs R C HZ e r c _ HK A); auto].
      split; auto. unfold set2. rewrite !Nat.eqb_refl. auto.
    + intros H. destruct (HP H) as (r1&c1&A1&A2&A3&A4). exists r1, c1. repeat split; auto.
      unfold set2. destruct ((r1 =? r) && (c1 =? c)) eqn:EQ; auto.
      assert (r1 = r /\ c1 = c) as [-> ->] by lia. rewrite (always_code kbs R C HZ e r c _ HK A3) in n. congruence.
  - rewrite I4 in HC. destruct (HP HC) as (r&c&A1&A2&A3&A4). exists r, c. rewrite <- HD; auto.
Qed.
Print Assumptions C101_no_stuck_ctrl.

Theorem C101_no_stuck_shift : forall R C kbs rds s, sound_firmware R kbs -> same_size R C kbs ->
  fixed R C kbs 0xA1 -> absent R C kbs 0xA2 -> absent R C kbs 0xA3 -> c_run kbs rds = Ok s -> shift_on s = true ->
  exists r c, r < R /\ c < C /\ always kbs 0xA1 r c /\ down s r c = true.
Proof.
  intros R C kbs rds s HS HZ HF H2 H3 ES HC.
  destruct (setting_inv kbs R C HS HZ (fun e D => e_lock e = false /\ (e_shift e = true ->
     exists r c, r < R /\ c < C /\ always kbs 0xA1 r c /\ D r c = true))) with (rds := rds) (s := s)
    as (e&D&(HL&HP)&(_&I2&_)&HD); auto.
  - split; [reflexivity|discriminate].
  - intros e D r c b Hr Hc HK [HL HP].
    destruct (event_shift kbs e r c b) as [X1 X2]; auto;
      [apply (never_code kbs R C HZ); auto..|]. rewrite X1. split; auto.
    destruct (N.eqb_spec (code_in kbs e r c) 0xA1).
    + intros ->. exists r, c. split; [auto|]. split; [auto|].
      destruct (HF r c Hr Hc) as [A|A]; [|exfalso; apply (never_code kbs R C HZ e r c _ HK A); auto].
      split; auto. unfold set2. rewrite !Nat.eqb_refl. auto.
    + intros H. destruct (HP H) as (r1&c1&A1&A2&A3&A4). exists r1, c1. repeat split; auto.
      unfold set2. destruct ((r1 =? r) && (c1 =? c)) eqn:EQ; auto.
      assert (r1 = r /\ c1 = c) as [-> ->] by lia. rewrite (always_code kbs R C HZ e r c _ HK A3) in n. congruence.
  - rewrite I2, HL, orb_false_r in HC. destruct (HP HC) as (r&c&A1&A2&A3&A4). exists r, c. rewrite <- HD; auto.
Qed.
Print Assumptions C101_no_stuck_shift.

(** With a single CTRL key, CTRL is on exactly while it is down. *)
Theorem C101_single_ctrl : forall R C kbs rds s r0 c0, sound_firmware R kbs -> same_size R C kbs ->
  r0 < R -> c0 < C -> always kbs 0xA5 r0 c0 ->
  (forall r c, r < R -> c < C -> (r, c) <> (r0, c0) -> never kbs 0xA5 r c) ->
  c_run kbs rds = Ok s -> ctrl_on s = down s r0 c0.
Proof.
  intros R C kbs rds s r0 c0 HS HZ Hr0 Hc0 HA HN ES.
  destruct (setting_inv kbs R C HS HZ (fun e D => e_ctrl e = D r0 c0)) with (rds := rds) (s := s)
    as (e&D&HP&(_&_&_&I4)&HD); auto.
  - intros e D r c b Hr Hc HK HP. rewrite event_ctrl. unfold set2.
    destruct ((r0 =? r) && (c0 =? c)) eqn:EQ.
    + assert (r0 = r /\ c0 = c) as [-> ->] by lia. rewrite (always_code kbs R C HZ e r c _ HK HA). reflexivity.
    + assert (NE : (r, c) <> (r0, c0)) by (intros X; inv X; lia).
      pose proof (never_code kbs R C HZ e r c _ HK (HN r c Hr Hc NE)).
      destruct (N.eqb_spec (code_in kbs e r c) 0xA5); [contradiction|auto].
  - rewrite I4, HP. apply HD; auto.
Qed.
Print Assumptions C101_single_ctrl.

(** The shipped keyboards 0 to 3 satisfy the hypotheses. *)
Definition fixed_b (R C : nat) (l : list (list setup_cmd)) (x : N) : bool :=
  forallb (fun r => forallb (fun c =>
    let vals := flat_map (fun cs => map (fun mi => match table_of cs mi with
        Some (m, _, C) => nth (r * C + c) m 0%N | None => 0%N end) (seq 0 4)) l in
    forallb (fun v => (v =? x)%N) vals || forallb (fun v => negb (v =? x)%N) vals) (seq 0 C)) (seq 0 R).
Lemma fixed_b_ok : forall R C l kbs x, (forall i cs, kbs i = Some cs -> In cs l) ->
  fixed_b R C l x = true -> fixed R C kbs x.
Proof.
  intros R C l kbs x HI H r c Hr Hc. unfold fixed_b in H.
  rewrite forallb_forall in H. specialize (H r ltac:(apply in_seq; lia)). rewrite forallb_forall in H.
  specialize (H c ltac:(apply in_seq; lia)). cbv zeta in H.
  set (vals := flat_map _ l) in H.
  assert (IN : forall i cs mi m R' C', kbs i = Some cs -> mi < 4 -> table_of cs mi = Some (m, R', C') -> In (nth (r * C' + c) m 0%N) vals).
  { intros i cs mi m R' C' A B D. unfold vals. apply in_flat_map. exists cs. split; [eapply HI; eauto|].
    apply in_map_iff. exists mi. rewrite D. split; auto. apply in_seq. lia. }
  apply orb_prop in H. destruct H as [H|H]; rewrite forallb_forall in H; [left|right];
    intros i cs mi m R' C' A B D; specialize (H _ (IN _ _ _ _ _ _ A B D)); lia.
Qed.
Lemma absent_b_ok : forall R C l kbs x, (forall i cs, kbs i = Some cs -> In cs l) ->
  same_size R C kbs ->
  forallb (fun cs => forallb (fun mi => match table_of cs mi with
     Some (m, _, _) => (R * C <=? length m) && forallb (fun v => negb (v =? x)%N) m | None => false end) (seq 0 4)) l = true ->
  absent R C kbs x.
Proof.
  intros R C l kbs x HI HZ H r c Hr Hc i cs mi m R' C' A B D.
  rewrite forallb_forall in H. specialize (H cs (HI _ _ A)). rewrite forallb_forall in H.
  specialize (H mi ltac:(apply in_seq; lia)). rewrite D in H. apply andb_prop in H. destruct H as [H1 H].
  destruct (HZ _ _ _ A B) as [m' E1]. rewrite D in E1. inv E1.
  rewrite forallb_forall in H. specialize (H (nth (r * C + c) m' 0%N)).
  assert (In (nth (r * C + c) m' 0%N) m') by (apply nth_In; nia). specialize (H H0). lia.
Qed.

(** Any assignment of the first four keymaps to indices 0 to 3. *)
Lemma four_in : forall pick, (forall i k, pick i = Some k -> (i < 4)%N /\ (k < 4)%N) ->
  forall i cs, choice pick i = Some cs -> In cs (map setup_of [0; 1; 2; 3]%N).
Proof.
  intros pick HP i cs. unfold choice. destruct (pick i) as [k|] eqn:EP; [|discriminate]. intros X. inv X.
  destruct (HP _ _ EP). apply in_map. assert (k = 0 \/ k = 1 \/ k = 2 \/ k = 3)%N by lia. cbn. intuition.
Qed.
Lemma four_size : forall pick, (forall i k, pick i = Some k -> (i < 4)%N /\ (k < 4)%N) -> same_size 9 8 (choice pick).
Proof.
  intros pick HP i cs mi EC Hm. apply (four_in pick HP) in EC. cbn [map In] in EC.
  do 4 (destruct mi as [|mi]; [intuition subst; eexists; vm_compute; reflexivity|]). lia.
Qed.

Theorem C101_shipped : forall pick rds s, (exists k, pick 0%N = Some k) ->
  (forall i k, pick i = Some k -> (i < 4)%N /\ (k < 4)%N) -> c_run (choice pick) rds = Ok s ->
  (ctrl_on s = true -> exists r c, r < 9 /\ c < 8 /\ always (choice pick) 0xA5 r c /\ down s r c = true) /\
  (shift_on s = true -> exists r c, r < 9 /\ c < 8 /\ always (choice pick) 0xA1 r c /\ down s r c = true).
Proof.
  intros pick rds s H0 HP ES.
  assert (HS : sound_firmware 9 (choice pick)) by (apply choice_sound; auto; intros i k E1; destruct (HP i k E1); lia).
  pose proof (four_size pick HP) as HZ. pose proof (four_in pick HP) as HI.
  split.
  - apply (C101_no_stuck_ctrl 9 8 _ rds); auto. apply (fixed_b_ok 9 8 _ _ _ HI). vm_compute. reflexivity.
  - apply (C101_no_stuck_shift 9 8 _ rds); auto; [apply (fixed_b_ok 9 8 _ _ _ HI)|apply (absent_b_ok 9 8 _ _ _ HI HZ)..];
      vm_compute; reflexivity.
Qed.
Print Assumptions C101_shipped.

(** A keymap with SHIFT in the plain table only: released, it leaves SHIFT on
    for good. *)
Definition plain_shift (i : N) : option (list setup_cmd) :=
  if (i =? 0)%N then
    Some [SAddMap [0xA1; 97]%N 0 1 2; SAddMap [65; 65]%N 1 1 2; SAddMap [0xA1; 65]%N 2 1 2; SAddMap [0xA1; 1]%N 3 1 2]
  else None.
Theorem C101_any_keymap_refuted : exists kbs rds s, sound_firmware 1 kbs /\ same_size 1 2 kbs /\
  c_run kbs rds = Ok s /\ (forall r c, r < 1 -> c < 2 -> down s r c = false) /\ shift_on s = true /\
  absent 1 2 kbs 0xA2 /\ absent 1 2 kbs 0xA3.
Proof.
  assert (HI : forall i cs, plain_shift i = Some cs -> i = 0%N /\ plain_shift 0%N = Some cs)
    by (intros i cs; unfold plain_shift; destruct (N.eqb_spec i 0); [auto|discriminate]).
  assert (HZ : same_size 1 2 plain_shift).
  { intros i cs mi EC Hm. destruct (HI _ _ EC) as [_ X]. cbn in X. inv X.
    do 4 (destruct mi as [|mi]; [eexists; vm_compute; reflexivity|]). lia. }
  assert (HA : forall x, x = 0xA2%N \/ x = 0xA3%N -> absent 1 2 plain_shift x).
  { intros x HX. apply (absent_b_ok 1 2 [match plain_shift 0%N with Some cs => cs | None => [] end] plain_shift x); [|exact HZ|].
    - intros i cs EC. destruct (HI _ _ EC) as [_ X]. cbn in X. inv X. left. reflexivity.
    - destruct HX; subst x; vm_compute; reflexivity. }
  destruct (obs_some _ (fun s => (down s 0 0, down s 0 1, shift_on s)) (c_run plain_shift (hold 20 [(0, 0)] ++ hold 20 []))
              (false, false, true)) as [s [ES EO]]; [vm_compute; reflexivity|].
  exists plain_shift, (hold 20 [(0, 0)] ++ hold 20 []), s. inv EO. split; [|repeat split; auto].
  - split; [eexists; reflexivity|]. intros i cs EC. destruct (HI _ _ EC) as [-> X]. split; [lia|].
    cbn in X. inv X. apply (sound_b_ok 1 1 2). vm_compute. reflexivity.
  - intros r c Hr Hc. assert (r = 0) by lia. subst r. destruct c as [|[|c]]; auto. lia.
Qed.
Print Assumptions C101_any_keymap_refuted.

Example C101_example :
  obs (fun s => (down s 0 6, ctrl_on s)) (c_run (choice first_four) (hold 12 [(0, 6)])) = Some (true, true) /\
  obs (fun s => (down s 0 6, ctrl_on s)) (c_run (choice first_four) (hold 12 [(0, 6)] ++ hold 12 [])) = Some (false, false).
Proof. split; vm_compute; reflexivity. Qed.
