(** What a firmware built from any keymaps sends (C102). *)
From Coq Require Import List NArith ZArith Arith Bool Lia.
From Coq Require Import ZifyBool ZifyNat ZifyN.
From Verif Require Import Base Lib Buffer BufferSpec BufferProofs Repeat Devices DevSpec DevProofs
     Modifiers Hook KeymapData Asdf KeySpec KeyRef Obs Frames PropDebounce Custom CustomSpec CustomRef PropCustom PropEvents.
Import ListNotations.
Local Open Scope outcome_scope.

(** ** Specification *)

(** The codes of the accepted presses (not those of actions), in order: the
    transitions replayed on the tables as in C100. *)
Fixpoint typed (kbs : N -> option (list setup_cmd)) (e : setting) (l : list (nat * nat * bool)) : list N :=
  match l with
  | [] => []
  | (r, c, b) :: t =>
      let x := code_in kbs e r c in
      (if b && (x <=? 0xA0)%N then [x] else []) ++ typed kbs (after_event kbs e (r, c, b)) t
  end.

(** From typed codes [p] to codes [k] taken out of the queue, with [q] waiting:
    a press is queued, or lost if sixteen are waiting; the oldest code is taken
    out; the last code typed repeats, unless sixteen are waiting.  (0xA0 is the
    code that does nothing; it may repeat at any time and is never sent.) *)
Inductive flow : list N -> list N -> list N -> Prop :=
| flow_start : flow [] [] []
| flow_press : forall p k q x, flow p k q -> length q < 16 -> flow (p ++ [x]) k (q ++ [x])
| flow_lost : forall p k q x, flow p k q -> length q = 16 -> flow (p ++ [x]) k q
| flow_out : forall p k q x, flow p k (x :: q) -> flow p (k ++ [x]) q
| flow_repeat : forall p k q x, flow p k q -> length q < 16 -> (exists p', p = p' ++ [x]) \/ x = 0xA0%N ->
    flow p k (q ++ [x]).

(** [l] is [a] and [b] interleaved. *)
Inductive shuffle : list N -> list N -> list N -> Prop :=
| shuffle_nil : shuffle [] [] []
| shuffle_l : forall a b l x, shuffle a b l -> shuffle (a ++ [x]) b (l ++ [x])
| shuffle_r : forall a b l x, shuffle a b l -> shuffle a (b ++ [x]) (l ++ [x]).

(** A character of a message registered by one of the keymaps. *)
Definition message_char (kbs : N -> option (list setup_cmd)) (x : N) : Prop :=
  exists i cs id m l, kbs i = Some cs /\ In (SHook id (HPrint m)) cs /\ shows m l /\ In x (expand l).

Definition visible (l : list N) : list N := filter (fun x => x <? 0xA0)%N l.

(** ** Induction over a run *)
Section Induction.
Variable kbs : N -> option (list setup_cmd).
Variable R C : nat.
Hypothesis sound : sound_firmware R kbs.
Hypothesis size : same_size R C kbs.

Variable P : list (nat * nat * bool) -> gkb -> Prop.
Hypothesis P_boot : P [] (gboot kbs).
Hypothesis P_send : forall l g g', Tab kbs g -> P l g -> gsend g = Ok g' -> P l g'.
Hypothesis P_hook : forall l g g', Tab kbs g -> P l g -> ghook HOOK_EACH_SCAN g = Ok g' -> P l g'.
Hypothesis P_deb : forall l g d t, P l g -> P l (gp_dn d (gp_ct t g)).
Hypothesis P_held : forall l g g' r c x, Tab kbs g -> low g -> r < R -> c < C -> gcode r c g = Ok x ->
  P l g -> gheld kbs x g = Ok g' -> P l g'.
Hypothesis P_press : forall l g g' r c x, Tab kbs g -> low g -> r < R -> c < C -> gcode r c g = Ok x ->
  P l g -> gpress kbs x g = Ok g' -> P (l ++ [(r, c, true)]) g'.
Hypothesis P_release : forall l g r c x, Tab kbs g -> low g -> r < R -> c < C -> gcode r c g = Ok x ->
  P l g -> P (l ++ [(r, c, false)]) (grelease kbs x g).

Lemma key_ind : forall l rd r c g, Tab kbs g -> low g -> r < R -> c < C -> P l g ->
  exists g', gkey kbs rd r c g = Ok g' /\ Tab kbs g' /\ low g' /\ P (l ++ ev1 g rd r c) g'.
Proof.
  intros l rd r c g T L Hr Hc HP.
  destruct (key_events kbs R C sound size rd r c g T L Hr Hc) as [g' (EK&T'&L'&_)].
  exists g'. split; [auto|]. split; [auto|]. split; [auto|]. unfold gkey in EK. cbv zeta in EK.
  unfold ev1, dbp, db. cbn [fst snd].
  destruct (Bool.eqb (reading rd r c) (g_dn g r c)) eqn:EQ; cbn [fst].
  - rewrite Bool.eqb_reflx, app_nil_r. destruct (reading rd r c); [|inv EK; auto].
    apply bind_Ok_inv in EK. destruct EK as [x [EX EK]]. apply (P_held l g g' r c x T L Hr Hc EX HP EK).
  - destruct (g_ct g r c =? 1)%N; cbn [fst].
    + replace (Bool.eqb (g_dn g r c) (reading rd r c)) with false
        by (destruct (g_dn g r c), (reading rd r c); auto).
      apply bind_Ok_inv in EK. destruct EK as [x [EX EK]].
      set (g1 := gp_dn (set2 (g_dn g) r c (reading rd r c)) (gp_ct (set2 (g_ct g) r c 10%N) g)) in *.
      assert (T1 : Tab kbs g1) by (apply (Tab_eq kbs g); auto).
      assert (P1 : P l g1) by exact (P_deb l g _ _ HP).
      destruct (reading rd r c).
      * apply (P_press l g1 g' r c x T1 L Hr Hc EX P1 EK).
      * inv EK. apply (P_release l g1 r c x T1 L Hr Hc EX P1).
    + rewrite Bool.eqb_reflx, app_nil_r. inv EK. exact (P_deb l g (g_dn g) _ HP).
Qed.

Lemma cols_ind : forall n l rd r c g, Tab kbs g -> low g -> r < R -> n + c = 8 -> P l g ->
  exists g', gcols kbs n rd r c g = Ok g' /\ Tab kbs g' /\ low g' /\
    P (l ++ flat_map (ev1 g rd r) (seq c (C - c))) g'.
Proof.
  pose proof (size_small kbs R C sound size) as [SR SC].
  induction n as [|n IH]; intros l rd r c g T L Hr HN HP; cbn [gcols].
  - exists g. replace (C - c) with 0 by lia. cbn. rewrite app_nil_r. auto.
  - destruct (tab_size kbs R C size g T) as [W1 W2]. rewrite W2. destruct (Nat.ltb_spec c C).
    + destruct (key_ind l rd r c g T L Hr H HP) as [g1 (E1&T1&L1&X1)]. rewrite E1. cbn [bind].
      destruct (IH _ rd r (S c) g1 T1 L1 Hr ltac:(lia) X1) as [g' (E2&T2&L2&X2)]. exists g'.
      split; [auto|]. split; [auto|]. split; [auto|].
      replace (C - c) with (S (C - S c)) by lia. cbn [seq flat_map]. rewrite app_assoc.
      assert (FR : flat_map (ev1 g rd r) (seq (S c) (C - S c)) = flat_map (ev1 g1 rd r) (seq (S c) (C - S c))).
      { rewrite !flat_map_concat_map. f_equal. apply map_ext_in. intros c' Hc'. apply in_seq in Hc'.
        destruct (gkey_frame kbs rd r c g g1 r c' E1 ltac:(lia)) as [A1 A2].
        unfold ev1, dbp. rewrite A1, A2. reflexivity. }
      rewrite FR. auto.
    + exists g. replace (C - c) with 0 by lia. cbn. rewrite app_nil_r. auto.
Qed.

Lemma rows_ind : forall n l rd r g, Tab kbs g -> low g -> n + r = 16 -> P l g ->
  exists g', grows kbs n rd r g = Ok g' /\ Tab kbs g' /\ low g' /\
    P (l ++ flat_map (fun r => flat_map (ev1 g rd r) (seq 0 C)) (seq r (R - r))) g'.
Proof.
  pose proof (size_small kbs R C sound size) as [SR SC].
  induction n as [|n IH]; intros l rd r g T L HN HP; cbn [grows].
  - exists g. replace (R - r) with 0 by lia. cbn. rewrite app_nil_r. auto.
  - destruct (tab_size kbs R C size g T) as [W1 W2]. rewrite W1. destruct (Nat.ltb_spec r R).
    + destruct (cols_ind 8 l rd r 0 g T L H eq_refl HP) as [g1 (E1&T1&L1&X1)]. rewrite E1. cbn [bind].
      destruct (IH _ rd (S r) g1 T1 L1 ltac:(lia) X1) as [g' (E2&T2&L2&X2)]. exists g'.
      split; [auto|]. split; [auto|]. split; [auto|].
      replace (R - r) with (S (R - S r)) by lia. cbn [seq flat_map]. rewrite app_assoc.
      rewrite Nat.sub_0_r in X2.
      assert (FR : flat_map (fun r => flat_map (ev1 g rd r) (seq 0 C)) (seq (S r) (R - S r)) =
                   flat_map (fun r => flat_map (ev1 g1 rd r) (seq 0 C)) (seq (S r) (R - S r))).
      { rewrite !flat_map_concat_map. f_equal. apply map_ext_in. intros r' Hr'. apply in_seq in Hr'.
        rewrite !flat_map_concat_map. f_equal. apply map_ext_in. intros c' _.
        destruct (cols_frame kbs _ _ _ _ _ _ E1 r' c' ltac:(lia)) as [A1 A2].
        unfold ev1, dbp. rewrite A1, A2. reflexivity. }
      rewrite FR. auto.
    + exists g. replace (R - r) with 0 by lia. cbn. rewrite app_nil_r. auto.
Qed.

Lemma ticks_ind : forall rds pre l g, Tab kbs g -> low g -> P l g ->
  (forall r c, r < R -> c < C -> dbp g r c = dstate (key_readings pre r c)) ->
  exists g', gticks kbs rds g = Ok g' /\ Tab kbs g' /\ P (l ++ transitions R C pre rds) g'.
Proof.
  induction rds as [|rd rds IH]; intros pre l g T L HP HD; cbn [gticks transitions].
  - exists g. rewrite app_nil_r. auto.
  - destruct (send_ok R kbs sound g T) as [g1 (E1&T1&D1&D2)].
    destruct (scan_split R kbs sound rd g1 T1) as [g2 (H2&T2&D3&D4&E2)].
    assert (X2 : E g g2) by (eapply E_trans; [apply send_E; eauto|apply (E_hook _ _ _ _ (E_refl g1) H2)]).
    assert (L2 : low g2) by (unfold low in *; destruct X2 as [<- _]; auto).
    assert (P2 : P l g2) by exact (P_hook l g1 g2 T1 (P_send l g g1 T HP E1) H2).
    destruct (rows_ind 16 l rd 0 g2 T2 L2 eq_refl P2) as [g3 (E3&T3&L3&P3)]. rewrite Nat.sub_0_r in P3.
    assert (ET : gtick kbs rd g = Ok g3) by (unfold gtick; rewrite E1; cbn [bind]; rewrite E2; auto).
    rewrite ET. cbn [bind].
    destruct (IH (pre ++ [rd]) (l ++ scan_events R C pre rd) g3 T3 L3) as [g' (E4&T4&X4)].
    + assert (FR : scan_events R C pre rd = flat_map (fun r => flat_map (ev1 g2 rd r) (seq 0 C)) (seq 0 R)).
      { unfold scan_events. rewrite !flat_map_concat_map. f_equal. apply map_ext_in. intros r Hr. apply in_seq in Hr.
        rewrite !flat_map_concat_map. f_equal. apply map_ext_in. intros c Hc. apply in_seq in Hc.
        assert (DB : dbp g2 r c = dstate (key_readings pre r c))
          by (rewrite <- HD by lia; unfold dbp; rewrite D3, D4, D1, D2; reflexivity).
        unfold key_event, ev1, accepted_after. rewrite key_readings_app.
        change (key_readings [rd] r c) with [reading rd r c]. rewrite dstate_snoc, <- DB. reflexivity. }
      rewrite FR. auto.
    + intros r c Hr Hc.
      rewrite (tick_dbp R kbs sound C (at_least_size kbs R C sound size) rd g g3 r c T ET Hr Hc).
      rewrite key_readings_app. change (key_readings [rd] r c) with [reading rd r c]. rewrite dstate_snoc, HD; auto.
    + exists g'. rewrite app_assoc. auto.
Qed.

Lemma run_ind : forall rds s, c_run kbs rds = Ok s -> exists g, grun kbs rds = Ok g /\ GRel g s /\ P (transitions R C [] rds) g.
Proof.
  intros rds s ES. destruct (run_ok_g R kbs sound rds) as (g&s'&E1&T1&E2&RL). rewrite ES in E2. inv E2.
  destruct (ticks_ind rds [] [] (gboot kbs) (tab_boot R kbs sound) (boot_low kbs) P_boot) as [g' (E3&_&X)].
  { intros r c _ _. apply boot_dbp. }
  unfold grun in *. rewrite E1 in E3. inv E3. eauto.
Qed.
End Induction.

(** ** What leaves the sent codes alone *)
Definition gsent (g : gkb) : list N := sends (rev (g_log g)).
Lemma sends_app : forall a b, sends (a ++ b) = sends a ++ sends b.
Proof. intros. unfold sends. apply flat_map_app. Qed.
Lemma gsent_note : forall e g, gsent (gnote e g) = gsent g ++ sends [e].
Proof. intros. unfold gsent. cbn [gnote gp_log g_log rev]. apply sends_app. Qed.
Lemma gsent_act : forall f v g, gsent (gact f v g) = gsent g /\ g_qk (gact f v g) = g_qk g /\ g_qm (gact f v g) = g_qm g.
Proof.
  intros f v g. unfold gact, gsent. pose proof (action_outev f (own (g_vs g) v) (lev (g_vs g))) as X.
  destruct (spec_action _ _ _) as [lv ev]. cbn [snd] in X. cbn [gp_log gp_vs g_log g_qk g_qm].
  split; [|auto]. rewrite rev_app_distr, rev_involutive, sends_app.
  rewrite (silent_sends ev (outev_silent ev X)). apply app_nil_r.
Qed.
Lemma gsent_shift : forall x g, gsent (gset_shift x g) = gsent g /\ g_qk (gset_shift x g) = g_qk g /\ g_qm (gset_shift x g) = g_qm g.
Proof. intros. unfold gset_shift. cbv zeta. apply gsent_act. Qed.
Lemma gsent_caps : forall g, gsent (gtoggle_caps g) = gsent g /\ g_qk (gtoggle_caps g) = g_qk g /\ g_qm (gtoggle_caps g) = g_qm g.
Proof. intros. unfold gtoggle_caps. cbv zeta. apply gsent_act. Qed.
Lemma gsent_setup : forall cs g, gsent (gsetup cs g) = gsent g /\ g_qk (gsetup cs g) = g_qk g /\ g_qm (gsetup cs g) = g_qm g.
Proof.
  induction cs as [|c cs IH]; intros g; [auto|].
  change (gsetup (c :: cs) g) with (gsetup cs (gsetup_step c g)). destruct (IH (gsetup_step c g)) as (->&->&->).
  destruct c; cbn [gsetup_step]; auto.
  - destruct ((mi <? 4) && (rows <=? 16) && (cols <=? 8)); auto.
  - destruct ((0 <? id) && (id <? 16)); auto.
  - apply gsent_caps.
  - rewrite gsent_note. cbn [sends flat_map app]. rewrite app_nil_r. auto.
Qed.
Lemma gsent_select : forall kbs i g, gsent (gselect kbs i g) = gsent g /\ g_qk (gselect kbs i g) = g_qk g /\ g_qm (gselect kbs i g) = g_qm g.
Proof.
  intros. unfold gselect. destruct (i =? g_cur g)%N; auto. unfold gswitch. destruct (kbs i) as [cs|]; auto.
  destruct (gsent_setup cs (gclear i g)) as (->&->&->). unfold gclear. rewrite gsent_note.
  cbn [sends flat_map app]. rewrite app_nil_r. auto.
Qed.

Section Flow.
Variable kbs : N -> option (list setup_cmd).
Variable R C : nat.
Hypothesis sound : sound_firmware R kbs.
Hypothesis size : same_size R C kbs.

Lemma th_print : forall cs id m, nth id (th cs) HUnset = HPrint m -> exists id', In (SHook id' (HPrint m)) cs.
Proof.
  intros cs id m. unfold th.
  assert (X : forall cs h, (forall f, In f h -> f <> HPrint m) ->
    nth id (fold_left th_step cs h) HUnset = HPrint m -> exists id', In (SHook id' (HPrint m)) cs).
  { induction cs0 as [|c cs0 IH]; intros h HH HN; cbn [fold_left] in HN.
    - exfalso. destruct (nth_in_or_default id h HUnset) as [I|I]; [apply (HH _ I); auto|congruence].
    - destruct c; cbn [th_step] in HN; try (destruct (IH h HH HN) as [i' I]; exists i'; right; auto; fail).
      destruct ((0 <? id0) && (id0 <? 16)); [|destruct (IH h HH HN) as [i' I]; exists i'; right; auto].
      assert (DP : f = HPrint m \/ f <> HPrint m)
        by (destruct f as [| | | | |m']; try (right; discriminate); destruct (list_eq_dec N.eq_dec m' m) as [-> |NE]; [left; auto|right; congruence]).
      destruct DP as [-> |NP]; [exists id0; left; auto|].
      destruct (IH (upd h id0 f)) as [i' I]; auto; [|exists i'; right; auto].
      intros f' HF. apply In_nth_error in HF. destruct HF as [j HF]. rewrite nth_error_upd in HF.
      destruct ((id0 =? j) && (id0 <? length h)); [congruence|]. apply HH. eapply nth_error_In; eauto. }
  apply X. intros f HF. cbn in HF. intuition congruence.
Qed.

Definition FI (l : list (nat * nat * bool)) (g : gkb) : Prop := exists k ms,
  flow (typed kbs (at_start kbs) l) k (g_qk g) /\ shuffle (visible k) ms (gsent g) /\
  Forall (message_char kbs) ms /\ Forall (message_char kbs) (g_qm g) /\ length (g_qk g) <= 16 /\
  (g_last g = 0xA0%N \/ exists p, typed kbs (at_start kbs) l = p ++ [g_last g]) /\
  is_set (fold_left (after_event kbs) l (at_start kbs)) g.

Lemma typed_app : forall l l' e, typed kbs e (l ++ l') = typed kbs e l ++ typed kbs (fold_left (after_event kbs) l e) l'.
Proof.
  induction l as [|[[r c] b] l IH]; intros l' e; cbn [app typed fold_left]; auto. rewrite IH, app_assoc. reflexivity.
Qed.

Lemma qput_all_in : forall (P : N -> Prop) l q, Forall P l -> Forall P q -> Forall P (qput_all 128 l q).
Proof.
  intros P. induction l as [|x l IH]; intros q HL HQ; cbn [qput_all]; auto.
  inv HL. apply IH; auto. unfold qput. destruct (length q <? 128); auto. apply Forall_app. auto.
Qed.
Lemma FI_hook : forall l id g g', Tab kbs g -> FI l g -> ghook id g = Ok g' -> FI l g'.
Proof.
  intros l id g g' [cs (A&_&B)] (k&ms&F1&F2&F3&F4&F5&F6&F7) H. unfold ghook in H.
  destruct (nth id (g_hook g) HUnset) as [| | | | |m] eqn:EN; try (destruct (format m) as [tx|] eqn:EF); inv H.
  - exists k, ms. auto 10.
  - rewrite B in EN. apply th_print in EN. destruct EN as [id' EN].
    exists k, ms. repeat (split; auto); try apply F7. cbn [gprint gp_qm g_qm]. apply qput_all_in; auto.
    rewrite Forall_forall. intros x HX. exists (g_cur g), cs, id', m, tx. apply shows_format in EF. auto.
Qed.

Lemma visible_app : forall a b, visible (a ++ b) = visible a ++ visible b.
Proof. intros. apply filter_app. Qed.

Lemma FI_send : forall l g g', Tab kbs g -> FI l g -> gsend g = Ok g' -> FI l g'.
Proof.
  intros l g g' T (k&ms&F1&F2&F3&F4&F5&F6&F7) H. unfold gsend in H. cbv zeta in H.
  assert (F4' : Forall (message_char kbs) (tl (g_qm g))) by (inv F4; cbn; auto).
  destruct (N.eqb_spec (hd 0xA0%N (g_qm g)) 0xA0).
  - destruct (g_qk g) as [|x q] eqn:EQ; cbn [hd tl] in H.
    + unfold gemit in H. cbn in H. inv H. exists k, ms. cbn [gp_qk gp_qm g_qk]. repeat (split; auto); apply F7.
    + unfold gemit in H. destruct (N.ltb_spec x 0xA0).
      * destruct (nth HOOK_OUTPUT _ HUnset); inv H. exists (k ++ [x]), ms.
        split; [apply flow_out; auto|]. split.
        { rewrite visible_app, gsent_note. cbn [visible filter]. replace (x <? 0xA0)%N with true by lia.
          apply shuffle_l. exact F2. }
        cbn in F5. repeat (split; auto); try apply F7. cbn. lia.
      * inv H. exists (k ++ [x]), ms. split; [apply flow_out; auto|]. split.
        { rewrite visible_app. cbn [visible filter]. replace (x <? 0xA0)%N with false by lia.
          rewrite app_nil_r. exact F2. }
        cbn in F5. repeat (split; auto); try apply F7. cbn. lia.
  - assert (MC : message_char kbs (hd 0xA0%N (g_qm g))).
    { destruct (g_qm g) as [|x q]; cbn in *; [congruence|]. inv F4. auto. }
    unfold gemit in H. destruct (N.ltb_spec (hd 0xA0%N (g_qm g)) 0xA0).
    + destruct (nth HOOK_OUTPUT _ HUnset); inv H. exists k, (ms ++ [hd 0xA0%N (g_qm g)]).
      split; [auto|]. split.
      { rewrite !gsent_note. cbn [sends flat_map app]. rewrite app_nil_r. apply shuffle_r. exact F2. }
      split; [apply Forall_app; auto|]. repeat (split; auto); apply F7.
    + inv H. exists k, ms. split; [auto|]. split.
      { rewrite !gsent_note. cbn [sends flat_map app]. rewrite app_nil_r. exact F2. }
      repeat (split; auto); apply F7.
Qed.

(** Queueing a press. *)
Lemma flow_put : forall p k q x, flow p k q -> length q <= 16 -> flow (p ++ [x]) k (qput 16 x q) /\ length (qput 16 x q) <= 16.
Proof.
  intros p k q x H HL. unfold qput. destruct (Nat.ltb_spec (length q) 16).
  - split; [apply flow_press; auto|]. rewrite app_length. cbn. lia.
  - split; [apply flow_lost; auto; lia|auto].
Qed.

Lemma FI_held : forall l g g' x, low g -> FI l g -> gheld kbs x g = Ok g' -> FI l g'.
Proof.
  intros l g g' x L (k&ms&F1&F2&F3&F4&F5&F6&F7) H. unfold gheld in H. destruct (N.eqb_spec x (g_last g)).
  - destruct (repeat_tick (g_rep g)) as [[] q].
    + unfold gpress in H. unfold low in L. replace (0xA0 <? x)%N with false in H by lia.
      cbn [gp_rep g_last] in H. rewrite e, N.eqb_refl in H. inv H. exists k, ms. cbn [gp_qk gp_rep g_qk].
      assert (X : flow (typed kbs (at_start kbs) l) k (qput 16 (g_last g) (g_qk g)) /\ length (qput 16 (g_last g) (g_qk g)) <= 16).
      { unfold qput. destruct (Nat.ltb_spec (length (g_qk g)) 16); [|auto]. split; [|rewrite app_length; cbn; lia].
        apply flow_repeat; auto. destruct F6; auto. }
      destruct X as [X1 X2]. repeat (split; auto); apply F7.
    + inv H. exists k, ms. repeat (split; auto); apply F7.
  - inv H. exists k, ms. auto 10.
Qed.

Lemma on_queue : forall x g g', gaction_on kbs x g = Ok g' -> Tab kbs g ->
  gsent g' = gsent g /\ g_qk g' = g_qk g /\ (Forall (message_char kbs) (g_qm g) -> Forall (message_char kbs) (g_qm g')).
Proof.
  intros x g g' H T. unfold gaction_on in H.
  assert (HK : forall id g', ghook id g = Ok g' -> gsent g' = gsent g /\ g_qk g' = g_qk g /\
    (Forall (message_char kbs) (g_qm g) -> Forall (message_char kbs) (g_qm g'))).
  { intros id g1 H1. destruct T as [cs (A&_&B)]. unfold ghook in H1.
    destruct (nth id (g_hook g) HUnset) as [| | | | |m] eqn:EN; try (destruct (format m) as [tx|] eqn:EF); inv H1; auto.
    rewrite B in EN. apply th_print in EN. destruct EN as [id' EN].
    split; [auto|]. split; [auto|]. intros F4. cbn [gprint gp_qm g_qm]. apply qput_all_in; auto.
    rewrite Forall_forall. intros y HX. exists (g_cur g), cs, id', m, tx. apply shows_format in EF. auto. }
  assert (ALL : forall g1, gsent g1 = gsent g /\ g_qk g1 = g_qk g /\ g_qm g1 = g_qm g ->
    gsent g1 = gsent g /\ g_qk g1 = g_qk g /\ (Forall (message_char kbs) (g_qm g) -> Forall (message_char kbs) (g_qm g1))).
  { intros g1 (->&->&->). auto. }
  destruct (decode x); try (apply HK in H; exact H);
    try (inv H; apply ALL; auto using gsent_shift, gsent_caps, gsent_act, gsent_select; fail).
  - inv H. rewrite gsent_note. cbn [sends flat_map app]. rewrite app_nil_r. auto.
  - destruct (n <=? 10); [apply HK in H; exact H|]. inv H. auto.
Qed.
Lemma off_queue : forall x g, gsent (gaction_off kbs x g) = gsent g /\ g_qk (gaction_off kbs x g) = g_qk g /\
  g_qm (gaction_off kbs x g) = g_qm g.
Proof.
  intros x g. unfold gaction_off. destruct (decode x); auto using gsent_shift, gsent_select.
  rewrite gsent_note. cbn [sends flat_map app]. rewrite app_nil_r. auto.
Qed.

Lemma FI_press : forall l g g' r c x, Tab kbs g -> low g -> r < R -> c < C -> gcode r c g = Ok x ->
  FI l g -> gpress kbs x g = Ok g' -> FI (l ++ [(r, c, true)]) g'.
Proof.
  intros l g g' r c x T L Hr Hc EX (k&ms&F1&F2&F3&F4&F5&F6&F7) H.
  pose proof (set_code kbs R C sound size _ g r c T F7 Hr Hc) as EX2. rewrite EX in EX2. inv EX2.
  set (e := fold_left (after_event kbs) l (at_start kbs)) in *.
  assert (S' : is_set (fold_left (after_event kbs) (l ++ [(r, c, true)]) (at_start kbs)) g').
  { rewrite fold_left_app. cbn [fold_left]. fold e. cbn [after_event]. eapply press_set; eauto. }
  assert (TY : typed kbs (at_start kbs) (l ++ [(r, c, true)]) = typed kbs (at_start kbs) l ++
     (if (code_in kbs e r c <=? 0xA0)%N then [code_in kbs e r c] else [])).
  { rewrite typed_app. fold e. cbn [typed andb]. rewrite app_nil_r. reflexivity. }
  set (x := code_in kbs e r c) in *. unfold FI. rewrite TY. clear TY. unfold gpress in H. destruct (N.ltb_spec 0xA0 x).
  - destruct (on_queue x g g' H T) as (Q1&Q2&Q3). replace (x <=? 0xA0)%N with false by lia. rewrite app_nil_r.
    exists k, ms. rewrite Q1, Q2. rewrite (on_last kbs x g g' H). auto 10.
  - replace (x <=? 0xA0)%N with true by lia. destruct (flow_put _ _ _ x F1 F5) as [X1 X2].
    exists k, ms. inv H. destruct (N.eqb_spec (g_last g) x); cbn [gp_rep gp_last gp_qk g_qk g_qm g_last];
      (split; [auto|]; split; [exact F2|]; split; [auto|]; split; [auto|]; split; [auto|]; split; [|exact S']).
    + right. exists (typed kbs (at_start kbs) l). congruence.
    + right. exists (typed kbs (at_start kbs) l). reflexivity.
Qed.
Lemma FI_release : forall l g r c x, Tab kbs g -> low g -> r < R -> c < C -> gcode r c g = Ok x ->
  FI l g -> FI (l ++ [(r, c, false)]) (grelease kbs x g).
Proof.
  intros l g r c x T L Hr Hc EX (k&ms&F1&F2&F3&F4&F5&F6&F7).
  pose proof (set_code kbs R C sound size _ g r c T F7 Hr Hc) as EX2. rewrite EX in EX2. inv EX2.
  set (e := fold_left (after_event kbs) l (at_start kbs)) in *.
  assert (S' : is_set (fold_left (after_event kbs) (l ++ [(r, c, false)]) (at_start kbs)) (grelease kbs (code_in kbs e r c) g)).
  { rewrite fold_left_app. cbn [fold_left]. fold e. cbn [after_event]. apply release_set; auto. }
  assert (TY : typed kbs (at_start kbs) (l ++ [(r, c, false)]) = typed kbs (at_start kbs) l).
  { rewrite typed_app. cbn [typed andb app]. rewrite app_nil_r. reflexivity. }
  unfold FI. rewrite TY. clear TY. set (x := code_in kbs e r c) in *. exists k, ms.
  unfold grelease in *. destruct (0xA0 <? x)%N.
  - destruct (off_queue x g) as (Q1&Q2&Q3). rewrite Q1, Q2, Q3, off_last. auto 10.
  - destruct (g_last g =? x)%N; [|auto 10]. cbn [gp_last g_qk g_qm g_last]. 
    split; [auto|]; split; [exact F2|]; split; [auto|]; split; [auto|]; split; [auto|]; split; [auto|exact S'].
Qed.

Lemma FI_boot : FI [] (gboot kbs).
Proof.
  destruct (proj1 sound) as [cs EC]. exists [], []. cbn [typed fold_left].
  assert (X : gsent (gboot kbs) = [] /\ g_qk (gboot kbs) = [] /\ g_qm (gboot kbs) = []).
  { unfold gboot, gswitch. rewrite EC. destruct (gsent_setup cs (gclear 0 gzero)) as (->&->&->). auto. }
  destruct X as (->&->&->). split; [constructor|]. split; [constructor|]. split; [auto|]. split; [auto|].
  split; [cbn; lia|]. split; [|apply (start_set kbs R sound)].
  left. unfold gboot. destruct (gswitch_same kbs 0 gzero) as (_&_&A&_). rewrite A. reflexivity.
Qed.

Lemma run_flow : forall rds s, c_run kbs rds = Ok s -> exists g, grun kbs rds = Ok g /\ GRel g s /\ FI (transitions R C [] rds) g.
Proof.
  apply (run_ind kbs R C sound size FI).
  - apply FI_boot.
  - intros l g g' T HF H. eapply FI_send; eauto.
  - intros l g g' T HF H. eapply FI_hook; eauto.
  - intros l g d t HF. exact HF.
  - intros l g g' r c x T L Hr Hc EX HF H. eapply FI_held; eauto.
  - apply FI_press.
  - apply FI_release.
Qed.
End Flow.

(** ** C102 *)
Theorem C102_sent : forall R C kbs rds s, sound_firmware R kbs -> same_size R C kbs ->
  c_run kbs rds = Ok s ->
  exists k q ms, flow (typed kbs (at_start kbs) (transitions R C [] rds)) k q /\ length q <= 16 /\
    shuffle (visible k) ms (sent s) /\ Forall (message_char kbs) ms.
Proof.
  intros R C kbs rds s HS HZ ES. destruct (run_flow kbs R C HS HZ rds s ES) as [g (_&[RT _]&(k&ms&F1&F2&F3&_&F5&_))].
  exists k, (g_qk g), ms. split; [auto|]. split; [auto|]. split; [|auto].
  unfold sent, events. rewrite (rt_log _ _ RT). exact F2.
Qed.
Print Assumptions C102_sent.

(** Once everything is released, at most 144 scans later everything is sent,
    unless a keymap registers something to do in each scan. *)
Definition scan_hook_free (kbs : N -> option (list setup_cmd)) : Prop :=
  forall i cs f, kbs i = Some cs -> In (SHook HOOK_EACH_SCAN f) cs -> f = HNull.

Section Drain.
Variable kbs : N -> option (list setup_cmd).
Variable R C : nat.
Hypothesis sound : sound_firmware R kbs.
Hypothesis size : same_size R C kbs.
Hypothesis idle_hook : scan_hook_free kbs.

Lemma th_each : forall cs, (forall f, In (SHook HOOK_EACH_SCAN f) cs -> f = HNull) ->
  nth HOOK_EACH_SCAN (th cs) HUnset = HNull.
Proof.
  intros cs. unfold th.
  assert (X : forall cs h, length h = 16 -> nth HOOK_EACH_SCAN h HUnset = HNull ->
    (forall f, In (SHook HOOK_EACH_SCAN f) cs -> f = HNull) ->
    nth HOOK_EACH_SCAN (fold_left th_step cs h) HUnset = HNull).
  { induction cs0 as [|c cs0 IH]; intros h HL HH HC; cbn [fold_left]; auto.
    apply IH; [| |intros; apply HC; right; auto].
    - destruct c; auto. cbn [th_step]. destruct ((0 <? id) && (id <? 16)); auto. rewrite upd_length; auto.
    - destruct c; auto. cbn [th_step]. destruct ((0 <? id) && (id <? 16)) eqn:EI; auto.
      assert (EN : nth_error (upd h id f) HOOK_EACH_SCAN = Some HNull).
      { rewrite nth_error_upd. destruct (Nat.eqb_spec id HOOK_EACH_SCAN).
        - subst id. replace (HOOK_EACH_SCAN <? length h) with true by (rewrite HL; reflexivity). cbn [andb].
          f_equal. apply HC. left. reflexivity.
        - cbn [andb]. rewrite <- HH. apply nth_error_nth'. rewrite HL. unfold HOOK_EACH_SCAN. lia. }
      apply nth_error_nth with (d := HUnset) in EN. exact EN. }
  apply X; reflexivity.
Qed.

Definition released (g : gkb) : Prop := forall r c, r < R -> c < C -> g_dn g r c = false.
Definition open (rd : nat -> N) : Prop := forall r c, r < R -> c < C -> reading rd r c = false.

Lemma cols_open : forall n rd r c g, Tab kbs g -> r < R -> released g -> open rd -> gcols kbs n rd r c g = Ok g.
Proof.
  induction n as [|n IH]; intros rd r c g T Hr HR HO; cbn [gcols]; auto.
  destruct (tab_size kbs R C size g T) as [_ W]. rewrite W. destruct (Nat.ltb_spec c C); auto.
  assert (X : gkey kbs rd r c g = Ok g) by (unfold gkey; cbv zeta; rewrite HO, HR by auto; reflexivity).
  rewrite X. cbn [bind]. auto.
Qed.
Lemma rows_open : forall n rd r g, Tab kbs g -> released g -> open rd -> grows kbs n rd r g = Ok g.
Proof.
  induction n as [|n IH]; intros rd r g T HR HO; cbn [grows]; auto.
  destruct (tab_size kbs R C size g T) as [W _]. rewrite W. destruct (Nat.ltb_spec r R); auto.
  rewrite cols_open by auto. cbn [bind]. auto.
Qed.

Definition waiting (g : gkb) : nat := length (g_qm g) + length (g_qk g).
Lemma send_waiting : forall g g', gsend g = Ok g' -> waiting g' <= waiting g - 1.
Proof.
  assert (X : forall x g g', gemit x g = Ok g' -> g_qm g' = g_qm g /\ g_qk g' = g_qk g).
  { intros x g g' H. unfold gemit in H. destruct (x <? 0xA0)%N; [|inv H; auto].
    destruct (nth HOOK_OUTPUT (g_hook g) HUnset); inv H; auto. }
  intros g g' H. unfold gsend in H. cbv zeta in H. unfold waiting.
  destruct (N.eqb_spec (hd 0xA0%N (g_qm g)) 0xA0); apply X in H; destruct H as [-> ->];
    cbn [gnote gp_log gp_qk gp_qm g_qm g_qk]; destruct (g_qm g), (g_qk g); cbn in *; try lia; congruence.
Qed.

Lemma open_tick : forall rd g, Tab kbs g -> released g -> open rd ->
  exists g', gtick kbs rd g = Ok g' /\ Tab kbs g' /\ released g' /\ waiting g' <= waiting g - 1.
Proof.
  intros rd g T HR HO. unfold gtick. destruct (send_ok R kbs sound g T) as [g1 (E1&T1&D1&_)]. rewrite E1. cbn [bind].
  exists g1. split; [|split; [auto|split; [|apply send_waiting; auto]]].
  - destruct (scan_split R kbs sound rd g1 T1) as [g2 (H2&_&_&_&E2)]. rewrite E2.
    pose proof T1 as [cs (A&_&B)]. unfold ghook in H2. rewrite B, th_each in H2 by (intros f; apply (idle_hook _ _ f A)).
    inv H2. apply rows_open; auto. intros r c Hr Hc. rewrite D1. auto.
  - intros r c Hr Hc. rewrite D1. auto.
Qed.
Lemma open_ticks : forall rds g, Tab kbs g -> released g -> Forall open rds ->
  exists g', gticks kbs rds g = Ok g' /\ waiting g' <= waiting g - length rds.
Proof.
  induction rds as [|rd rds IH]; intros g T HR HF; cbn [gticks length].
  - exists g. split; auto. lia.
  - inv HF. destruct (open_tick rd g T HR H1) as [g1 (E1&T1&R1&W1)]. rewrite E1. cbn [bind].
    destruct (IH g1 T1 R1 H2) as [g' (E2&W2)]. exists g'. split; auto. lia.
Qed.
Lemma gticks_app : forall a b g, gticks kbs (a ++ b) g = (g1 <- gticks kbs a g ;; gticks kbs b g1).
Proof.
  induction a as [|rd a IH]; intros b g; cbn [app gticks bind]; auto.
  destruct (gtick kbs rd g) as [g1|]; cbn [bind]; auto.
Qed.
End Drain.

Lemma g_bound : forall g s, GRel g s -> length (g_qk g) <= 16 /\ length (g_qm g) <= 128.
Proof.
  intros g s [_ HS]. pose proof (rs_buf _ _ HS) as (_&_&_&_&_&_&B).
  destruct (buffers (k_buf s)) as [|d1 [|d2 t]]; cbn in B; try tauto.
  destruct B as [(_&_&_&_&B1&_) [(_&_&_&_&B2&_) _]]. cbn in B1, B2. lia.
Qed.

Theorem C102_all_sent : forall R C kbs pre quiet s0 s, sound_firmware R kbs -> same_size R C kbs ->
  scan_hook_free kbs -> c_run kbs pre = Ok s0 ->
  (forall r c, r < R -> c < C -> down s0 r c = false) ->
  144 <= length quiet -> Forall (fun rd => forall r c, r < R -> c < C -> reading rd r c = false) quiet ->
  c_run kbs (pre ++ quiet) = Ok s ->
  exists k ms, flow (typed kbs (at_start kbs) (transitions R C [] (pre ++ quiet))) k [] /\
    shuffle (visible k) ms (sent s) /\ Forall (message_char kbs) ms.
Proof.
  intros R C kbs pre quiet s0 s HS HZ HH E0 HD HL HF ES.
  destruct (run_flow kbs R C HS HZ _ s ES) as [g (EG&RL&HFI)].
  assert (Q : g_qk g = []).
  { destruct (run_ok_g R kbs HS pre) as (g0&s0'&G0&T0&E0'&RL0). rewrite E0 in E0'. inv E0'.
    pose proof (size_small kbs R C HS HZ) as [SR SC].
    assert (RE : released R C g0).
    { intros r c Hr Hc. rewrite <- (gdown g0 s0' r c RL0) by lia. auto. }
    destruct (open_ticks kbs R C HS HZ HH quiet g0 T0 RE HF) as [g1 (G1&W1)].
    destruct (g_bound g0 s0' RL0). unfold grun in *. rewrite gticks_app, G0 in EG. cbn [bind] in EG.
    rewrite G1 in EG. inv EG. unfold waiting in W1. destruct (g_qk g); auto. cbn in W1. lia. }
  destruct RL as [RT _]. destruct HFI as (k&ms&F1&F2&F3&_). rewrite Q in F1. exists k, ms.
  split; [auto|]. split; [|auto]. unfold sent, events. rewrite (rt_log _ _ RT). exact F2.
Qed.
Print Assumptions C102_all_sent.

(** Typing "ab" with overlapping strokes on the tiny keyboard, then resting. *)
Definition two_strokes : list (nat -> N) := hold 12 [(0, 0)] ++ hold 12 [(0, 0); (0, 1)] ++ hold 12 [].
Lemma tiny_size : same_size 1 8 tiny /\ scan_hook_free tiny.
Proof.
  split.
  - intros i cs mi E1 Hm. unfold tiny in E1. destruct (i =? 0)%N; inv E1.
    do 4 (destruct mi as [|mi]; [eexists; vm_compute; reflexivity|]). lia.
  - intros i cs f E1 HI. unfold tiny in E1. destruct (i =? 0)%N; inv E1. cbn in HI. intuition discriminate.
Qed.
Example C102_example :
  typed tiny (at_start tiny) (transitions 1 8 [] two_strokes) = [97; 98]%N /\
  obs (fun s => (sent s, down s 0 0, down s 0 1)) (c_run tiny two_strokes) = Some ([97; 98]%N, false, false).
Proof. split; vm_compute; reflexivity. Qed.

(** In a firmware without messages nothing is sent that was not typed, and
    nothing before what was typed before it. *)
Definition messageless (kbs : N -> option (list setup_cmd)) : Prop :=
  forall i cs id m, kbs i = Some cs -> ~ In (SHook id (HPrint m)) cs.

Lemma flow_in : forall p k q, flow p k q -> forall x, In x (k ++ q) -> x = 0xA0%N \/ In x p.
Proof.
  induction 1 as [|p k q x H IH HL|p k q x H IH HL|p k q x H IH|p k q x H IH HL HX]; intros y HY.
  - contradiction.
  - rewrite app_assoc in HY. apply in_app_or in HY. rewrite in_app_iff. destruct HY as [HY|HY]; [|auto].
    destruct (IH y HY); auto.
  - rewrite in_app_iff. destruct (IH y HY); auto.
  - apply IH. rewrite <- app_assoc in HY. exact HY.
  - rewrite app_assoc in HY. apply in_app_or in HY. destruct HY as [HY|[HY|[]]]; auto. subst y.
    destruct HX as [[p' ->]|HX]; [right; apply in_or_app; right; left; auto|auto].
Qed.
Lemma split_last : forall (l o1 o2 : list N) x y z, l ++ [z] = o1 ++ y :: o2 -> In x o2 ->
  (exists o3, l = o1 ++ y :: o3 /\ (In x o3 \/ x = z)).
Proof.
  intros l o1 o2 x y z HE HI. destruct o2 as [|w o2]; [contradiction|].
  destruct (exists_last (l := w :: o2) ltac:(discriminate)) as [o3 [z' EL]]. rewrite EL in *.
  assert (EQ : l ++ [z] = (o1 ++ y :: o3) ++ [z']) by (rewrite HE, <- app_assoc; reflexivity).
  apply app_inj_tail in EQ. destruct EQ as [EQ1 EQ2]. subst z' l. exists o3. split; auto.
  apply in_app_or in HI. destruct HI as [HI|[HI|[]]]; auto.
Qed.
Lemma flow_order : forall p k q, flow p k q -> forall o1 y o2 x, k ++ q = o1 ++ y :: o2 -> In x o2 ->
  x <> 0xA0%N -> y <> 0xA0%N -> exists p1 p2, p = p1 ++ y :: p2 /\ (In x p2 \/ x = y).
Proof.
  induction 1 as [|p k q z H IH HL|p k q z H IH HL|p k q z H IH|p k q z H IH HL HX]; intros o1 y o2 x HE HI NX NY.
  - destruct o1; discriminate.
  - rewrite app_assoc in HE. destruct (split_last _ _ _ _ _ _ HE HI) as [o3 [E3 [I3|I3]]].
    + destruct (IH _ _ _ _ E3 I3 NX NY) as (p1&p2&EP&HP). exists p1, (p2 ++ [z]). rewrite EP, <- app_assoc.
      split; auto. destruct HP; auto. left. apply in_or_app. auto.
    + subst z. destruct (flow_in _ _ _ H y) as [B|B]; [rewrite E3; apply in_or_app; right; left; auto|contradiction|].
      apply in_split in B. destruct B as (p1&p2&EP). exists p1, (p2 ++ [x]). rewrite EP, <- app_assoc.
      split; auto. left. apply in_or_app. right. left. auto.
  - destruct (IH _ _ _ _ HE HI NX NY) as (p1&p2&EP&HP). exists p1, (p2 ++ [z]). rewrite EP, <- app_assoc.
    split; auto. destruct HP; auto. left. apply in_or_app. auto.
  - rewrite <- app_assoc in HE. apply (IH _ _ _ _ HE HI NX NY).
  - rewrite app_assoc in HE. destruct (split_last _ _ _ _ _ _ HE HI) as [o3 [E3 [I3|I3]]].
    + apply (IH _ _ _ _ E3 I3 NX NY).
    + subst z. destruct HX as [[p' EP]|HX]; [|contradiction].
      destruct (flow_in _ _ _ H y) as [B|B]; [rewrite E3; apply in_or_app; right; left; auto|contradiction|].
      rewrite EP in B. apply in_app_or in B. destruct B as [B|[B|[]]].
      * apply in_split in B. destruct B as (p1&p2&EP2). exists p1, (p2 ++ [x]). rewrite EP, EP2, <- app_assoc.
        split; auto. left. apply in_or_app. right. left. auto.
      * exists p', []. subst y. auto.
Qed.
Lemma shuffle_alone : forall a b l, shuffle a b l -> b = [] -> l = a.
Proof.
  induction 1 as [|a b l x H IH|a b l x H IH]; intros HB; auto.
  - rewrite IH; auto.
  - destruct b; discriminate.
Qed.
Lemma visible_split : forall k o1 y o2, visible k = o1 ++ y :: o2 ->
  (y < 0xA0)%N /\ exists k1 k2, k = k1 ++ y :: k2 /\ visible k2 = o2.
Proof.
  induction k as [|z k IH]; intros o1 y o2 H; [destruct o1; discriminate|].
  cbn [visible filter] in H. destruct (N.ltb_spec z 0xA0).
  - destruct o1 as [|w o1].
    + inv H. split; auto. exists [], k. auto.
    + inv H. destruct (IH _ _ _ H3) as (A&k1&k2&->&B). split; auto. exists (w :: k1), k2. auto.
  - destruct (IH _ _ _ H) as (A&k1&k2&->&B). split; auto. exists (z :: k1), k2. auto.
Qed.

Theorem C102_in_order : forall R C kbs rds s, sound_firmware R kbs -> same_size R C kbs -> messageless kbs ->
  c_run kbs rds = Ok s ->
  let p := typed kbs (at_start kbs) (transitions R C [] rds) in
  (forall x, In x (sent s) -> In x p) /\
  (forall o1 y o2 x, sent s = o1 ++ y :: o2 -> In x o2 -> exists p1 p2, p = p1 ++ y :: p2 /\ (In x p2 \/ x = y)).
Proof.
  intros R C kbs rds s HS HZ HM ES p. destruct (C102_sent R C kbs rds s HS HZ ES) as (k&q&ms&F&_&SH&HF). fold p in F.
  assert (ms = []).
  { destruct ms as [|m ms]; auto. inv HF. destruct H1 as (i&cs&id&t&l&A&B&_). exfalso. exact (HM _ _ _ _ A B). }
  apply shuffle_alone in SH; auto. rewrite SH.
  assert (V : forall x l, In x (visible l) -> In x l /\ x <> 0xA0%N).
  { intros x l HI. apply filter_In in HI. destruct HI. split; auto. lia. }
  split.
  - intros x HI. apply V in HI. destruct HI as [HI HN].
    destruct (flow_in _ _ _ F x ltac:(apply in_or_app; auto)); [contradiction|auto].
  - intros o1 y o2 x HE HI. destruct (visible_split _ _ _ _ HE) as (LY&k1&k2&EK&E2).
    rewrite <- E2 in HI. apply V in HI. destruct HI as [HI HN].
    apply (flow_order _ _ _ F k1 y (k2 ++ q) x); auto; [|apply in_or_app; auto|lia].
    rewrite EK, <- app_assoc. reflexivity.
Qed.
Print Assumptions C102_in_order.

Lemma tiny_messageless : messageless tiny.
Proof.
  intros i cs id m E1 HI. unfold tiny in E1. destruct (i =? 0)%N; inv E1. cbn in HI. intuition discriminate.
Qed.
