(** Keymaps that are never selected make no difference (C150). *)
From Coq Require Import List NArith ZArith Arith Bool Lia.
From Coq Require Import ZifyBool ZifyNat ZifyN.
From Verif Require Import Base Lib Buffer BufferSpec BufferProofs Repeat Devices DevSpec DevProofs
     Modifiers Hook KeymapData Asdf KeySpec KeyRef Obs PropDebounce Custom CustomSpec CustomRef PropCustom PropEvents
     PropKeysOut.
Import ListNotations.
Local Open Scope outcome_scope.

(** ** Specification *)

(** The number of the keyboard a transition asks for: a mode switch closing sets
    its bit of the present number, one opening clears it. *)
Definition asks_for (kbs : N -> option (list setup_cmd)) (e : setting) (t : nat * nat * bool) : option N :=
  let '(r, c, b) := t in
  match decode (code_in kbs e r c) with
  | AMapsel n => Some (u8 (if (b : bool) then N.setbit (e_kb e) n else N.clearbit (e_kb e) n))
  | _ => None
  end.

(** Whatever number the transitions ask for, both firmwares have the same keymap
    there, or both have none. *)
Fixpoint only_common (kbs big : N -> option (list setup_cmd)) (e : setting) (ts : list (nat * nat * bool)) : Prop :=
  match ts with
  | [] => True
  | t :: ts' =>
      (forall i, asks_for kbs e t = Some i -> big i = kbs i) /\ only_common kbs big (after_event kbs e t) ts'
  end.

(** ** Proof *)
Lemma common_app : forall kbs big l l' e, only_common kbs big e (l ++ l') <->
  only_common kbs big e l /\ only_common kbs big (fold_left (after_event kbs) l e) l'.
Proof.
  intros kbs big. induction l as [|t l IH]; intros l' e; cbn [app only_common fold_left]; [tauto|]. rewrite IH. tauto.
Qed.

Section Same.
Variable kbs big : N -> option (list setup_cmd).
Variable R C : nat.
Hypothesis sound : sound_firmware R kbs.
Hypothesis size : same_size R C kbs.

Lemma select_same : forall i g, big i = kbs i -> gselect big i g = gselect kbs i g.
Proof. intros i g H. unfold gselect, gswitch. rewrite H. reflexivity. Qed.

Lemma press_same : forall e r c g, is_set e g -> 
  (forall i, asks_for kbs e (r, c, true) = Some i -> big i = kbs i) ->
  gpress big (code_in kbs e r c) g = gpress kbs (code_in kbs e r c) g.
Proof.
  intros e r c g [H1 H2] HA. unfold gpress. destruct (0xA0 <? code_in kbs e r c)%N; auto. unfold gaction_on.
  unfold asks_for in HA. destruct (decode (code_in kbs e r c)); auto. rewrite select_same; auto. rewrite H1. apply HA. reflexivity.
Qed.
Lemma release_same : forall e r c g, is_set e g -> 
  (forall i, asks_for kbs e (r, c, false) = Some i -> big i = kbs i) ->
  grelease big (code_in kbs e r c) g = grelease kbs (code_in kbs e r c) g.
Proof.
  intros e r c g [H1 H2] HA. unfold grelease. destruct (0xA0 <? code_in kbs e r c)%N; auto. unfold gaction_off.
  unfold asks_for in HA. destruct (decode (code_in kbs e r c)); auto. rewrite select_same; auto. rewrite H1. apply HA. reflexivity.
Qed.
Lemma held_same : forall x g, low g -> gheld big x g = gheld kbs x g.
Proof.
  intros x g L. unfold gheld. destruct (N.eqb_spec x (g_last g)); auto. unfold low in L.
  destruct (repeat_tick (g_rep g)) as [[] q]; auto. unfold gpress. replace (0xA0 <? x)%N with false by lia. reflexivity.
Qed.

Lemma key_same : forall rd r c e g, Tab kbs g -> low g -> is_set e g -> r < R -> c < C ->
  only_common kbs big e (ev1 g rd r c) -> gkey big rd r c g = gkey kbs rd r c g.
Proof.
  intros rd r c e g T L HS Hr Hc HA. unfold gkey. cbv zeta. unfold ev1, dbp, db in HA. cbn [fst snd] in HA.
  destruct (Bool.eqb (reading rd r c) (g_dn g r c)) eqn:EQ; cbn [fst] in HA.
  - destruct (reading rd r c); auto. destruct (gcode r c g); cbn [bind]; auto. apply held_same. auto.
  - destruct (g_ct g r c =? 1)%N; cbn [fst] in HA; auto.
    replace (Bool.eqb (g_dn g r c) (reading rd r c)) with false in HA
        by (destruct (g_dn g r c), (reading rd r c); auto).
    destruct HA as [HA _].
    set (g1 := gp_dn (set2 (g_dn g) r c (reading rd r c)) (gp_ct (set2 (g_ct g) r c 10%N) g)).
    assert (T1 : Tab kbs g1) by (apply (Tab_eq kbs g); auto).
    assert (S1 : is_set e g1) by exact HS.
    rewrite (set_code kbs R C sound size e g1 r c T1 S1 Hr Hc). cbn [bind].
    destruct (reading rd r c); [apply press_same; auto|]. f_equal. apply release_same; auto.
Qed.

Lemma set_E : forall e g h, E g h -> is_set e g -> is_set e h.
Proof. intros e g h (_&A&_&_&B&_) [H1 H2]. split; congruence. Qed.
Lemma ev1_in : forall g rd r c r' c' b, In (r', c', b) (ev1 g rd r c) -> r' = r /\ c' = c.
Proof. intros g rd r c r' c' b H. unfold ev1 in H. cbv zeta in H. destruct (Bool.eqb _ _); [contradiction|]. destruct H as [H|[]]. inv H. auto. Qed.

Lemma cols_same : forall n rd r c e g, Tab kbs g -> low g -> is_set e g -> r < R -> n + c = 8 ->
  only_common kbs big e (flat_map (ev1 g rd r) (seq c (C - c))) ->
  gcols big n rd r c g = gcols kbs n rd r c g.
Proof.
  induction n as [|n IH]; intros rd r c e g T L HS Hr HN HA; cbn [gcols]; [reflexivity|].
  destruct (tab_size kbs R C size g T) as [W1 W2]. rewrite W2. destruct (Nat.ltb_spec c C); [|reflexivity].
  replace (C - c) with (S (C - S c)) in HA by lia. cbn [seq flat_map] in HA. apply common_app in HA. destruct HA as [HA HB].
  rewrite (key_same rd r c e g) by auto.
  destruct (key_events kbs R C sound size rd r c g T L Hr H) as [g1 (E1&T1&L1&X1)]. rewrite E1. cbn [bind].
  apply (IH rd r (S c) (fold_left (after_event kbs) (ev1 g rd r c) e)); auto; [|lia|].
  - eapply set_E; [exact X1|]. apply (fold_set kbs R C); auto. intros r' c' b I. apply ev1_in in I. lia.
  - replace (flat_map (ev1 g1 rd r) (seq (S c) (C - S c))) with (flat_map (ev1 g rd r) (seq (S c) (C - S c))); auto.
    rewrite !flat_map_concat_map. f_equal. apply map_ext_in. intros c' Hc'. apply in_seq in Hc'.
    destruct (gkey_frame kbs rd r c g g1 r c' E1 ltac:(lia)) as [A1 A2].
    unfold ev1, dbp. rewrite A1, A2. reflexivity.
Qed.

Lemma rows_same : forall n rd r e g, Tab kbs g -> low g -> is_set e g -> n + r = 16 ->
  only_common kbs big e (flat_map (fun r => flat_map (ev1 g rd r) (seq 0 C)) (seq r (R - r))) ->
  grows big n rd r g = grows kbs n rd r g.
Proof.
  induction n as [|n IH]; intros rd r e g T L HS HN HA; cbn [grows]; [reflexivity|].
  destruct (tab_size kbs R C size g T) as [W1 W2]. rewrite W1. destruct (Nat.ltb_spec r R); [|reflexivity].
  replace (R - r) with (S (R - S r)) in HA by lia. cbn [seq flat_map] in HA. apply common_app in HA. destruct HA as [HA HB].
  rewrite (cols_same 8 rd r 0 e g) by (rewrite ?Nat.sub_0_r; auto).
  destruct (cols_events kbs R C sound size 8 rd r 0 g T L H eq_refl) as [g1 (E1&T1&L1&X1)]. rewrite E1. cbn [bind].
  rewrite Nat.sub_0_r in X1.
  apply (IH rd (S r) (fold_left (after_event kbs) (flat_map (ev1 g rd r) (seq 0 C)) e)); auto; [|lia|].
  - eapply set_E; [exact X1|]. apply (fold_set kbs R C); auto. intros r' c' b I.
    apply in_flat_map in I. destruct I as [c1 [I1 I]]. apply in_seq in I1. apply ev1_in in I. lia.
  - replace (flat_map (fun r => flat_map (ev1 g1 rd r) (seq 0 C)) (seq (S r) (R - S r)))
      with (flat_map (fun r => flat_map (ev1 g rd r) (seq 0 C)) (seq (S r) (R - S r))); auto.
    rewrite !flat_map_concat_map. f_equal. apply map_ext_in. intros r' Hr'. apply in_seq in Hr'.
    rewrite !flat_map_concat_map. f_equal. apply map_ext_in. intros c' _.
    destruct (cols_frame kbs _ _ _ _ _ _ E1 r' c' ltac:(lia)) as [A1 A2].
    unfold ev1, dbp. rewrite A1, A2. reflexivity.
Qed.

Lemma tick_same : forall rd e g, Tab kbs g -> low g -> is_set e g ->
  only_common kbs big e (flat_map (fun r => flat_map (ev1 g rd r) (seq 0 C)) (seq 0 R)) ->
  gtick big rd g = gtick kbs rd g.
Proof.
  intros rd e g T L HS HA. unfold gtick. destruct (send_ok R kbs sound g T) as [g1 (E1&T1&D1&D2)]. rewrite E1. cbn [bind].
  pose proof (send_E _ _ E1) as X1. unfold gscan. destruct (nth HOOK_ROW_SCANNER (g_hook g1) HUnset);
    try (lazymatch goal with |- Bad _ = _ => reflexivity end).
  destruct (scan_split R kbs sound rd g1 T1) as [g2 (H2&T2&D3&D4&E2)]. rewrite H2. cbn [bind].
  assert (X2 : E g g2) by (eapply E_trans; [exact X1|apply (E_hook _ _ _ _ (E_refl g1) H2)]).
  apply (rows_same 16 rd 0 e); auto.
  - unfold low in *. destruct X2 as [<- _]. auto.
  - eapply set_E; eauto.
  - rewrite Nat.sub_0_r. unfold ev1, dbp in *. rewrite D3, D4, D1, D2. exact HA.
Qed.

Lemma ticks_same : forall rds pre e g, Tab kbs g -> low g -> is_set e g ->
  (forall r c, r < R -> c < C -> dbp g r c = dstate (key_readings pre r c)) ->
  only_common kbs big e (transitions R C pre rds) ->
  gticks big rds g = gticks kbs rds g.
Proof.
  induction rds as [|rd rds IH]; intros pre e g T L HS HD HA; cbn [gticks transitions] in *; [reflexivity|].
  apply common_app in HA. destruct HA as [HA HB].
  assert (FR : scan_events R C pre rd = flat_map (fun r => flat_map (ev1 g rd r) (seq 0 C)) (seq 0 R)).
  { unfold scan_events. rewrite !flat_map_concat_map. f_equal. apply map_ext_in. intros r Hr. apply in_seq in Hr.
    rewrite !flat_map_concat_map. f_equal. apply map_ext_in. intros c Hc. apply in_seq in Hc.
    unfold key_event, ev1, accepted_after. rewrite key_readings_app.
    change (key_readings [rd] r c) with [reading rd r c]. rewrite dstate_snoc, <- HD by lia. reflexivity. }
  rewrite FR in HA, HB. rewrite (tick_same rd e g) by auto.
  destruct (tick_events kbs R C sound size rd g T L) as [g1 (E1&T1&L1&X1)]. rewrite E1. cbn [bind].
  apply (IH (pre ++ [rd]) (fold_left (after_event kbs) (flat_map (fun r => flat_map (ev1 g rd r) (seq 0 C)) (seq 0 R)) e)); auto.
  - eapply set_E; [exact X1|]. apply (fold_set kbs R C); auto. intros r' c' b I.
    apply in_flat_map in I. destruct I as [r1 [I1 I]]. apply in_seq in I1.
    apply in_flat_map in I. destruct I as [c1 [I2 I]]. apply in_seq in I2. apply ev1_in in I. lia.
  - intros r c Hr Hc. rewrite (tick_dbp R kbs sound C (at_least_size kbs R C sound size) rd g g1 r c T E1 Hr Hc).
    rewrite key_readings_app. change (key_readings [rd] r c) with [reading rd r c]. rewrite dstate_snoc, HD; auto.
Qed.
End Same.

Theorem C150_unselected_keymaps : forall R C kbs big rds, sound_firmware R kbs -> same_size R C kbs ->
  big 0%N = kbs 0%N -> only_common kbs big (at_start kbs) (transitions R C [] rds) ->
  exists s s', c_run kbs rds = Ok s /\ c_run big rds = Ok s' /\ events s' = events s /\
    k_cur s' = k_cur s /\ k_mod s' = k_mod s /\ k_last s' = k_last s /\
    (forall r c, r < 16 -> c < 8 -> down s' r c = down s r c).
Proof.
  intros R C kbs big rds HS HZ H0 HA. destruct (run_ok_g R kbs HS rds) as (g&s&E1&T1&E2&RL).
  pose proof (tab_boot R kbs HS) as TB.
  assert (X : grun big rds = Ok g).
  { unfold grun in *. replace (gboot big) with (gboot kbs) by (unfold gboot, gswitch; rewrite H0; reflexivity).
    rewrite (ticks_same kbs big R C HS HZ rds [] (at_start kbs)); auto.
    - apply (boot_low kbs).
    - apply (start_set kbs R HS).
    - intros r c _ _. apply boot_dbp. }
  destruct (proj1 HS) as [cs EC]. rewrite <- H0 in EC. pose proof (grun_sim big cs rds EC) as Y. rewrite X in Y.
  destruct Y as [s' [E3 RL']]. exists s, s'. split; [auto|]. split; [auto|].
  pose proof RL as [RT RS]. pose proof RL' as [RT' RS']. unfold events.
  rewrite (rt_mod _ _ RT), (rt_cur _ _ RT), (rt_log _ _ RT), (rs_last _ _ RS).
  rewrite (rt_mod _ _ RT'), (rt_cur _ _ RT'), (rt_log _ _ RT'), (rs_last _ _ RS').
  do 4 (split; [reflexivity|]). intros r c Hr Hc. rewrite (gdown g s), (gdown g s') by auto. reflexivity.
Qed.
Print Assumptions C150_unselected_keymaps.

(** ** The shipped firmware with mode switches 2 and 3 open *)

(** Switches 2 and 3 are the keys (8, 2) and (8, 3). *)
Definition low_switches (rds : list (nat -> N)) : Prop :=
  forall c, c = 2 \/ c = 3 -> ~ In (8, c, true) (transitions 9 8 [] rds).

Definition ff := choice PropKeysOut.first_four.

Definition mapsels_ok : bool :=
  forallb (fun k => forallb (fun mi => match table_of (setup_of k) mi with
     | Some (m, _, _) => forallb (fun r => forallb (fun c =>
         match decode (nth (r * 8 + c) m 0%N) with
         | AMapsel n => (r =? 8) && (N.of_nat c =? n)%N && (n <? 4)%N
         | _ => true end) (seq 0 8)) (seq 0 9)
     | None => true end) (seq 0 4)) [0; 1; 2; 3]%N.
Lemma mapsels_true : mapsels_ok = true. Proof. vm_compute. reflexivity. Qed.

Lemma ff_sound : sound_firmware 9 ff /\ same_size 9 8 ff.
Proof. exact first_four_sound. Qed.

Lemma ff_mapsel : forall e r c n, (e_kb e < 4)%N -> r < 9 -> c < 8 -> decode (code_in ff e r c) = AMapsel n ->
  r = 8 /\ n = N.of_nat c /\ (n < 4)%N.
Proof.
  intros e r c n He Hr Hc D. pose proof mapsels_true as M. unfold mapsels_ok in M. rewrite forallb_forall in M.
  specialize (M (e_kb e)). assert (I : In (e_kb e) [0; 1; 2; 3]%N) by (cbn; lia). apply M in I. clear M.
  rewrite forallb_forall in I. assert (HM : map_in e < 4) by (unfold map_in; destruct (e_ctrl e), (e_shift e || e_lock e), (e_caps e); lia).
  specialize (I (map_in e) ltac:(apply in_seq; lia)). unfold code_in in D.
  assert (K : ff (e_kb e) = Some (setup_of (e_kb e))).
  { unfold ff, choice, PropKeysOut.first_four. destruct (N.ltb_spec (e_kb e) 4); [reflexivity|lia]. }
  rewrite K in D. destruct (proj2 ff_sound _ _ _ K HM) as [m EM]. rewrite EM in D, I.
  rewrite forallb_forall in I. specialize (I r ltac:(apply in_seq; lia)). rewrite forallb_forall in I.
  specialize (I c ltac:(apply in_seq; lia)). rewrite D in I. lia.
Qed.

Lemma ff_common : forall ts e, (e_kb e < 4)%N -> (forall r c b, In (r, c, b) ts -> r < 9 /\ c < 8) ->
  (forall c, c = 2 \/ c = 3 -> ~ In (8, c, true) ts) -> only_common ff shipped e ts.
Proof.
  induction ts as [|[[r c] b] ts IH]; intros e He HI HN; cbn [only_common]; auto.
  destruct (HI r c b (or_introl eq_refl)) as [Hr Hc].
  assert (A : forall i, asks_for ff e (r, c, b) = Some i -> (i < 4)%N).
  { intros i H. unfold asks_for in H. destruct (decode (code_in ff e r c)) eqn:D; try discriminate. inv H.
    destruct (ff_mapsel e r c n He Hr Hc D) as (A1&A2&A3).
    assert (ECS : (e_kb e = 0 \/ e_kb e = 1 \/ e_kb e = 2 \/ e_kb e = 3)%N) by lia.
    assert (NCS : (n = 0 \/ n = 1 \/ n = 2 \/ n = 3)%N) by lia.
    destruct b.
    - assert (NN : (n = 0 \/ n = 1)%N).
      { assert (c <> 2 /\ c <> 3); [|lia]. split; intros ->; [apply (HN 2)|apply (HN 3)]; auto; left; subst; reflexivity. }
      destruct ECS as [-> | [-> | [-> | ->]]], NN as [-> | ->]; vm_compute; reflexivity.
    - destruct ECS as [-> | [-> | [-> | ->]]], NCS as [-> | [-> | [-> | ->]]]; vm_compute; reflexivity. }
  split.
  - intros i H. apply A in H. unfold shipped, ff, choice, PropKeysOut.first_four.
    destruct (N.ltb_spec i 6); [|lia]. destruct (N.ltb_spec i 4); [reflexivity|lia].
  - apply IH; [|intros; apply (HI r0 c0 b0); right; auto|intros c0 H0 H1; apply (HN c0 H0); right; auto].
    assert (CH : forall i, (i < 4)%N -> (e_kb (choose ff i e) < 4)%N).
    { intros i H. unfold choose. destruct (i =? e_kb e)%N; auto. destruct (ff i); auto. }
    unfold after_event. unfold asks_for in A. destruct b; [unfold after_press|unfold after_release];
      destruct (decode (code_in ff e r c)); auto.
Qed.

Theorem C150_shipped : forall rds, low_switches rds ->
  exists s s', c_run (choice PropKeysOut.first_four) rds = Ok s /\ run rds = Ok s' /\ events s' = events s /\
    k_cur s' = k_cur s /\ k_mod s' = k_mod s /\ k_last s' = k_last s /\
    (forall r c, r < 16 -> c < 8 -> down s' r c = down s r c).
Proof.
  intros rds HL. destruct ff_sound as [S1 S2].
  destruct (C150_unselected_keymaps 9 8 ff shipped rds S1 S2) as (s&s'&A&B&X).
  - reflexivity.
  - apply ff_common; [reflexivity| |exact HL]. intros r c b H. apply (transitions_in 9 8 rds [] r c b H).
  - exists s, s'. rewrite c_run_shipped in B. auto.
Qed.
Print Assumptions C150_shipped.

(** What its keys do to lamps and output lines is therefore as C149 says. *)
Theorem C150_shipped_outputs : forall rds, low_switches rds ->
  exists s, run rds = Ok s /\
  filter worked (events s) =
    set_up (kind PropKeysOut.first_four (at_start (choice PropKeysOut.first_four))) false ++
    panel_calls PropKeysOut.first_four (at_start (choice PropKeysOut.first_four)) false (transitions 9 8 [] rds).
Proof.
  intros rds HL. destruct (C150_shipped rds HL) as (s&s'&A&B&X&_). exists s'. split; [exact B|]. rewrite X.
  apply (C149_outputs _ _ rds s (proj1 C149_switching_example) A).
Qed.
Print Assumptions C150_shipped_outputs.

(** The tour of C149 closes switch 1 only: the shipped firmware makes the same
    calls. *)
Example C150_example : low_switches moving /\ In (8, 1, true) (transitions 9 8 [] moving) /\
  obs (fun s => filter worked (events s)) (run moving) =
  Some [EvArchInit; EvOut LED3 1; EvOut OUT3_OPEN_HI 0; EvPulseShort; EvOut OUT3_OPEN_HI 1; EvArchInit; EvOut LED1 0;
        EvOut LED1 1; EvOut OUT1_OPEN_LO 1; EvPulseLong; EvOut OUT1_OPEN_LO 0; EvArchInit].
Proof.
  assert (T : transitions 9 8 [] moving = [(5, 2, true); (5, 2, false); (0, 6, true); (2, 0, true); (0, 6, false); (2, 0, false);
     (8, 1, true); (0, 0, true); (0, 0, false); (0, 1, true); (6, 2, true); (0, 1, false); (6, 2, false); (8, 1, false)])
    by (vm_compute; reflexivity).
  split; [|split; [|vm_compute; reflexivity]].
  - intros c HC. rewrite T. destruct HC as [-> | ->]; intros H; cbn in H;
      repeat (destruct H as [H|H]; [discriminate|]); exact H.
  - rewrite T. cbn. auto 10.
Qed.

(** It is not so once switch 2 is read closed: the shipped firmware then selects
    keyboard 4, and the next key is looked up outside the table of keymaps. *)
Theorem C150_switch_refuted : exists rds s, c_run (choice PropKeysOut.first_four) rds = Ok s /\ run rds = Bad UKeymapsOob.
Proof.
  exists (hold 12 [(8, 2)] ++ hold 12 [(8, 2); (1, 1)]).
  destruct (c_run (choice PropKeysOut.first_four) (hold 12 [(8, 2)] ++ hold 12 [(8, 2); (1, 1)])) as [s|u] eqn:E.
  - exists s. split; [reflexivity|vm_compute; reflexivity].
  - exfalso. assert (X : obs (fun _ => tt) (c_run (choice PropKeysOut.first_four) (hold 12 [(8, 2)] ++ hold 12 [(8, 2); (1, 1)])) = Some tt)
      by (vm_compute; reflexivity).
    rewrite E in X. discriminate.
Qed.
Print Assumptions C150_switch_refuted.

(** Two firmwares with different third keymaps, and readings that select only the
    first two. *)
Definition two_and (k : N) (i : N) : option N := if (i <? 2)%N then Some i else if (i =? 2)%N then Some k else None.
Example C150_keymaps_example :
  sound_firmware 9 (choice (two_and 2)) /\ same_size 9 8 (choice (two_and 2)) /\
  only_common (choice (two_and 2)) (choice (two_and 3)) (at_start (choice (two_and 2)))
    (transitions 9 8 [] (hold 12 [(8, 0)] ++ hold 12 [(8, 0); (1, 1)])) /\
  obs sent (c_run (choice (two_and 3)) (hold 12 [(8, 0)] ++ hold 12 [(8, 0); (1, 1)])) <> Some [].
Proof.
  split; [|split; [|split]].
  - apply choice_sound; [eexists; reflexivity|]. unfold two_and. intros i k. destruct (N.ltb_spec i 2); [intros X; inv X; lia|].
    destruct (N.eqb_spec i 2); intros X; inv X. lia.
  - intros i cs mi. unfold choice, two_and. intros X Hm.
    assert (C : (i = 0 \/ i = 1 \/ i = 2)%N).
    { destruct (N.ltb_spec i 2); [lia|]. destruct (N.eqb_spec i 2); [lia|discriminate]. }
    destruct C as [-> | [-> | ->]]; inv X;
      do 4 (destruct mi as [|mi]; [eexists; vm_compute; reflexivity|]); lia.
  - assert (T : transitions 9 8 [] (hold 12 [(8, 0)] ++ hold 12 [(8, 0); (1, 1)]) = [(8, 0, true); (1, 1, true)])
      by (vm_compute; reflexivity).
    rewrite T. cbn [only_common]. split; [|split; [|exact I]]; intros i H; vm_compute in H; inv H; reflexivity.
  - vm_compute. discriminate.
Qed.
