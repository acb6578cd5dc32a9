(** A keymap that registers no table for some combination of modifiers
    (C103). *)
From Coq Require Import List NArith ZArith Arith Bool Lia.
From Coq Require Import ZifyBool ZifyNat ZifyN.
From Verif Require Import Base Lib Buffer BufferSpec BufferProofs Repeat Devices DevSpec DevProofs
     Modifiers Hook KeymapData Asdf KeySpec KeyRef Obs PropDebounce Custom CustomSpec CustomRef PropCustom PropEvents.
Import ListNotations.
Local Open Scope outcome_scope.

(** The table in force: CTRL before SHIFT before CAPS LOCK. *)
Definition map_used (s : kb) : nat :=
  if ctrl_on s then 3 else if shift_on s then 1 else if caps_on s then 2 else 0.

(** ** Any keymaps: the tables are those of the selected keyboard *)
Section Any.
Variable kbs : N -> option (list setup_cmd).

Lemma key_tab : forall rd r c g g', gkey kbs rd r c g = Ok g' -> Tab kbs g -> Tab kbs g'.
Proof.
  intros rd r c g g' H T. unfold gkey in H. cbv zeta in H. destruct (Bool.eqb _ _).
  - destruct (reading rd r c); [|inv H; auto]. apply bind_Ok_inv in H. destruct H as [x [_ H]].
    apply (held_tabs kbs x g g' H T).
  - destruct (g_ct g r c =? 1)%N.
    + apply bind_Ok_inv in H. destruct H as [x [_ H]]. set (g1 := gp_dn _ _) in H.
      assert (T1 : Tab kbs g1) by (apply (Tab_eq kbs g); auto).
      destruct (reading rd r c); [apply (press_tabs kbs x g1 g' H T1)|]. inv H. apply release_tabs. auto.
    + inv H. apply (Tab_eq kbs g); auto.
Qed.
Lemma cols_tab : forall n rd r c g g', gcols kbs n rd r c g = Ok g' -> Tab kbs g -> Tab kbs g'.
Proof.
  induction n as [|n IH]; intros rd r c g g' H T; cbn [gcols] in H; [inv H; auto|].
  destruct (c <? g_cols g); [|inv H; auto]. apply bind_Ok_inv in H. destruct H as [g1 [E1 H]].
  eapply IH; eauto. eapply key_tab; eauto.
Qed.
Lemma rows_tab : forall n rd r g g', grows kbs n rd r g = Ok g' -> Tab kbs g -> Tab kbs g'.
Proof.
  induction n as [|n IH]; intros rd r g g' H T; cbn [grows] in H; [inv H; auto|].
  destruct (r <? g_rows g); [|inv H; auto]. apply bind_Ok_inv in H. destruct H as [g1 [E1 H]].
  eapply IH; eauto. eapply cols_tab; eauto.
Qed.
(** Sending and the function of each scan: keys and modes stay. *)
Definition keeps (g g' : gkb) : Prop :=
  g_dn g' = g_dn g /\ g_mod g' = g_mod g /\ g_cur g' = g_cur g /\ g_maps g' = g_maps g /\ g_hook g' = g_hook g.
Lemma send_keeps : forall g g', gsend g = Ok g' -> keeps g g'.
Proof.
  assert (X : forall x g g', gemit x g = Ok g' -> keeps g g').
  { intros x g g' H. unfold gemit in H. destruct (x <? 0xA0)%N; [|inv H; repeat split].
    destruct (nth HOOK_OUTPUT (g_hook g) HUnset); inv H. repeat split. }
  intros g g' H. unfold gsend in H. cbv zeta in H. destruct (hd 0xA0 (g_qm g) =? 0xA0)%N; apply X in H; exact H.
Qed.
Lemma hook_keeps : forall id g g', ghook id g = Ok g' -> keeps g g'.
Proof. intros id g g' H. unfold ghook in H. destruct (nth id (g_hook g) HUnset) as [| | | | |m]; try destruct (format m); inv H; repeat split. Qed.
Lemma keeps_tab : forall g g', keeps g g' -> Tab kbs g -> Tab kbs g'.
Proof. intros g g' (_&_&A&B&D) T. apply (Tab_eq kbs g); auto. Qed.
Lemma keeps_trans : forall a b c, keeps a b -> keeps b c -> keeps a c.
Proof. intros a b c (A1&A2&A3&A4&A5) (B1&B2&B3&B4&B5). repeat split; congruence. Qed.

Lemma tick_split : forall rd g g', gtick kbs rd g = Ok g' ->
  exists g2, keeps g g2 /\ grows kbs 16 rd 0 g2 = Ok g'.
Proof.
  intros rd g g' H. unfold gtick in H. apply bind_Ok_inv in H. destruct H as [g1 [E1 H]].
  unfold gscan in H. destruct (nth HOOK_ROW_SCANNER (g_hook g1) HUnset); try discriminate.
  apply bind_Ok_inv in H. destruct H as [g2 [E2 H]]. exists g2. split; auto.
  eapply keeps_trans; [apply send_keeps|apply hook_keeps in E2]; eauto.
Qed.
Lemma ticks_tab : forall rds g g', gticks kbs rds g = Ok g' -> Tab kbs g -> Tab kbs g'.
Proof.
  induction rds as [|rd rds IH]; intros g g' H T; cbn [gticks] in H; [inv H; auto|].
  apply bind_Ok_inv in H. destruct H as [g1 [E1 H]]. destruct (tick_split _ _ _ E1) as [g2 [K E2]].
  eapply IH; eauto. eapply rows_tab; eauto. eapply keeps_tab; eauto.
Qed.

(** ** No rows, no keys *)
Lemma dead_ticks : forall rds g g', gticks kbs rds g = Ok g' -> g_rows g = 0 -> keeps g g'.
Proof.
  induction rds as [|rd rds IH]; intros g g' H HR; cbn [gticks] in H; [inv H; repeat split|].
  apply bind_Ok_inv in H. destruct H as [g1 [E1 H]]. destruct (tick_split _ _ _ E1) as [g2 [K E2]].
  assert (R2 : g_rows g2 = 0) by (destruct K as (_&A&_&B&_); unfold g_rows in *; rewrite A, B; auto).
  assert (X : g2 = g1) by (cbn [grows] in E2; rewrite R2 in E2; cbn in E2; congruence). subst g2.
  eapply keeps_trans; [exact K|]. apply IH; auto.
Qed.

Lemma run_pair : forall cs rds s, kbs 0%N = Some cs -> c_run kbs rds = Ok s ->
  exists g, grun kbs rds = Ok g /\ GRel g s.
Proof.
  intros cs rds s E0 ES. pose proof (grun_sim kbs cs rds E0) as X. destruct (grun kbs rds) as [g|u]; cbn [osim] in X.
  - destruct X as [s' [E1 RL]]. rewrite ES in E1. inv E1. eauto.
  - congruence.
Qed.
Lemma run_tab : forall cs rds g, kbs 0%N = Some cs -> grun kbs rds = Ok g -> Tab kbs g.
Proof.
  intros cs rds g E0 H. eapply ticks_tab; [exact H|]. unfold gboot.
  destruct (gswitch_tabs kbs 0 gzero cs E0) as (A&B&D). exists cs. rewrite A, B, D. auto.
Qed.
End Any.

(** ** C103 *)
Theorem C103_dead : forall kbs pre rds s s', (exists cs, kbs 0%N = Some cs) ->
  c_run kbs pre = Ok s -> c_run kbs (pre ++ rds) = Ok s' ->
  (forall cs, kbs (k_cur s) = Some cs -> table_of cs (map_used s) = None) ->
  (forall r c, r < 16 -> c < 8 -> down s' r c = down s r c) /\
  ctrl_on s' = ctrl_on s /\ shift_on s' = shift_on s /\ caps_on s' = caps_on s /\ k_cur s' = k_cur s.
Proof.
  intros kbs pre rds s s' [cs0 E0] ES ES' HT.
  destruct (run_pair kbs cs0 pre s E0 ES) as [g [EG RL]]. destruct (run_pair kbs cs0 _ s' E0 ES') as [g' [EG' RL']].
  pose proof (run_tab kbs cs0 pre g E0 EG) as [cs (A&B&_)].
  assert (MU : map_now (g_mod g) = map_used s).
  { pose proof RL as [RT _]. unfold map_used, ctrl_on, shift_on, caps_on, map_now. rewrite (rt_mod _ _ RT).
    destruct (m_ctrl (g_mod g) =? 0)%N, (m_shift (g_mod g) =? 0)%N, (m_caps (g_mod g) =? 0)%N; reflexivity. }
  assert (HR : g_rows g = 0).
  { unfold g_rows. pose proof (map_now_lt (g_mod g)) as HL. pose proof (proj1 (tm_table cs _ HL)) as X.
    pose proof RL as [RT _]. rewrite <- (rt_cur _ _ RT) in A. rewrite MU in X at 2. rewrite (HT cs A) in X.
    rewrite B, (nth_error_nth _ _ no_map X). reflexivity. }
  assert (K : keeps g g').
  { unfold grun in EG, EG'. revert EG'. 
    assert (AP : forall a b x, gticks kbs (a ++ b) x = (y <- gticks kbs a x ;; gticks kbs b y)).
    { induction a as [|rd a IH]; intros b x; cbn [app gticks bind]; auto.
      destruct (gtick kbs rd x) as [y|]; cbn [bind]; auto. }
    rewrite AP, EG. cbn [bind]. intros EG'. eapply dead_ticks; eauto. }
  destruct K as (K1&K2&K3&_). split.
  - intros r c Hr Hc. rewrite (gdown g s r c RL), (gdown g' s' r c RL') by auto. rewrite K1. auto.
  - destruct RL as [RT _], RL' as [RT' _]. unfold ctrl_on, shift_on, caps_on.
    rewrite (rt_mod _ _ RT), (rt_mod _ _ RT'), (rt_cur _ _ RT), (rt_cur _ _ RT'), K2, K3. auto.
Qed.
Print Assumptions C103_dead.

(** A keymap whose author left out the CTRL table: key (0, 1) is CTRL. *)
Definition no_ctrl (i : N) : option (list setup_cmd) :=
  if (i =? 0)%N then
    Some [SAddMap [97; 0xA5]%N 0 1 2; SAddMap [65; 0xA5]%N 1 1 2; SAddMap [65; 0xA5]%N 2 1 2]
  else None.
Example C103_example :
  obs (fun s => (sent s, ctrl_on s)) (c_run no_ctrl (hold 12 [(0, 0)])) = Some ([97]%N, false) /\
  obs (fun s => (sent s, ctrl_on s, down s 0 1)) (c_run no_ctrl (hold 12 [(0, 1)] ++ hold 30 [] ++ hold 30 [(0, 0)])) =
    Some ([], true, true) /\
  obs (fun s => table_of [SAddMap [97; 0xA5]%N 0 1 2; SAddMap [65; 0xA5]%N 1 1 2; SAddMap [65; 0xA5]%N 2 1 2] (map_used s))
    (c_run no_ctrl (hold 12 [(0, 1)])) = Some None.
Proof. repeat split; vm_compute; reflexivity. Qed.
