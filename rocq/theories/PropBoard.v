(** The whole board under any keymaps: C106, C107. *)
From Coq Require Import List NArith ZArith Arith Bool Lia.
From Coq Require Import ZifyBool ZifyNat ZifyN.
From Verif Require Import Base Lib Buffer BufferSpec BufferProofs Repeat Devices DevSpec DevProofs
     Modifiers Hook KeymapData Asdf KeySpec KeyRef Obs PropDebounce.
From Verif Require Avr Arch328p Arch2560 PropArch328 PropArch2560 PropHost328 PropHost2560.
From Verif Require Import Host PropHost System PropSystem Custom CustomSpec CustomRef PropCustom PropEvents PropFlow PropExact
     CustomSystem.
Import ListNotations.
Local Open Scope outcome_scope.

(** ** The log only grows *)
Definition longer (g g' : gkb) : Prop := exists l, g_log g' = l ++ g_log g.
Lemma longer_refl : forall g, longer g g.
Proof. intros g. exists []. reflexivity. Qed.
Lemma longer_same : forall g g', g_log g' = g_log g -> longer g g'.
Proof. intros g g' H. exists []. exact H. Qed.
Lemma longer_trans : forall a b c, longer a b -> longer b c -> longer a c.
Proof. intros a b c [l H] [k K]. exists (k ++ l). rewrite K, H, app_assoc. reflexivity. Qed.
Lemma longer_note : forall e g, longer g (gnote e g).
Proof. intros e g. exists [e]. reflexivity. Qed.
Lemma longer_act : forall f v g, longer g (gact f v g).
Proof. intros f v g. unfold gact. destruct (spec_action _ _ _) as [lv ev]. exists (rev ev). reflexivity. Qed.
Lemma longer_shift : forall x g, longer g (gset_shift x g).
Proof. intros. apply longer_act. Qed.
Lemma longer_caps : forall g, longer g (gtoggle_caps g).
Proof. intros. apply longer_act. Qed.
Lemma longer_setup : forall cs g, longer g (gsetup cs g).
Proof.
  induction cs as [|c cs IH]; intros g; [apply longer_refl|].
  change (gsetup (c :: cs) g) with (gsetup cs (gsetup_step c g)). eapply longer_trans; [|apply IH].
  destruct c; cbn [gsetup_step]; try (apply longer_same; reflexivity).
  - destruct ((mi <? 4) && (rows <=? 16) && (cols <=? 8)); apply longer_same; reflexivity.
  - destruct ((0 <? id) && (id <? 16)); apply longer_same; reflexivity.
  - apply longer_caps.
  - apply longer_note.
Qed.
Lemma longer_hook : forall id g g', ghook id g = Ok g' -> longer g g'.
Proof.
  intros id g g' H. unfold ghook in H.
  destruct (nth id (g_hook g) HUnset) as [| | | | |m]; try destruct (format m); inv H; apply longer_same; reflexivity.
Qed.

Section Growth.
Variable kbs : N -> option (list setup_cmd).
Lemma longer_select : forall i g, longer g (gselect kbs i g).
Proof.
  intros i g. unfold gselect. destruct (i =? g_cur g)%N; [apply longer_refl|]. unfold gswitch.
  destruct (kbs i) as [cs|]; [|apply longer_refl]. eapply longer_trans; [|apply longer_setup]. exists [EvArchInit]. reflexivity.
Qed.
Lemma longer_on : forall x g g', gaction_on kbs x g = Ok g' -> longer g g'.
Proof.
  intros x g g' H. unfold gaction_on in H. destruct (decode x);
    try (eapply longer_hook; exact H);
    try (inv H; first [apply longer_shift|apply longer_caps|apply longer_select|apply longer_note|apply longer_act|apply longer_same; reflexivity]).
  destruct (n <=? 10); [eapply longer_hook; exact H|inv H; apply longer_refl].
Qed.
Lemma longer_off : forall x g, longer g (gaction_off kbs x g).
Proof.
  intros x g. unfold gaction_off. destruct (decode x);
    first [apply longer_shift|apply longer_select|apply longer_note|apply longer_same; reflexivity].
Qed.
Lemma longer_press : forall x g g', gpress kbs x g = Ok g' -> longer g g'.
Proof.
  intros x g g' H. unfold gpress in H. destruct (0xA0 <? x)%N; [eapply longer_on; exact H|].
  inv H. destruct (g_last g =? x)%N; apply longer_same; reflexivity.
Qed.
Lemma longer_key : forall rd r c g g', gkey kbs rd r c g = Ok g' -> longer g g'.
Proof.
  intros rd r c g g' H. unfold gkey in H. cbv zeta in H. destruct (Bool.eqb (reading rd r c) (g_dn g r c)).
  - destruct (reading rd r c); [|inv H; apply longer_refl].
    apply bind_Ok_inv in H. destruct H as [x [_ H]]. unfold gheld in H. destruct (x =? g_last g)%N; [|inv H; apply longer_refl].
    destruct (repeat_tick (g_rep g)) as [[] q]; [|inv H; apply longer_same; reflexivity].
    apply longer_press in H. exact H.
  - destruct (g_ct g r c =? 1)%N; [|inv H; apply longer_same; reflexivity].
    apply bind_Ok_inv in H. destruct H as [x [_ H]]. destruct (reading rd r c).
    + apply longer_press in H. exact H.
    + inv H. match goal with |- longer g (grelease _ _ ?h) => change (longer h (grelease kbs x h)); generalize h end. intros h.
      unfold grelease. destruct (0xA0 <? x)%N; [apply longer_off|]. destruct (g_last h =? x)%N; apply longer_same; reflexivity.
Qed.
Lemma longer_cols : forall n rd r c g g', gcols kbs n rd r c g = Ok g' -> longer g g'.
Proof.
  induction n as [|n IH]; intros rd r c g g' H; cbn [gcols] in H; [inv H; apply longer_refl|].
  destruct (c <? g_cols g); [|inv H; apply longer_refl]. apply bind_Ok_inv in H. destruct H as [g1 [E H]].
  eapply longer_trans; [eapply longer_key; exact E|eapply IH; exact H].
Qed.
Lemma longer_send : forall g g', gsend g = Ok g' -> longer g g'.
Proof.
  assert (X : forall x g g', gemit x g = Ok g' -> longer g g').
  { intros x g g' H. unfold gemit in H. destruct (x <? 0xA0)%N; [|inv H; apply longer_refl].
    destruct (nth HOOK_OUTPUT (g_hook g) HUnset); inv H. apply longer_note. }
  intros g g' H. unfold gsend in H. cbv zeta in H. destruct (hd 0xA0%N (g_qm g) =? 0xA0)%N; apply X in H; [exact H|].
  eapply longer_trans; [|exact H]. exists [EvDelayMs (g_delay g)]. reflexivity.
Qed.
End Growth.

(** ** The machine follows the program *)
Section Machine.
Variable kbs : N -> option (list setup_cmd).
Context {H : Type} (M : machine H) (Good : H -> Prop).
Hypothesis call_good : forall e h, Good h -> Good (m_call M e h).
Hypothesis read_good : forall m row h, (row < 16)%N -> Good h -> Good (snd (m_read M m row h)).
Hypothesis read_value : forall m row h, (row < 16)%N -> Good h -> u8 (fst (m_read M m row h)) = u8 (m (N.to_nat row)).

Lemma g_events : forall g s, GRel g s -> events s = rev (g_log g).
Proof. intros g s [T _]. unfold events. rewrite (rt_log _ _ T). reflexivity. Qed.

Lemma perform_g : forall g g' s s' h, GRel g s -> GRel g' s' -> longer g g' -> Good h ->
  follows M Good s h s' (perform M s s' h).
Proof.
  intros g g' s s' h RG RG' [l E] G. exists (map Call (rev l)).
  assert (F : fresh s s' = rev l).
  { unfold fresh. rewrite (rt_log _ _ (proj1 RG)), (rt_log _ _ (proj1 RG')), E, app_length.
    replace (length l + length (g_log g) - length (g_log g)) with (length l + 0) by lia.
    rewrite firstn_app_2. cbn [firstn]. rewrite app_nil_r. reflexivity. }
  split; [unfold perform; rewrite F, deeds_calls; reflexivity|].
  split; [rewrite calls_of_map, (g_events _ _ RG), (g_events _ _ RG'), E, rev_app_distr; reflexivity|].
  unfold perform. rewrite F, <- deeds_calls. apply calls_good; auto.
Qed.

Lemma follows_refl : forall s h, Good h -> follows M Good s h s h.
Proof. intros s h G. exists []. split; [reflexivity|]. split; [rewrite app_nil_r; reflexivity|exact G]. Qed.
Lemma follows_good : forall s h s' h', follows M Good s h s' h' -> Good h'.
Proof. intros s h s' h' (l&_&_&G). exact G. Qed.

Notation fits x y s h := (matches M Good x y s h).

Lemma cs_rows_ok : forall fuel mm row g s h, GRel g s -> Good h ->
  fits (c_rows_loop kbs fuel (seen mm) row s) (cs_rows kbs M fuel mm row s h) s h.
Proof.
  induction fuel as [|fuel IH]; intros mm row g s h RG G; [reflexivity|].
  rewrite c_rows_step. cbn [cs_rows]. rewrite (proj2 (gnum _ _ (proj1 RG))). cbn [bind].
  destruct (row <? g_rows g) eqn:E; [|exists h; split; [reflexivity|apply follows_refl; auto]].
  apply Nat.ltb_lt in E. pose proof (g_small _ _ (proj1 RG)) as [_ NR].
  assert (L : (N.of_nat row < 16)%N) by lia.
  pose proof (read_value (mm row) (N.of_nat row) h L G) as V. rewrite Nat2N.id in V.
  pose proof (read_good (mm row) (N.of_nat row) h L G) as G1.
  pose proof (grow_sim kbs (seen mm) row g s RG ltac:(lia)) as X.
  assert (F : follows M Good s h s (snd (m_read M (mm row) (N.of_nat row) h))).
  { exists [Read (N.of_nat row) (mm row)]. split; [reflexivity|]. split; [cbn; rewrite app_nil_r; reflexivity|exact G1]. }
  destruct (m_read M (mm row) (N.of_nat row) h) as [v h1]. cbn [fst snd] in V, G1, F. cbv zeta. rewrite V.
  change (u8 (seen mm row)) with (u8 (mm row row)) in *.
  destruct (lget UScanOob (k_stable s) row) as [st|u] eqn:EL; cbn [bind] in *; [|reflexivity].
  destruct (gcols kbs 8 (seen mm) row 0 g) as [g1|u] eqn:EK; cbn [osim] in X; [|rewrite X; reflexivity].
  destruct X as [s1 [E1 R1]]. rewrite E1. cbn [bind].
  pose proof (perform_g g g1 s s1 h1 RG R1 (longer_cols _ _ _ _ _ _ _ EK) G1) as F1.
  pose proof (IH mm (S row) g1 s1 (perform M s s1 h1) R1 (follows_good _ _ _ _ F1)) as Y.
  unfold matches in *. destruct (c_rows_loop kbs fuel (seen mm) (S row) s1) as [s2|u]; [|exact Y].
  destruct Y as [h2 [Y1 Y2]]. exists h2. split; [exact Y1|].
  eapply follows_trans; [exact F|]. eapply follows_trans; [exact F1|exact Y2].
Qed.

Lemma cs_scan_ok : forall mm g s h, GRel g s -> Good h -> fits (c_keyscan kbs (seen mm) s) (cs_scan kbs M mm s h) s h.
Proof.
  intros mm g s h RG G. unfold c_keyscan, cs_scan.
  destruct (hook_get HOOK_ROW_SCANNER (k_hook s)) as [f|u]; cbn [bind]; [|reflexivity].
  destruct f; try reflexivity.
  pose proof (ghook_sim HOOK_EACH_SCAN g s RG ltac:(unfold HOOK_EACH_SCAN; lia)) as X.
  destruct (ghook HOOK_EACH_SCAN g) as [g1|u] eqn:EH; cbn [osim] in X; [|rewrite X; reflexivity].
  destruct X as [s1 [E1 R1]]. rewrite E1. cbn [bind].
  pose proof (perform_g g g1 s s1 h RG R1 (longer_hook _ _ _ EH) G) as F.
  pose proof (cs_rows_ok 256 mm 0 g1 s1 _ R1 (follows_good _ _ _ _ F)) as Y. unfold matches in *.
  destruct (c_rows_loop kbs 256 (seen mm) 0 s1) as [s2|u]; [|exact Y]. destruct Y as [h2 [Y1 Y2]].
  exists h2. split; [exact Y1|]. eapply follows_trans; eauto.
Qed.

Lemma cs_tick_ok : forall mm g s h, GRel g s -> Good h -> fits (c_tick kbs (seen mm) s) (cs_tick kbs M mm s h) s h.
Proof.
  intros mm g s h RG G. unfold c_tick, cs_tick. pose proof (gsend_sim kbs g s RG) as X.
  destruct (next_code s) as [[code s1]|u]; cbn [bind] in *; [|reflexivity].
  destruct (gsend g) as [g2|u] eqn:ES; cbn [osim] in X; [|rewrite X; reflexivity].
  destruct X as [s2 [E2 R2]]. rewrite E2. cbn [bind].
  pose proof (perform_g g g2 s s2 h RG R2 (longer_send _ _ ES) G) as F.
  pose proof (cs_scan_ok mm g2 s2 _ R2 (follows_good _ _ _ _ F)) as Y. unfold matches in *.
  destruct (c_keyscan kbs (seen mm) s2) as [s3|u]; [|exact Y]. destruct Y as [h2 [Y1 Y2]].
  exists h2. split; [exact Y1|]. eapply follows_trans; eauto.
Qed.

Lemma cs_ticks_ok : forall mms g s h, GRel g s -> Good h ->
  fits (c_ticks kbs (map seen mms) s) (cs_ticks kbs M mms s h) s h.
Proof.
  induction mms as [|mm mms IH]; intros g s h RG G; cbn [map c_ticks cs_ticks].
  - exists h. split; [reflexivity|apply follows_refl; auto].
  - pose proof (cs_tick_ok mm g s h RG G) as X. pose proof (gtick_sim kbs (seen mm) g s RG) as Y.
    destruct (c_tick kbs (seen mm) s) as [s1|u]; cbn [matches bind] in *; [|rewrite X; reflexivity].
    destruct X as [h1 [X1 X2]]. rewrite X1. cbn [bind].
    destruct (gtick kbs (seen mm) g) as [g1|u]; cbn [osim] in Y; [|discriminate Y]. destruct Y as [z [Y1 R1]].
    assert (z = s1) by congruence. subst z.
    pose proof (IH g1 s1 h1 R1 (follows_good _ _ _ _ X2)) as Z. unfold matches in *.
    destruct (c_ticks kbs (map seen mms) s1) as [s2|u]; [|exact Z]. destruct Z as [h2 [Z1 Z2]].
    exists h2. split; [exact Z1|]. eapply follows_trans; eauto.
Qed.

Lemma cs_run_ok : (forall h, Good (m_call M EvArchInit h)) -> kbs 0%N <> None -> forall mms h,
  match c_run kbs (map seen mms) with
  | Ok s => exists h' l, cs_run kbs M mms h = Ok (s, h') /\ h' = deeds M (Call EvArchInit :: l) h /\ events s = EvArchInit :: calls_of l
  | Bad u => cs_run kbs M mms h = Bad u
  end.
Proof.
  intros GI K0 mms h. destruct (kbs 0%N) as [cs|] eqn:EK; [|congruence]. unfold c_run, cs_run.
  destruct (gboot_sim kbs cs EK) as [s [E RG]]. rewrite E. cbn [bind]. clear E.
  assert (L : exists l, g_log (gboot kbs) = l ++ [EvArchInit]).
  { unfold gboot, gswitch. rewrite EK. exact (longer_setup cs (gclear 0 gzero)). }
  destruct L as [l0 L].
  assert (F : fresh kb_zero s = EvArchInit :: rev l0).
  { unfold fresh. rewrite (rt_log _ _ (proj1 RG)), L. change (length (log (k_dev kb_zero))) with 0.
    rewrite Nat.sub_0_r, firstn_all, rev_app_distr. reflexivity. }
  assert (P : perform M kb_zero s h = deeds M (Call EvArchInit :: map Call (rev l0)) h)
    by (unfold perform; rewrite F; cbn [fold_left]; rewrite <- (deeds_calls M); reflexivity).
  assert (G : Good (perform M kb_zero s h)) by (rewrite P; apply (calls_good M Good call_good (rev l0)); apply GI).
  pose proof (cs_ticks_ok mms (gboot kbs) s _ RG G) as X. unfold matches in X.
  destruct (c_ticks kbs (map seen mms) s) as [s1|u]; [|exact X]. destruct X as [h' [X1 (l&X2&X3&_)]].
  exists h', (map Call (rev l0) ++ l). split; [exact X1|]. split.
  - rewrite X2, P. change (Call EvArchInit :: map Call (rev l0) ++ l) with ((Call EvArchInit :: map Call (rev l0)) ++ l).
    rewrite deeds_app. reflexivity.
  - rewrite X3, (g_events _ _ RG), L, rev_app_distr, calls_of_app, calls_of_map. reflexivity.
Qed.
End Machine.

(** ** C106 *)
Theorem C106_whole_board : forall kbs mms h, kbs 0%N <> None ->
  (forall rmw ser x,
     match c_run kbs (map seen mms) with
     | Ok s => exists h' l, cs_run kbs (board_328p rmw ser x) mms h = Ok (s, h') /\
         h' = Arch328p.steps (PropArch328.mk rmw ser x) (Arch328p.OCall EvArchInit :: l) h /\ events s = EvArchInit :: PropHost328.calls l
     | Bad u => cs_run kbs (board_328p rmw ser x) mms h = Bad u
     end) /\
  (forall rmw x,
     match c_run kbs (map seen mms) with
     | Ok s => exists h' l, cs_run kbs (board_2560 rmw x) mms h = Ok (s, h') /\
         h' = Arch2560.steps (PropArch2560.mk rmw x) (Arch2560.OCall EvArchInit :: l) h /\ events s = EvArchInit :: PropHost2560.calls l
     | Bad u => cs_run kbs (board_2560 rmw x) mms h = Bad u
     end).
Proof.
  intros kbs mms h K0. split.
  - intros rmw ser x.
    pose proof (cs_run_ok kbs (board_328p rmw ser x) (fun h => PropArch328.Cfg (Avr.io h))
      (fun e h C => PropArch328.cfg_call _ e h C)
      (fun m row h _ C => proj1 (proj2 (proj2 (PropArch328.read_row_ok rmw m ser x row h C _ eq_refl))))
      (value_328p rmw ser x) (fun h => PropArch328.cfg_init _ h) K0 mms h) as X.
    destruct (c_run kbs (map seen mms)) as [s|u]; [|exact X]. destruct X as (h'&l&X1&X2&X3).
    exists h', (map op328 l). split; [exact X1|]. split; [rewrite X2; apply deeds_328p|]. rewrite calls_328p. exact X3.
  - intros rmw x.
    pose proof (cs_run_ok kbs (board_2560 rmw x) (fun h => PropArch2560.Cfg (Avr.io h))
      (fun e h C => PropArch2560.cfg_call _ e h C)
      (fun m row h HR C => proj1 (proj2 (proj2 (PropArch2560.read_row_ok rmw m x row h HR C _ eq_refl))))
      (value_2560 rmw x) (fun h => PropArch2560.cfg_init _ h) K0 mms h) as X.
    destruct (c_run kbs (map seen mms)) as [s|u]; [|exact X]. destruct X as (h'&l&X1&X2&X3).
    exists h', (map op2560 l). split; [exact X1|]. split; [rewrite X2; apply deeds_2560|]. rewrite calls_2560. exact X3.
Qed.
Print Assumptions C106_whole_board.

(** ** What is on the wires to the host, exactly *)

(** The calls that drive strobe and data lines. *)
Definition wired (e : event) : bool :=
  match e with EvArchInit | EvStrobePos | EvStrobeNeg | EvSend _ => true | _ => false end.
Definition wire (l : list event) : list event := filter wired l.

(** Setting up a keyboard resets the lines; its setup function may then ask for
    negative strobes. *)
Definition set_up (cs : list setup_cmd) : list event :=
  EvArchInit :: flat_map (fun c => match c with SNegStrobe => [EvStrobeNeg] | _ => [] end) cs.
Definition chosen (kbs : N -> option (list setup_cmd)) (i : N) (e : setting) : list event :=
  if (i =? e_kb e)%N then [] else match kbs i with Some cs => set_up cs | None => [] end.

(** What a move puts on the wires, and what leaves at the start of a scan. *)
Definition wires (kbs : N -> option (list setup_cmd)) (e : setting) (v : nat * nat * move) : list event :=
  let '(r, c, m) := v in
  match m, decode (code_in kbs e r c) with
  | Press, AStrobe => [EvStrobePos]
  | Release, AStrobe => [EvStrobeNeg]
  | Press, AMapsel n => chosen kbs (u8 (N.setbit (e_kb e) n)) e
  | Release, AMapsel n => chosen kbs (u8 (N.clearbit (e_kb e) n)) e
  | _, _ => []
  end.
Definition leaves (t : typist) : list event :=
  let m := hd 0xA0%N (t_msgs t) in
  let x := if (m =? 0xA0)%N then hd 0xA0%N (t_keys t) else m in
  if (x <? 0xA0)%N then [EvSend x] else [].

Fixpoint wire_moves (kbs : N -> option (list setup_cmd)) (l : list (nat * nat * move)) (t : typist) : list event :=
  match l with
  | [] => []
  | v :: l => wires kbs (t_set t) v ++ wire_moves kbs l (moved kbs t v)
  end.
Fixpoint wire_scans (kbs : N -> option (list setup_cmd)) (R C : nat) (pre rds : list (nat -> N)) (t : typist) : list event :=
  match rds with
  | [] => []
  | rd :: l =>
      let t1 := scan_starts kbs t in
      let ms := scan_moves R C pre rd in
      leaves t ++ wire_moves kbs ms t1 ++ wire_scans kbs R C (pre ++ [rd]) l (fold_left (moved kbs) ms t1)
  end.
Definition wire_of (kbs : N -> option (list setup_cmd)) (R C : nat) (rds : list (nat -> N)) : list event :=
  match kbs 0%N with Some cs => set_up cs | None => [] end ++ wire_scans kbs R C [] rds (starts kbs).

Definition gwire (g : gkb) : list event := wire (rev (g_log g)).
Lemma wire_app : forall a b, wire (a ++ b) = wire a ++ wire b.
Proof. intros. apply filter_app. Qed.
Lemma gwire_note : forall e g, gwire (gnote e g) = gwire g ++ wire [e].
Proof. intros. unfold gwire. cbn [gnote gp_log g_log rev]. apply wire_app. Qed.
Lemma wire_outev : forall l, Forall Frames.outev l -> wire l = [].
Proof. induction 1 as [|e l H _ IH]; [reflexivity|]. destruct e; cbn in *; auto; contradiction. Qed.
Lemma gwire_act : forall f v g, gwire (gact f v g) = gwire g.
Proof.
  intros f v g. unfold gact, gwire. pose proof (Frames.action_outev f (own (g_vs g) v) (lev (g_vs g))) as X.
  destruct (spec_action _ _ _) as [lv ev]. cbn [snd] in X. cbn [gp_log gp_vs g_log].
  rewrite rev_app_distr, rev_involutive, wire_app, (wire_outev ev X). apply app_nil_r.
Qed.
Lemma gwire_shift : forall x g, gwire (gset_shift x g) = gwire g.
Proof. intros. unfold gset_shift. cbv zeta. apply gwire_act. Qed.
Lemma gwire_caps : forall g, gwire (gtoggle_caps g) = gwire g.
Proof. intros. unfold gtoggle_caps. cbv zeta. apply gwire_act. Qed.
Lemma gwire_setup : forall cs g, gwire (gsetup cs g) = gwire g ++ tl (set_up cs).
Proof.
  induction cs as [|c cs IH]; intros g; [symmetry; apply app_nil_r|].
  change (gsetup (c :: cs) g) with (gsetup cs (gsetup_step c g)). rewrite IH. cbn [set_up tl flat_map].
  destruct c; cbn [gsetup_step app]; auto.
  - destruct ((mi <? 4) && (rows <=? 16) && (cols <=? 8)); auto.
  - destruct ((0 <? id) && (id <? 16)); auto.
  - rewrite gwire_caps. auto.
  - rewrite gwire_note, <- app_assoc. reflexivity.
Qed.
Lemma gwire_select : forall kbs i e g, g_cur g = e_kb e -> gwire (gselect kbs i g) = gwire g ++ chosen kbs i e.
Proof.
  intros kbs i e g H. unfold gselect, chosen. rewrite H. destruct (i =? e_kb e)%N; [symmetry; apply app_nil_r|].
  unfold gswitch. destruct (kbs i) as [cs|]; [|symmetry; apply app_nil_r]. rewrite gwire_setup. unfold gclear.
  rewrite gwire_note, <- app_assoc. reflexivity.
Qed.
Lemma gwire_hook : forall id g g', ghook id g = Ok g' -> gwire g' = gwire g.
Proof.
  intros id g g' H. unfold ghook in H.
  destruct (nth id (g_hook g) HUnset) as [| | | | |m]; try destruct (format m); inv H; reflexivity.
Qed.
Lemma low_nothing : forall x, (x <= 0xA0)%N -> decode x = ANothing \/ decode x = AOther.
Proof.
  intros x H. unfold decode.
  repeat match goal with |- (if ?b then _ else _) = _ \/ _ => destruct b eqn:?; try lia; auto end.
Qed.

Section Wire.
Variable kbs : N -> option (list setup_cmd).
Variable R C : nat.
Hypothesis sound : sound_firmware R kbs.
Hypothesis size : same_size R C kbs.

Definition wsim (p : typist * list event) (g : gkb) : Prop := sim (fst p) g /\ gwire g = snd p.
Definition wmove (p : typist * list event) (v : nat * nat * move) : typist * list event :=
  (moved kbs (fst p) v, snd p ++ wires kbs (t_set (fst p)) v).
Definition wstart (p : typist * list event) : typist * list event := (scan_starts kbs (fst p), snd p ++ leaves (fst p)).

Lemma wsim_start : forall p g g1 g2, Tab kbs g -> Tab kbs g1 -> wsim p g -> gsend g = Ok g1 -> ghook HOOK_EACH_SCAN g1 = Ok g2 ->
  wsim (wstart p) g2.
Proof.
  intros [t w] g g1 g2 T T1 [S W] E1 E2. split; [exact (sim_start kbs R C sound t g g1 g2 T T1 S E1 E2)|].
  cbn [wstart fst snd] in *. rewrite (gwire_hook _ _ _ E2), <- W. clear E2.
  destruct S as [_ S]. apply core_is in S. destruct S as (_&_&Q3&Q4&_).
  unfold gsend in E1. cbv zeta in E1. rewrite Q3, Q4 in E1. unfold leaves. cbv zeta.
  assert (EM : forall x h h', gemit x h = Ok h' -> gwire h' = gwire h ++ (if (x <? 0xA0)%N then [EvSend x] else [])).
  { intros x h h' HE. unfold gemit in HE. destruct (x <? 0xA0)%N; [|inv HE; rewrite app_nil_r; auto].
    destruct (nth HOOK_OUTPUT (g_hook h) HUnset); inv HE. rewrite gwire_note. reflexivity. }
  destruct (hd 0xA0%N (t_msgs t) =? 0xA0)%N; apply EM in E1; rewrite E1; [reflexivity|].
  rewrite gwire_note. cbn [wire filter wired]. rewrite app_nil_r. reflexivity.
Qed.

Lemma wsim_press : forall r c p g g' x, Tab kbs g -> low g -> r < R -> c < C -> gcode r c g = Ok x ->
  wsim p g -> gpress kbs x g = Ok g' -> wsim (wmove p (r, c, Press)) g'.
Proof.
  intros r c [t w] g g' x T L Hr Hc EX [S W] H. split; [exact (sim_press kbs R C sound size r c t g g' x T L Hr Hc EX S H)|].
  cbn [wmove fst snd] in *. rewrite <- W. destruct S as [S1 _]. pose proof S1 as [S0 _].
  pose proof (set_code kbs R C sound size _ g r c T S1 Hr Hc) as EX2. rewrite EX in EX2. inv EX2.
  unfold wires. set (x := code_in kbs (t_set t) r c) in *. unfold gpress in H.
  destruct (N.ltb_spec 0xA0 x).
  - unfold gaction_on in H.
    destruct (decode x); rewrite ?app_nil_r;
      try (match type of H with ghook _ _ = _ => exact (gwire_hook _ _ _ H) end; fail);
      try (inv H; auto using gwire_shift, gwire_caps, gwire_act; fail).
    + inv H. rewrite S0. apply gwire_select. exact S0.
    + inv H. rewrite gwire_note. reflexivity.
    + destruct (n <=? 10); [exact (gwire_hook _ _ _ H)|inv H; auto].
  - destruct (low_nothing x ltac:(lia)) as [-> | ->]; rewrite app_nil_r; inv H; destruct (g_last g =? x)%N; reflexivity.
Qed.

Lemma wsim_release : forall r c p g x, Tab kbs g -> low g -> r < R -> c < C -> gcode r c g = Ok x ->
  wsim p g -> wsim (wmove p (r, c, Release)) (grelease kbs x g).
Proof.
  intros r c [t w] g x T L Hr Hc EX [S W]. split; [exact (sim_release kbs R C sound size r c t g x T L Hr Hc EX S)|].
  cbn [wmove fst snd] in *. rewrite <- W. destruct S as [S1 _]. pose proof S1 as [S0 _].
  pose proof (set_code kbs R C sound size _ g r c T S1 Hr Hc) as EX2. rewrite EX in EX2. inv EX2.
  unfold wires. set (x := code_in kbs (t_set t) r c) in *. unfold grelease.
  destruct (N.ltb_spec 0xA0 x).
  - unfold gaction_off.
    destruct (decode x); rewrite ?app_nil_r; auto using gwire_shift.
    + rewrite S0. apply gwire_select. exact S0.
    + rewrite gwire_note. reflexivity.
  - destruct (low_nothing x ltac:(lia)) as [-> | ->]; rewrite app_nil_r; destruct (g_last g =? x)%N; reflexivity.
Qed.

Lemma wsim_held : forall r c p g g' x, Tab kbs g -> low g -> r < R -> c < C -> gcode r c g = Ok x ->
  wsim p g -> gheld kbs x g = Ok g' -> wsim (wmove p (r, c, Held)) g'.
Proof.
  intros r c [t w] g g' x T L Hr Hc EX [S W] H. split; [exact (sim_held kbs R C sound size r c t g g' x T L Hr Hc EX S H)|].
  cbn [wmove fst snd] in *. rewrite <- W. cbn [wires].
  replace (match decode (code_in kbs (t_set t) r c) with AStrobe => [] | AMapsel _ => [] | _ => [] end) with (@nil event)
    by (destruct (decode (code_in kbs (t_set t) r c)); reflexivity).
  rewrite app_nil_r. unfold gheld in H. unfold low in L. destruct (N.eqb_spec x (g_last g)); [|inv H; reflexivity].
  destruct (repeat_tick (g_rep g)) as [[] q]; [|inv H; reflexivity].
  unfold gpress in H. replace (0xA0 <? x)%N with false in H by lia.
  inv H. cbn [gp_rep gp_qk g_last]. destruct (g_last g =? g_last g)%N; reflexivity.
Qed.

Lemma wmoves_fold : forall l t w, fold_left wmove l (t, w) = (fold_left (moved kbs) l t, w ++ wire_moves kbs l t).
Proof.
  induction l as [|v l IH]; intros t w; cbn [fold_left wire_moves]; [rewrite app_nil_r; reflexivity|].
  unfold wmove at 2. cbn [fst snd]. rewrite IH, app_assoc. reflexivity.
Qed.
Lemma wreplay : forall rds pre t w, replay R C _ wmove wstart pre rds (t, w) =
  (scans kbs R C pre rds t, w ++ wire_scans kbs R C pre rds t).
Proof.
  induction rds as [|rd rds IH]; intros pre t w; cbn [replay scans wire_scans]; [rewrite app_nil_r; reflexivity|].
  unfold wstart at 2. cbn [fst snd]. rewrite wmoves_fold, IH. cbv zeta. rewrite !app_assoc. reflexivity.
Qed.

Lemma wire_run : forall rds s, c_run kbs rds = Ok s -> wire (events s) = wire_of kbs R C rds.
Proof.
  intros rds s ES. destruct (run_ok_g R kbs sound rds) as (g&s'&E1&T1&E2&RL). rewrite ES in E2. inv E2.
  destruct (proj1 sound) as [cs EK].
  destruct (ticks_exact kbs R C sound size _ wmove wstart wsim (fun _ _ _ _ H => H) wsim_start wsim_press wsim_release wsim_held
              rds [] (starts kbs, set_up cs) (gboot kbs) (tab_boot R kbs sound) (boot_low kbs)) as [g' (E3&[_ Y])].
  { split; [exact (sim_boot kbs R sound)|]. unfold gboot, gswitch. rewrite EK. rewrite gwire_setup. reflexivity. }
  { intros r c _ _. apply boot_dbp. }
  change (gticks kbs rds (gboot kbs)) with (grun kbs rds) in E3. rewrite E1 in E3. inv E3.
  rewrite wreplay in Y. cbn [snd] in Y. unfold wire_of. rewrite EK, <- Y.
  rewrite (g_events _ _ RL). reflexivity.
Qed.
End Wire.

Lemma hear_wire : forall rise l idle d, hear rise idle d (wire l) = hear rise idle d l.
Proof.
  intros rise. induction l as [|e l IH]; intros idle d; [reflexivity|].
  destruct e; cbn [wire filter wired hear]; rewrite ?IH; try reflexivity; apply IH.
Qed.

(** What a host at the connector of either board has latched. *)
Definition latches_328p (kbs : N -> option (list setup_cmd)) (rise ser : bool) (x : Avr.port -> N) (mms : list (nat -> nat -> N)) (h : Avr.hw) : outcome (list (list Avr.drv)) :=
  bind (cs_run kbs (board_328p false ser x) mms h) (fun p => Ok (latched rise Avr.PB 6 Avr.PD (Avr.hist (snd p)))).
Definition latches_2560 (kbs : N -> option (list setup_cmd)) (rise : bool) (x : Avr.port -> N) (mms : list (nat -> nat -> N)) (h : Avr.hw) : outcome (list (list Avr.drv)) :=
  bind (cs_run kbs (board_2560 false x) mms h) (fun p => Ok (latched rise Avr.PB 4 Avr.PH (Avr.hist (snd p)))).

(** ** C107 *)
Theorem C107_latched : forall R C kbs mms h, sound_firmware R kbs -> same_size R C kbs -> Avr.at_reset h ->
  let heard rise := map lines_of (hear rise Avr.Low 0 (tl (wire_of kbs R C (map seen mms)))) in
  (forall rise ser x, latches_328p kbs rise ser x mms h = Ok (heard rise)) /\
  (forall rise x, latches_2560 kbs rise x mms h = Ok (heard rise)).
Proof.
  intros R C kbs mms h HS HZ HR heard. destruct (run_ok_g R kbs HS (map seen mms)) as (g&s&E1&T1&E2&RL).
  pose proof (wire_run kbs R C HS HZ _ _ E2) as W. assert (K0 : kbs 0%N <> None) by (destruct (proj1 HS); congruence).
  destruct (C106_whole_board kbs mms h K0) as [A B]. split.
  - intros rise ser x. specialize (A false ser x). rewrite E2 in A. destruct A as (h'&l&X1&X2&X3).
    unfold latches_328p. rewrite X1. cbn [bind snd]. rewrite X2, PropHost328.C56_latch_328p by exact HR.
    unfold heard. rewrite <- W, X3. cbn [wire filter wired tl]. fold (wire (PropHost328.calls l)). rewrite hear_wire. reflexivity.
  - intros rise x. specialize (B false x). rewrite E2 in B. destruct B as (h'&l&X1&X2&X3).
    unfold latches_2560. rewrite X1. cbn [bind snd]. rewrite X2, PropHost2560.C56_latch_2560 by exact HR.
    unfold heard. rewrite <- W, X3. cbn [wire filter wired tl]. fold (wire (PropHost2560.calls l)). rewrite hear_wire. reflexivity.
Qed.
Print Assumptions C107_latched.

(** With the strobe kept positive the host has latched exactly the characters
    that C104 computes. *)
Lemma sends_moves : forall kbs l t, sends (wire_moves kbs l t) = [].
Proof.
  assert (X : forall kbs i e, sends (chosen kbs i e) = []).
  { intros kbs i e. unfold chosen. destruct (i =? e_kb e)%N; [reflexivity|]. destruct (kbs i) as [cs|]; [|reflexivity].
    unfold set_up. cbn [sends flat_map app]. induction cs as [|[]]; auto. }
  intros kbs. induction l as [|[[r c] m] l IH]; intros t; cbn [wire_moves]; [reflexivity|]. rewrite sends_app, IH, app_nil_r.
  unfold wires. destruct m, (decode (code_in kbs (t_set t) r c)); auto.
Qed.
Lemma out_moves : forall kbs l t, t_out (fold_left (moved kbs) l t) = t_out t.
Proof.
  assert (P : forall kbs id t, t_out (prints kbs id t) = t_out t) by (intros; unfold prints; destruct (kbs _); reflexivity).
  assert (Y : forall x t, t_out (types x t) = t_out t) by (intros; unfold types; cbv zeta; destruct (_ =? _)%N; reflexivity).
  intros kbs. induction l as [|[[r c] m] l IH]; intros t; cbn [fold_left]; [reflexivity|]. rewrite IH. unfold moved.
  set (x := code_in kbs (t_set t) r c). destruct m.
  - unfold on_press. destruct (x <=? 0xA0)%N; [apply Y|]. destruct (decode x); auto.
    + destruct (_ || _); reflexivity.
    + destruct (n <=? 10); auto.
  - unfold on_release. destruct (x <=? 0xA0)%N; [destruct (_ =? _)%N; reflexivity|]. destruct (decode x); auto.
  - unfold on_held. destruct (_ && _); [|reflexivity]. destruct (_ =? _)%N; [rewrite Y|]; reflexivity.
Qed.
Lemma out_start : forall kbs t, t_out (scan_starts kbs t) = t_out t ++ sends (leaves t).
Proof.
  intros kbs t. unfold scan_starts, prints, sends_one, leaves. cbv zeta.
  destruct (hd 0xA0%N (t_msgs t) =? 0xA0)%N; destruct (kbs _); cbn [t_out]; destruct (_ <? _)%N; reflexivity.
Qed.
Lemma sends_scans : forall kbs R C rds pre t, t_out (scans kbs R C pre rds t) = t_out t ++ sends (wire_scans kbs R C pre rds t).
Proof.
  intros kbs R C. induction rds as [|rd rds IH]; intros pre t; cbn [scans wire_scans]; [rewrite app_nil_r; reflexivity|].
  cbv zeta. rewrite IH, out_moves, out_start, !sends_app, sends_moves, <- app_assoc. reflexivity.
Qed.
Lemma sends_wire : forall kbs R C rds, sends (wire_of kbs R C rds) = output_of kbs R C rds.
Proof.
  intros kbs R C rds. unfold wire_of, output_of. rewrite sends_app, sends_scans. cbn [starts t_out app].
  replace (sends (match kbs 0%N with Some cs => set_up cs | None => [] end)) with (@nil N); [reflexivity|].
  destruct (kbs 0%N) as [cs|]; [|reflexivity]. unfold set_up. cbn [sends flat_map app]. induction cs as [|[]]; auto.
Qed.

Theorem C107_strobe_kept : forall R C kbs mms h, sound_firmware R kbs -> same_size R C kbs -> Avr.at_reset h ->
  ~ In EvStrobeNeg (wire_of kbs R C (map seen mms)) ->
  (forall rise ser x, latches_328p kbs rise ser x mms h = Ok (map lines_of (output_of kbs R C (map seen mms)))) /\
  (forall rise x, latches_2560 kbs rise x mms h = Ok (map lines_of (output_of kbs R C (map seen mms)))).
Proof.
  intros R C kbs mms h HS HZ HR HN. destruct (C107_latched R C kbs mms h HS HZ HR) as [A B].
  assert (X : exists l, wire_of kbs R C (map seen mms) = EvArchInit :: l).
  { unfold wire_of. destruct (proj1 HS) as [cs ->]. eexists. reflexivity. }
  destruct X as [l X]. pose proof (sends_wire kbs R C (map seen mms)) as Y. rewrite X in *. cbn [tl] in *.
  change (sends (EvArchInit :: l)) with (sends l) in Y. rewrite <- Y.
  assert (HL : ~ In EvStrobeNeg l) by (intros H; apply HN; right; exact H).
  split; [intros rise ser x; rewrite A|intros rise x; rewrite B]; rewrite hear_sends by exact HL; reflexivity.
Qed.
Print Assumptions C107_strobe_kept.

(** The keyboard of C104 and its typing; and a keyboard whose second half asks
    for negative strobes, with a polarity switch. *)
Definition flip (i : N) : option (list setup_cmd) :=
  if (i =? 0)%N then
    Some (SAddMap [97; 0xAD; 0xA8]%N 0 1 3 :: SAddMap [97; 0xAD; 0xA8]%N 1 1 3 :: SAddMap [97; 0xAD; 0xA8]%N 2 1 3 ::
          [SAddMap [97; 0xAD; 0xA8]%N 3 1 3])
  else if (i =? 1)%N then
    Some (SAddMap [98; 0xAD; 0xA8]%N 0 1 3 :: SAddMap [98; 0xAD; 0xA8]%N 1 1 3 :: SAddMap [98; 0xAD; 0xA8]%N 2 1 3 ::
          [SAddMap [98; 0xAD; 0xA8]%N 3 1 3; SNegStrobe])
  else None.
Lemma flip_sound : sound_firmware 1 flip /\ same_size 1 3 flip.
Proof.
  split; [split|].
  - eexists. reflexivity.
  - intros i cs E1. unfold flip in E1. destruct (N.eqb_spec i 0); [|destruct (N.eqb_spec i 1)]; inv E1;
      (split; [lia|]; apply (sound_b_ok 1 1 3); vm_compute; reflexivity).
  - intros i cs mi E1 Hm. unfold flip in E1. destruct (i =? 0)%N; [|destruct (i =? 1)%N]; inv E1;
      (do 4 (destruct mi as [|mi]; [eexists; vm_compute; reflexivity|]); lia).
Qed.
(** Type "a", select the other keyboard, type "b", close and open the polarity
    switch, go back. *)
Definition flipping : list (nat -> N) :=
  hold 12 [(0, 0)] ++ hold 12 [] ++ hold 12 [(0, 2)] ++ hold 12 [(0, 2); (0, 0)] ++ hold 12 [(0, 2)] ++
  hold 12 [(0, 2); (0, 1)] ++ hold 12 [(0, 2)] ++ hold 12 [].
Example C107_example :
  wire_of flip 1 3 flipping = [EvArchInit; EvSend 97; EvArchInit; EvStrobeNeg; EvSend 98; EvStrobePos; EvStrobeNeg; EvArchInit] /\
  latches_328p flip true true (fun _ => 0x5a%N) (map steady flipping) PropArch328.hw0 = Ok (map lines_of [97; 0; 98; 98]%N) /\
  latches_2560 flip false (fun _ => 0x5a%N) (map steady flipping) PropArch2560.hw0 = Ok (map lines_of [97; 98; 98; 0]%N) /\
  map (fun e => match e with EvStrobeNeg => true | _ => false end) (wire_of desk 1 8 busy) = repeat false 10 /\
  latches_328p desk true true (fun _ => 0x5a%N) (map steady busy) PropArch328.hw0 = Ok (map lines_of [97; 97; 66; 72; 13; 10; 49]%N).
Proof. vm_compute. auto. Qed.

(** A key closing while its row has already been read, on the keyboard of C104;
    and a firmware whose only table is shorter than it says: the boards fail
    where the program does. *)
Definition broken (i : N) : option (list setup_cmd) :=
  if (i =? 0)%N then Some [SAddMap [97]%N 0 1 3] else None.
Example C106_example :
  let late : nat -> nat -> N := fun row => if row <? 1 then matrix [] else matrix [(0, 0)] in
  let n_ticks n := late :: map steady (hold n [(0, 0)]) in
  map (fun mms => obs sent (bind (cs_run desk (board_2560 true (fun _ => 0%N)) mms PropArch2560.hw0) (fun p => Ok (fst p))))
    [n_ticks 10; n_ticks 11] = [Some []; Some [97%N]] /\
  (exists u, c_run broken (map seen (map steady (hold 11 [(0, 2)]))) = Bad u /\
     cs_run broken (board_328p true false (fun _ => 0%N)) (map steady (hold 11 [(0, 2)])) PropArch328.hw0 = Bad u).
Proof. split; [vm_compute; reflexivity|]. eexists. vm_compute. split; reflexivity. Qed.
