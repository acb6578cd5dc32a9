(** Properties of the firmware used as a library by any client: what the client
    sees (C118), freedom from undefined behaviour (C119), and calls that only
    ask (C120). *)
From Coq Require Import List NArith ZArith Arith Bool Lia.
From Coq Require Import ZifyBool ZifyNat ZifyN.
From Verif Require Import Base Lib Buffer BufferSpec BufferProofs Repeat Devices DevSpec DevProofs
     Modifiers Hook KeymapData Asdf KeySpec KeyRef Obs Custom CustomSpec CustomRef PropCustom Client ClientRef.
Import ListNotations.
Local Open Scope outcome_scope.

(** ** C118: specification *)

(** All that can be seen of a client's session: the values returned and the
    calls made to the hardware, or the kind of undefined behaviour. *)
Definition seen (x : outcome (list ret * kb)) : outcome (list ret * list event) :=
  '(rs, s) <- x ;; Ok (rs, rev (log (k_dev s))).
Definition gseen (x : outcome (list ret * gkb)) : outcome (list ret * list event) :=
  '(rs, g) <- x ;; Ok (rs, rev (g_log g)).

(** ** C119: specification *)

(** Every keyboard has at least [C0] columns. *)
Definition wide (C0 : nat) (kbs : N -> option (list setup_cmd)) : Prop :=
  forall i cs, kbs i = Some cs -> exists m R C, table_of cs 0 = Some (m, R, C) /\ C0 <= C.

(** Arguments that respect the firmware's tables: of twelve virtual outputs,
    thirteen lines, four tables, [R0] rows and [C0] columns.  A registered table
    is as long as its size says and of the size all keyboards have; a registered
    function has the type its hook wants; a printed text shows as something; the
    hooks run by hand are not the three of the scanner; room asked for is
    positive. *)
Definition tame (R0 C0 : nat) (kbs : N -> option (list setup_cmd)) (k : call) : Prop :=
  match k with
  | KAddMap m mi r c =>
      mi < 4 -> r <= 16 -> c <= 8 ->
      (exists t, m = Some t /\ r * c <= length t /\
         forall i j, R0 <= i < r -> j < c -> ~ selects (nth (i * c + j) t 0%N)) /\
      forall i cs, kbs i = Some cs -> exists u, table_of cs 0 = Some (u, r, c)
  | KGetCode r c mi => r < R0 /\ c < C0 /\ mi < 4
  | KBufNew n => (0 < n)%Z
  | KAction v _ | KActivate v => v < 12
  | KSet p _ | KOn p | KOff p | KAssert p | KToggle p => p < 13
  | KHook _ id => id = 0 \/ 4 <= id
  | KHookAssign id f => sound_hook id f
  | KPrint m => exists l, shows m l
  | _ => True
  end.

(** ** C118: proof *)
Theorem C118_client_refines : forall kbs cs ks, kbs 0%N = Some cs -> Forall proper ks ->
  seen (client kbs ks) = gseen (gclient kbs ks).
Proof.
  intros kbs cs ks HK HP. pose proof (client_sim kbs cs ks HK HP) as X.
  destruct (gclient kbs ks) as [[rs g]|u]; cbn [osim] in X.
  - destruct X as [[rs' s] [E [X1 X2]]]. cbn [fst snd] in *. subst rs'. rewrite E. cbn.
    rewrite (rt_log _ _ (proj1 X2)). reflexivity.
  - rewrite X. reflexivity.
Qed.
Print Assumptions C118_client_refines.

(** ** C119: proof *)
Section Tame.
Variables (R0 C0 : nat).
Variable kbs : N -> option (list setup_cmd).

Definition stays (g g' : gkb) : Prop := g_maps g' = g_maps g /\ g_hook g' = g_hook g /\ g_cur g' = g_cur g.
Definition turns (x : N) (g g' : gkb) : Prop :=
  stays g g' \/ (selects x /\ exists i g0, stays g g0 /\ g' = gselect kbs i g0).

Lemma turn_hook : forall id x g g', ghook id g = Ok g' -> turns x g g'.
Proof. intros id x g g' H. left. exact (ghook_tabs _ _ _ H). Qed.

Lemma on_turns : forall x g g', gaction_on kbs x g = Ok g' -> turns x g g'.
Proof.
  intros x g g' H. unfold gaction_on in H. destruct (decode x) eqn:D;
    try (eapply turn_hook; eassumption);
    try (inv H; left; first [ repeat split; fail | apply gshift_tabs | apply gcaps_tabs | apply gact_tabs ]; fail).
  - inv H. right. split; [eapply decode_selects; eauto|]. exists (u8 (N.setbit (g_cur g) n)), g. repeat split.
  - destruct (n <=? 10); [eapply turn_hook; eassumption|inv H; left; repeat split].
Qed.
Lemma off_turns : forall x g, turns x g (gaction_off kbs x g).
Proof.
  intros x g. unfold gaction_off. destruct (decode x) eqn:D;
    try (left; first [ repeat split; fail | apply gshift_tabs ]; fail).
  right. split; [eapply decode_selects; eauto|]. exists (u8 (N.clearbit (g_cur g) n)), g. repeat split.
Qed.
Lemma press_turns : forall x g g', gpress kbs x g = Ok g' -> turns x g g'.
Proof.
  intros x g g' H. unfold gpress in H. destruct (0xA0 <? x)%N; [apply on_turns; auto|].
  destruct (g_last g =? x)%N; inv H; left; repeat split.
Qed.
Lemma release_turns : forall x g, turns x g (grelease kbs x g).
Proof.
  intros x g. unfold grelease. destruct (0xA0 <? x)%N; [apply off_turns|].
  destruct (g_last g =? x)%N; left; repeat split.
Qed.
Lemma turns_pre : forall x g g1 g', stays g g1 -> turns x g1 g' -> turns x g g'.
Proof.
  intros x g g1 g' (A&B&C) [(D&E&F)|[S [i [g0 [(D&E&F) G]]]]].
  - left. repeat split; congruence.
  - right. split; auto. exists i, g0. repeat split; congruence.
Qed.
Lemma held_turns : forall x g g', gheld kbs x g = Ok g' -> turns x g g'.
Proof.
  intros x g g' H. unfold gheld in H. destruct (x =? g_last g)%N; [|inv H; left; repeat split].
  destruct (repeat_tick (g_rep g)) as [[] q]; [|inv H; left; repeat split].
  apply (turns_pre x g (gp_rep q g)); [repeat split|]. apply press_turns; auto.
Qed.

(** Four tables of the size of the selected keyboard's, and fitting hooks. *)
Definition fits (R C : nat) (g : gkb) : Prop :=
  forall mi, mi < 4 -> exists m, nth_error (g_maps g) mi = Some (mkKmap (Some m) R C) /\ R * C <= length m /\
    forall r c, R0 <= r < R -> c < C -> ~ selects (nth (r * C + c) m 0%N).
Definition hooked (h : hooks) : Prop :=
  length h = 16 /\ forall id, 2 <= id < 16 -> sound_hook id (nth id h HUnset).
Definition Inv (g : gkb) : Prop :=
  (exists cs m R C, kbs (g_cur g) = Some cs /\ table_of cs 0 = Some (m, R, C) /\ R0 <= R /\ fits R C g) /\
  hooked (g_hook g).

Lemma Inv_eq : forall g g', Inv g -> stays g g' -> Inv g'.
Proof.
  intros g g' [(cs&m&R&C&A&B&D&E) HH] (M1&M2&M3). split; [|rewrite M2; auto].
  exists cs, m, R, C. rewrite M3. split; auto. split; auto. split; auto. unfold fits. rewrite M1. exact E.
Qed.

Hypothesis sound : sound_firmware R0 kbs.

Lemma Inv_switch : forall i g cs, kbs i = Some cs -> Inv (gswitch kbs i g).
Proof.
  intros i g cs E. destruct (gswitch_tabs kbs i g cs E) as (A&B&C).
  destruct (proj2 sound _ _ E) as [_ [[R [K [HR HM]]] HK]]. split.
  - destruct (HM 0 ltac:(lia)) as [m0 (E0&_)]. exists cs, m0, R, K. rewrite C. split; auto. split; auto. split; auto.
    intros mi Hm. destruct (HM mi Hm) as [m (E1&L&NS)]. exists m. rewrite A, (proj1 (tm_table cs mi Hm)), E1. auto.
  - rewrite B. apply (th_sound cs HK).
Qed.
Lemma Inv_switch' : forall i g, Inv g -> Inv (gswitch kbs i g).
Proof.
  intros i g H. destruct (kbs i) as [cs|] eqn:E; [eapply Inv_switch; eauto|]. unfold gswitch. rewrite E. auto.
Qed.
Lemma Inv_select : forall i g, Inv g -> Inv (gselect kbs i g).
Proof. intros i g H. unfold gselect. destruct (i =? g_cur g)%N; auto. apply Inv_switch'; auto. Qed.
Lemma Inv_turns : forall x g g', Inv g -> turns x g g' -> Inv g'.
Proof.
  intros x g g' H [S|[_ [i [g0 [S E]]]]]; [eapply Inv_eq; eauto|]. subst g'. apply Inv_select. eapply Inv_eq; eauto.
Qed.

Lemma Inv_hook : forall g id, Inv g -> 4 <= id < 16 -> exists g', ghook id g = Ok g'.
Proof.
  intros g id [_ [_ HH]] Hid. destruct (HH id ltac:(lia)) as (_&_&X). unfold ghook.
  destruct (X ltac:(lia)) as [E|(m&l&E&F)]; rewrite E; eauto. apply shows_format in F. rewrite F. eauto.
Qed.
Lemma Inv_on : forall x g, Inv g -> exists g', gaction_on kbs x g = Ok g'.
Proof.
  intros x g H. unfold gaction_on. destruct (decode x) eqn:D; eauto.
  - apply Inv_hook; auto. lia.
  - apply Inv_hook; auto. lia.
  - destruct (Nat.leb_spec n 10); eauto. apply Inv_hook; auto. apply decode_fn in D. lia.
Qed.
Lemma Inv_press : forall x g, Inv g -> exists g', gpress kbs x g = Ok g'.
Proof. intros x g H. unfold gpress. destruct (0xA0 <? x)%N; [apply Inv_on; auto|eauto]. Qed.
Lemma Inv_held : forall x g, Inv g -> exists g', gheld kbs x g = Ok g'.
Proof.
  intros x g H. unfold gheld. destruct (x =? g_last g)%N; [|eauto].
  destruct (repeat_tick (g_rep g)) as [[] q]; [|eauto]. apply Inv_press. apply (Inv_eq g); auto. repeat split.
Qed.

Lemma Inv_dims : forall g, Inv g -> exists cs m R C, kbs (g_cur g) = Some cs /\ table_of cs 0 = Some (m, R, C) /\
  R0 <= R /\ g_rows g = R /\ g_cols g = C /\
  (forall r c mi, r < R -> c < C -> mi < 4 -> exists x, gcode_in r c mi g = Ok x) /\
  (forall r c, r < R -> c < C -> exists x, gcode r c g = Ok x /\ (R0 <= r -> ~ selects x)).
Proof.
  intros g [(cs&m&R&C&A&B&D&E) _]. exists cs, m, R, C. split; auto. split; auto. split; auto.
  pose proof (proj1 (proj2 sound _ _ A)) as HI.
  destruct (E (N.to_nat (g_cur g)) ltac:(lia)) as [m0 (E0&_)].
  pose proof (map_now_lt (g_mod g)) as HL. destruct (E _ HL) as [m1 (E1&L1&N1)].
  pose proof (nth_error_nth _ _ no_map E1) as E2. unfold g_rows, g_cols. rewrite E2. cbn [km_rows km_cols].
  split; [reflexivity|]. split; [reflexivity|]. split.
  - intros r c mi Hr Hc Hm. destruct (E mi Hm) as [m2 (E3&L3&_)]. unfold gcode_in. rewrite E0, E3. cbn [km_cols km_rows km_matrix].
    replace (C =? 0) with false by lia. replace (R =? 0) with false by lia. cbn [orb].
    exists (nth (r * C + c) m2 0%N). apply lget_ok. apply nth_error_nth'. nia.
  - intros r c Hr Hc. exists (nth (r * C + c) m1 0%N). split; [|intros; apply N1; auto].
    unfold gcode. rewrite E0, E2. cbn [km_cols km_rows km_matrix].
    replace (C =? 0) with false by lia. replace (R =? 0) with false by lia. cbn [orb].
    apply lget_ok. apply nth_error_nth'. nia.
Qed.

Lemma Inv_key : forall rd r c g, Inv g -> r < g_rows g -> c < g_cols g ->
  exists g', gkey kbs rd r c g = Ok g' /\ Inv g' /\ r < g_rows g'.
Proof.
  intros rd r c g HT Hr Hc.
  assert (ROW : forall x g1 g2, Inv g1 -> g_rows g1 = g_rows g -> turns x g1 g2 -> (R0 <= r -> ~ selects x) -> r < g_rows g2).
  { intros x g1 g2 T1 E1 TU NS. destruct (Nat.ltb_spec r R0).
    - destruct (Inv_dims g2 (Inv_turns _ _ _ T1 TU)) as (cs&m&R&C&_&_&B1&B2&_). lia.
    - destruct TU as [S|[X _]]; [|exfalso; apply (NS H X)].
      destruct (Inv_dims g1 T1) as (cs1&m1&R1&C1&A1&B1&_&D1&_).
      destruct (Inv_dims g2 (Inv_eq _ _ T1 S)) as (cs2&m2&R2&C2&A2&B2&_&D2&_).
      destruct S as (_&_&S). rewrite S, A1 in A2. inv A2. rewrite B1 in B2. inv B2. lia. }
  unfold gkey. cbv zeta. destruct (Bool.eqb _ _).
  - destruct (reading rd r c); [|eauto].
    destruct (Inv_dims g HT) as (cs&m&R&C&_&_&_&B2&B3&_&HC). destruct (HC r c ltac:(lia) ltac:(lia)) as [x [E NS]].
    rewrite E. cbn [bind]. destruct (Inv_held x g HT) as [g' E']. exists g'. split; auto.
    pose proof (held_turns _ _ _ E') as TU. split; [eapply Inv_turns; eauto|]. apply (ROW x g g'); auto.
  - destruct (g_ct g r c =? 1)%N.
    + set (g1 := gp_dn _ _). assert (T1 : Inv g1) by (apply (Inv_eq g); [auto|repeat split]).
      assert (W1 : g_rows g1 = g_rows g) by reflexivity. assert (W2 : g_cols g1 = g_cols g) by reflexivity.
      destruct (Inv_dims g1 T1) as (cs&m&R&C&_&_&_&B2&B3&_&HC). destruct (HC r c ltac:(lia) ltac:(lia)) as [x [E NS]].
      rewrite E. cbn [bind]. destruct (reading rd r c).
      * destruct (Inv_press x g1 T1) as [g' E']. exists g'. split; auto.
        pose proof (press_turns _ _ _ E') as TU. split; [eapply Inv_turns; eauto|]. apply (ROW x g1 g'); auto.
      * eexists. split; [reflexivity|]. pose proof (release_turns x g1) as TU. split; [eapply Inv_turns; eauto|].
        apply (ROW x g1 _); auto.
    + eexists. split; [reflexivity|]. split; [apply (Inv_eq g); [auto|repeat split]|exact Hr].
Qed.

Lemma Inv_cols : forall n rd r c g, Inv g -> r < g_rows g -> exists g', gcols kbs n rd r c g = Ok g' /\ Inv g'.
Proof.
  induction n as [|n IH]; intros rd r c g HT Hr; cbn [gcols]; [eauto|].
  destruct (Nat.ltb_spec c (g_cols g)); [|eauto].
  destruct (Inv_key rd r c g HT Hr H) as [g1 (E&T1&W1)]. rewrite E. cbn [bind]. apply IH; auto.
Qed.
Lemma Inv_rows : forall n rd r g, Inv g -> exists g', grows kbs n rd r g = Ok g' /\ Inv g'.
Proof.
  induction n as [|n IH]; intros rd r g HT; cbn [grows]; [eauto|].
  destruct (Nat.ltb_spec r (g_rows g)); [|eauto].
  destruct (Inv_cols 8 rd r 0 g HT H) as [g1 (E&T1)]. rewrite E. cbn [bind]. apply IH; auto.
Qed.
Lemma Inv_scan : forall rd g, Inv g -> exists g', gscan kbs rd g = Ok g' /\ Inv g'.
Proof.
  intros rd g HT. unfold gscan. pose proof HT as [_ [_ HH]].
  destruct (HH HOOK_ROW_SCANNER ltac:(unfold HOOK_ROW_SCANNER; lia)) as (E&_&_). rewrite E by reflexivity.
  destruct (Inv_hook g HOOK_EACH_SCAN HT ltac:(unfold HOOK_EACH_SCAN; lia)) as [g1 E1]. rewrite E1. cbn [bind].
  apply Inv_rows. apply (Inv_eq g g1 HT). apply (ghook_tabs _ _ _ E1).
Qed.

Lemma hook_init_sound : hooked hook_init.
Proof. apply (th_sound []). intros id f []. Qed.

Hypothesis wide_all : wide C0 kbs.

Lemma tame_call : forall k g, Inv g -> tame R0 C0 kbs k -> exists r g', g_call kbs k g = Ok (r, g') /\ Inv g'.
Proof.
  intros k g HI HK.
  assert (ST : forall r g', stays g g' -> exists r1 g1, @Ok (ret * gkb) (r, g') = Ok (r1, g1) /\ Inv g1).
  { intros r g' S. exists r, g'. split; auto. eapply Inv_eq; eauto. }
  destruct k; cbn [g_call tame] in *; try (apply ST; repeat split; fail).
  - exists Void, (ginit kbs g). split; auto. destruct (proj1 sound) as [cs E]. unfold ginit. eapply Inv_switch; eauto.
  - destruct (Inv_scan rd g HI) as [g' [E X]]. rewrite E. cbn. eauto.
  - cbv zeta. destruct (hd 0xA0 (g_qm g) =? 0xA0)%N; apply ST; repeat split.
  - destruct ((mi <? 4) && (rows <=? 16) && (cols <=? 8)) eqn:EB; [|apply ST; repeat split].
    exists Void. eexists. split; [reflexivity|]. destruct HI as [(cs&m&R&C&A&B&D&E) HH]. split; [|exact HH].
    destruct HK as [(t&ET&EL&ES) HD]; [lia|lia|lia|]. destruct (HD _ _ A) as [u EU]. rewrite B in EU. inv EU.
    exists cs, u, rows, cols. split; auto. split; auto. split; auto.
    intros mj Hj. cbn [g_maps gp_maps]. destruct (E mj Hj) as [mm (E1&L1&N1)].
    destruct (Nat.eq_dec mi mj).
    + subst mj. exists t. split; [|auto]. rewrite nth_error_upd, Nat.eqb_refl.
      replace (mi <? length (g_maps g)) with true; [reflexivity|].
      symmetry. apply Nat.ltb_lt. apply nth_error_Some. congruence.
    + exists mm. split; [|auto]. rewrite nth_error_upd. replace (mi =? mj) with false by lia. cbn [andb]. exact E1.
  - exists Void. eexists. split; [reflexivity|]. apply Inv_select; auto.
  - exists Void. eexists. split; [reflexivity|]. apply Inv_select; auto.
  - exists Void. eexists. split; [reflexivity|]. apply Inv_select; auto.
  - exists Void. eexists. split; [reflexivity|]. apply Inv_switch'; auto.
  - destruct (Inv_dims g HI) as (cs&m&R&C&A&B&D&_&_&X&_). destruct (wide_all _ _ A) as (m'&R'&C'&E&F).
    rewrite B in E. inv E. destruct (X r c mi ltac:(lia) ltac:(lia) ltac:(lia)) as [x E]. rewrite E. cbn. eauto.
  - apply ST, gshift_tabs.
  - apply ST, gshift_tabs.
  - apply ST, gshift_tabs.
  - apply ST, gcaps_tabs.
  - apply ST, gshift_tabs.
  - apply ST. unfold gset_ctrl, gcaps_off. destruct (gact_tabs V_SET_LO VCAPS_LED (gset_shift 0 g)) as (A&B&C).
    destruct (gshift_tabs 0 g) as (A1&B1&C1). repeat split; cbn; congruence.
  - destruct (repeat_tick (g_rep g)) as [due r]. apply ST; repeat split.
  - apply ST. unfold gqput. destruct (h =? 0)%Z, (h =? 1)%Z; repeat split.
  - apply ST. unfold gqpop. destruct (h =? 0)%Z, (h =? 1)%Z; repeat split.
  - unfold gvirtual. replace (v <? 12) with true by lia. cbn. apply ST, gact_tabs.
  - unfold gvirtual. replace (v <? 12) with true by lia. cbn. apply ST, gact_tabs.
  - unfold gline. replace (p <? 13) with true by lia. cbn. apply ST; repeat split.
  - unfold gline. replace (p <? 13) with true by lia. cbn. apply ST; repeat split.
  - unfold gline. replace (p <? 13) with true by lia. cbn. apply ST; repeat split.
  - replace (p <? 13) with true by lia. apply ST; repeat split.
  - unfold gline. replace (p <? 13) with true by lia. cbn. apply ST; repeat split.
  - assert (X : exists r g', (if (0 <? id) && (id <? 16) then silent (ghook id g) else Ok (Void, g)) = Ok (r, g') /\ Inv g').
    { destruct ((0 <? id) && (id <? 16)) eqn:E; [|eauto]. destruct (Inv_hook g id HI ltac:(lia)) as [g' E']. rewrite E'. cbn.
      exists Void, g'. split; auto. apply (Inv_eq g g' HI). apply (ghook_tabs _ _ _ E'). }
    destruct (ghook_of id g); auto. destruct (Inv_scan rd g HI) as [g' [E Y]]. rewrite E. cbn. eauto.
  - destruct ((0 <? id) && (id <? 16)) eqn:E; [|apply ST; repeat split]. exists Void. eexists. split; [reflexivity|].
    destruct HI as [HI [HL HH]]. split; [exact HI|]. cbn [g_hook gp_hook]. split; [rewrite upd_length; auto|].
    intros j Hj. destruct (Nat.eq_dec id j).
    + subst j. assert (EN : nth_error (upd (g_hook g) id f) id = Some f).
      { rewrite nth_error_upd, Nat.eqb_refl. replace (id <? length (g_hook g)) with true by lia. reflexivity. }
      rewrite (nth_error_nth _ _ HUnset EN). auto.
    + assert (EN : nth_error (upd (g_hook g) id f) j = Some (nth j (g_hook g) HUnset)).
      { rewrite nth_error_upd. replace (id =? j) with false by lia. cbn [andb]. apply nth_error_nth'. lia. }
      rewrite (nth_error_nth _ _ HUnset EN). auto.
  - exists Void. eexists. split; [reflexivity|]. destruct HI as [HI _]. split; [exact HI|]. apply hook_init_sound.
  - destruct HK as [l F]. apply shows_format in F. rewrite F. apply ST; repeat split.
Qed.

Lemma tame_calls : forall ks g, Inv g -> Forall (tame R0 C0 kbs) ks -> exists rs g', g_calls kbs ks g = Ok (rs, g').
Proof.
  induction ks as [|k ks IH]; intros g HI HK; cbn [g_calls]; [eauto|]. inv HK.
  destruct (tame_call k g HI H1) as (r&g1&E1&I1). rewrite E1. cbn [bind].
  destruct (IH g1 I1 H2) as (rs&g2&E2). rewrite E2. cbn. eauto.
Qed.

Lemma tame_proper : forall ks, Forall (tame R0 C0 kbs) ks -> Forall proper ks.
Proof. intros ks H. eapply Forall_impl; [|exact H]. intros [] X; cbn in *; auto. Qed.

End Tame.

Theorem C119_client_safe : forall R0 C0 kbs ks, sound_firmware R0 kbs -> wide C0 kbs ->
  Forall (tame R0 C0 kbs) ks -> exists rs s, client kbs ks = Ok (rs, s).
Proof.
  intros R0 C0 kbs ks HS HW HT. destruct (proj1 HS) as [cs E].
  destruct (tame_calls R0 C0 kbs HS HW ks (gboot kbs)) as (rs&g&EG); auto.
  { unfold gboot. eapply Inv_switch; eauto. }
  pose proof (client_sim kbs cs ks E (tame_proper _ _ _ _ HT)) as X. unfold gclient in X. rewrite EG in X. cbn [osim] in X.
  destruct X as [[rs' s] [X _]]. eauto.
Qed.
Print Assumptions C119_client_safe.

(** ** C120 *)

(** Calls that only ask. *)
Definition query (k : call) : Prop :=
  match k with
  | KRows | KCols | KModifierIndex | KGetCode _ _ _ | KHookGet _ => True
  | KBufNew n => (0 < n)%Z
  | _ => False
  end.

Lemma query_still : forall kbs k g s r s', GRel g s -> query k -> c_call kbs k s = Ok (r, s') -> s' = s.
Proof.
  intros kbs k g s r s' HR HQ H. destruct k; cbn [query] in HQ; try contradiction; cbn [c_call] in H; unfold asks in H.
  5:{ destruct (new_none size g s HR HQ) as [b [E F]]. rewrite E in H. cbn in H. inv H.
    destruct (rs_buf _ _ (proj2 HR)) as (_&_&N1&_).
    unfold buffer_new in E. destruct (next_handle (k_buf s) <? num_handles)%Z.
    + apply bind_ok in E. destruct E as [room [_ E]]. destruct (size <=? room)%Z.
      * exfalso. destruct ((pool_next (k_buf s) <? 0)%Z || (pool_size <? pool_next (k_buf s))%Z); [discriminate|].
        apply bind_ok in E. destruct E as [bs [EB E]]. apply bind_ok in E. destruct E as [nxt [_ E]].
        injection E as E1 E2. rewrite N1 in E1. cbn in E1. lia.
      * inv E. destruct s; reflexivity.
    + inv E. destruct s; reflexivity. }
  all: repeat (apply bind_ok in H; destruct H as [? [? H]]); inv H; reflexivity.
Qed.

Lemma c_calls_app : forall kbs k1 k2 s, c_calls kbs (k1 ++ k2) s =
  ('(r1, s1) <- c_calls kbs k1 s ;; '(r2, s2) <- c_calls kbs k2 s1 ;; Ok (r1 ++ r2, s2)).
Proof.
  induction k1 as [|k k1 IH]; intros k2 s; cbn [app c_calls bind].
  - destruct (c_calls kbs k2 s) as [[r2 s2]|u]; reflexivity.
  - destruct (c_call kbs k s) as [[r s1]|u]; cbn [bind]; [|reflexivity]. rewrite IH.
    destruct (c_calls kbs k1 s1) as [[r1 s2]|u]; cbn [bind]; [|reflexivity].
    destruct (c_calls kbs k2 s2) as [[r2 s3]|u]; reflexivity.
Qed.
Lemma c_calls_length : forall kbs ks s rs s', c_calls kbs ks s = Ok (rs, s') -> length rs = length ks.
Proof.
  induction ks as [|k ks IH]; intros s rs s' H; cbn [c_calls] in H; [inv H; reflexivity|].
  apply bind_ok in H. destruct H as [[r s1] [_ H]]. apply bind_ok in H. destruct H as [[rs1 s2] [E H]]. inv H.
  cbn. f_equal. eapply IH; eauto.
Qed.

(** Asking changes nothing: without the question all other calls return the
    same, and the state of the firmware and all it did to the hardware are the
    same. *)
Theorem C120_queries_are_transparent : forall kbs cs k1 q k2 rs s,
  kbs 0%N = Some cs -> Forall proper k1 -> query q ->
  client kbs (k1 ++ q :: k2) = Ok (rs, s) ->
  exists r1 z r2, rs = r1 ++ z :: r2 /\ length r1 = length k1 /\ client kbs (k1 ++ k2) = Ok (r1 ++ r2, s).
Proof.
  intros kbs cs k1 q k2 rs s HK HP HQ H. unfold client in *. destruct (gboot_sim kbs cs HK) as [s0 [E0 G0]].
  rewrite E0 in *. cbn [bind] in *. rewrite c_calls_app in *. cbn [c_calls] in H.
  destruct (c_calls kbs k1 s0) as [[r1 s1]|u] eqn:E1; cbn [bind] in *; [|discriminate].
  destruct (c_call kbs q s1) as [[z s2]|u] eqn:EQ; cbn [bind] in H; [|discriminate].
  pose proof (calls_sim kbs k1 _ _ HP G0) as X. rewrite E1 in X.
  destruct (g_calls kbs k1 (gboot kbs)) as [[rg g1]|u] eqn:EG; cbn [osim] in X; [|discriminate].
  destruct X as [[r1' s1'] [X [_ XR]]]. inv X. cbn [snd] in XR.
  assert (s2 = s1') by (eapply query_still; eauto). subst s2.
  destruct (c_calls kbs k2 s1') as [[r2 s3]|u] eqn:E2; cbn [bind] in *; [|discriminate]. inv H.
  exists r1', z, r2. split; [reflexivity|]. split; [exact (c_calls_length _ _ _ _ _ E1)|]. reflexivity.
Qed.
Print Assumptions C120_queries_are_transparent.

(** ** Examples *)
Definition four (i : N) : option N := if (i <? 4)%N then Some i else None.
Lemma four_sound : sound_firmware 9 (choice four).
Proof.
  apply choice_sound; [exists 0%N; reflexivity|]. intros i k E. unfold four in E. destruct (N.ltb_spec i 4); inv E. lia.
Qed.
Lemma four_wide : wide 8 (choice four).
Proof.
  intros i cs E. unfold choice, four in E. destruct (N.ltb_spec i 4); [|discriminate]. inv E.
  assert (i = 0 \/ i = 1 \/ i = 2 \/ i = 3)%N as [-> | [-> | [-> | ->]]] by lia; do 3 eexists; (split; [vm_compute; reflexivity|lia]).
Qed.

(** A session on the four classic and Apple keyboards: type, select, ask, print
    and read back. *)
Definition key (r c : nat) (i : nat) : N := if i =? r then N.shiftl 1 (N.of_nat c) else 0%N.
Definition session : list call :=
  [KPutCode 65; KPutc 10; KSelect 2; KModifierIndex; KCapslock; KModifierIndex; KGetCode 1 1 0; KRows; KBufNew 1;
   KPrint [104; 105]%N; KNextCode; KNextCode; KNextCode; KNextCode; KNextCode; KNextCode; KActivate 1; KSet 11 0] ++
  repeat (KScan (key 1 1)) 10 ++ [KNextCode; KHook (key 1 1) 4; KHookGet 4; KInit; KNextCode].
Example C119_example : Forall (tame 9 8 (choice four)) session.
Proof.
  unfold session. apply Forall_app. split; [|apply Forall_app; split].
  - repeat (apply Forall_cons; [cbn [tame]; try exact I; try lia|]); [|apply Forall_nil].
    exists [104; 105]%N. apply shows_format. reflexivity.
  - apply Forall_forall. intros x Hx. apply repeat_spec in Hx. subst x. exact I.
  - repeat (apply Forall_cons; [cbn [tame]; try exact I; try lia|]). apply Forall_nil.
Qed.
Example C118_example : seen (client (choice four) session) = Ok
  ([Void; Num 10; Void; Num 2; Void; Num 0; Num 112; Num 9; Num (-1);
    Void; Num 13; Num 10; Num 104; Num 105; Num 65; Num 160; Void; Void] ++ repeat Void 10 ++
   [Num 112; Void; Fn HNull; Void; Num 160],
   [EvArchInit; EvArchInit; EvOut 10 1; EvOut 10 0; EvDelayMs 40; EvDelayMs 40; EvDelayMs 40; EvDelayMs 40;
    EvOut 8 0; EvPulseShort; EvOut 8 1; EvOut 11 0; EvArchInit]).
Proof. vm_compute. reflexivity. Qed.

(** Each condition of [tame] is needed: without it a short session on the same
    four keyboards is undefined. *)
Definition ends (ks : list call) : option ub := match client (choice four) ks with Ok _ => None | Bad u => Some u end.
Example C119_conditions_needed :
  ends [KGetCode 0 0 4] = Some UKeymapsOob /\
  ends [KGetCode 9 0 0] = Some UMatrixOob /\
  ends [KAction 12 V_TOGGLE] = Some UDevOob /\ ends [KActivate 12] = Some UDevOob /\
  ends [KSet 13 1] = Some UDevOob /\ ends [KAssert 13] = Some UDevOob /\ ends [KToggle 13] = Some UDevOob /\
  ends [KHook (key 0 0) 2] = Some UHookType /\ ends [KHook (key 0 0) 3] = Some UHookType /\
  ends [KHookAssign 5 HReadRow; KHook (key 0 0) 5] = Some UHookType /\
  ends [KHookAssign 2 HNull; KScan (key 0 0)] = Some UHookType /\
  ends [KPrint [49; 37; 115]%N] = Some UFormat /\
  ends ([KAddMap None 0 9 8] ++ repeat (KScan (key 1 1)) 10) = Some UMatrixNull /\
  ends ([KAddMap (Some [97; 98]%N) 0 9 8] ++ repeat (KScan (key 1 1)) 10) = Some UMatrixOob /\
  ends ([KAddMap (Some (repeat 0xA1%N 128)) 0 16 8] ++
        repeat (KScan (fun r => if r =? 12 then 3%N else 0%N)) 10) = Some UMatrixOob.
Proof. vm_compute. repeat split; reflexivity. Qed.

(** The questions of the session left out. *)
Example C120_example :
  query KModifierIndex /\ query (KGetCode 1 1 0) /\ query KRows /\ query (KBufNew 1) /\ query (KHookGet 4) /\
  seen (client (choice four) [KCapslock; KModifierIndex; KPutCode 65; KNextCode]) =
    Ok ([Void; Num 2; Void; Num 65], [EvArchInit; EvOut 12 1]) /\
  seen (client (choice four) [KCapslock; KPutCode 65; KNextCode]) =
    Ok ([Void; Void; Num 65], [EvArchInit; EvOut 12 1]).
Proof. split; [exact I|]. split; [exact I|]. split; [exact I|]. split; [cbn; lia|]. split; [exact I|].
  vm_compute. split; reflexivity. Qed.

(** Room for a further buffer must be positive: asdf_buffer_new(-144) succeeds
    and gives the whole pool back, so that the next buffer lies on the key queue
    and what is put there replaces the codes waiting. *)
Theorem C120_negative_room_refuted : exists k1 q k2 rs s,
  (exists n, q = KBufNew n /\ (n < 0)%Z) /\ client (choice four) (k1 ++ q :: k2) = Ok (rs, s) /\
  last rs Void = Num 66 /\ exists rs' s', client (choice four) (k1 ++ k2) = Ok (rs', s') /\ last rs' Void = Num 65.
Proof.
  exists [KPutCode 65], (KBufNew (-144)), [KBufNew 16; KBufPut 3 66; KNextCode].
  do 2 eexists. split; [exists (-144)%Z; split; [reflexivity|lia]|].
  split; [vm_compute; reflexivity|]. split; [reflexivity|]. do 2 eexists. split; [vm_compute; reflexivity|reflexivity].
Qed.
Print Assumptions C120_negative_room_refuted.
