(** The firmware built from any list of keymaps refines the abstract machine of
    CustomSpec.v, including the kind of undefined behaviour it runs into. *)
From Coq Require Import List NArith ZArith Arith Bool Lia.
From Coq Require Import ZifyBool ZifyNat ZifyN.
From Verif Require Import Base Lib Buffer BufferSpec BufferProofs Repeat Devices DevSpec DevProofs
     Modifiers Hook KeymapData Asdf KeySpec KeyRef Custom CustomSpec.
Import ListNotations.
Local Open Scope outcome_scope.

(** Same outcome: related results, or the same undefined behaviour. *)
Definition osim {A B} (P : A -> B -> Prop) (x : outcome A) (y : outcome B) : Prop :=
  match x with
  | Ok a => exists b, y = Ok b /\ P a b
  | Bad u => y = Bad u
  end.

Lemma osim_bind : forall A B C D (P : A -> B -> Prop) (Q : C -> D -> Prop) x y f g,
  osim P x y -> (forall a b, P a b -> osim Q (f a) (g b)) -> osim Q (bind x f) (bind y g).
Proof.
  intros. destruct x; cbn in *.
  - destruct H as [b [-> H]]. cbn. auto.
  - rewrite H. reflexivity.
Qed.

(** ** The relation *)
Definition small (km : kmap) : Prop := km_rows km <= 16 /\ km_cols km <= 8.

(** What a setup function works on. *)
Record RelT (g : gkb) (s : kb) : Prop := mkRelT {
  rt_delay : k_delay s = g_delay g;
  rt_mod : k_mod s = g_mod g;
  rt_dev : RD (g_vs g) (k_dev s);
  rt_log : log (k_dev s) = g_log g;
  rt_hook : k_hook s = g_hook g;
  rt_hlen : length (g_hook g) = 16;
  rt_maps : k_maps s = g_maps g;
  rt_mlen : length (g_maps g) = 4;
  rt_small : Forall small (g_maps g);
  rt_cur : k_cur s = g_cur g
}.

(** The rest. *)
Record RelS (g : gkb) (s : kb) : Prop := mkRelS {
  rs_stlen : length (k_stable s) = 16;
  rs_stable : forall r b, nth_error (k_stable s) r = Some b ->
     (b < 256)%N /\ forall c, c < 8 -> N.testbit b (N.of_nat c) = g_dn g r c;
  rs_cntlen : length (k_cnt s) = 128;
  rs_cnt : forall r c v, c < 8 -> nth_error (k_cnt s) (r * 8 + c) = Some v ->
     v = g_ct g r c /\ (1 <= v <= 10)%N;
  rs_last : k_last s = g_last g;
  rs_hkey : k_hkey s = 0%Z;
  rs_hmsg : k_hmsg s = 1%Z;
  rs_buf : R [mkFifo 16 (g_qk g); mkFifo 128 (g_qm g)] (k_buf s);
  rs_rep : k_rep s = g_rep g
}.

Definition GRel (g : gkb) (s : kb) : Prop := RelT g s /\ RelS g s.

Ltac rt H := destruct H as [T1 T2 T3 T4 T5 T6 T7 T8 T9 T10].
Ltac rs H := destruct H as [S1 S2 S3 S4 S5 S6 S7 S8 S9].

Lemma G_qk : forall g s b q, GRel g s -> R [mkFifo 16 q; mkFifo 128 (g_qm g)] b ->
  GRel (gp_qk q g) (set_buf b s).
Proof. intros g s b q [HT HS] HR. split; [rt HT|rs HS]; constructor; auto. Qed.
Lemma G_qm : forall g s b q, GRel g s -> R [mkFifo 16 (g_qk g); mkFifo 128 q] b ->
  GRel (gp_qm q g) (set_buf b s).
Proof. intros g s b q [HT HS] HR. split; [rt HT|rs HS]; constructor; auto. Qed.
Lemma G_rep : forall g s r, GRel g s -> GRel (gp_rep r g) (set_rep r s).
Proof. intros g s r [HT HS]. split; [rt HT|rs HS]; constructor; auto. Qed.
Lemma G_last : forall g s c, GRel g s -> GRel (gp_last c g) (set_last c s).
Proof. intros g s c [HT HS]. split; [rt HT|rs HS]; constructor; auto. Qed.
Lemma T_note : forall g s e, RelT g s -> RelT (gnote e g) (emit_kb e s).
Proof.
  intros g s e HT. rt HT. constructor; auto; cbn.
  - apply RD_emit; auto.
  - congruence.
Qed.
Lemma G_note : forall g s e, GRel g s -> GRel (gnote e g) (emit_kb e s).
Proof. intros g s e [HT HS]. split; [apply T_note; auto|]. rs HS; constructor; auto. Qed.

(** The setup functions leave the scanner alone, on both sides. *)
Definition gsame (g g' : gkb) : Prop :=
  g_dn g' = g_dn g /\ g_ct g' = g_ct g /\ g_last g' = g_last g /\ g_qk g' = g_qk g /\
  g_qm g' = g_qm g /\ g_rep g' = g_rep g.
Lemma same_S : forall g g' s s', gsame g g' -> same_scanner s s' -> RelS g s -> RelS g' s'.
Proof.
  intros g g' s s' (A1&A2&A3&A4&A5&A6) (B1&B2&B3&B4&B5&B6&B7) HS. rs HS.
  constructor; rewrite ?B1, ?B2, ?B3, ?B4, ?B5, ?B6, ?B7, ?A1, ?A2, ?A3, ?A4, ?A5, ?A6; auto.
Qed.
Lemma same_refl : forall s, same_scanner s s.
Proof. intros. repeat split. Qed.
Lemma same_trans : forall a b c, same_scanner a b -> same_scanner b c -> same_scanner a c.
Proof.
  intros a b c (A1&A2&A3&A4&A5&A6&A7) (B1&B2&B3&B4&B5&B6&B7).
  repeat split; congruence.
Qed.
Lemma gsame_trans : forall a b c, gsame a b -> gsame b c -> gsame a c.
Proof.
  intros a b c (A1&A2&A3&A4&A5&A6) (B1&B2&B3&B4&B5&B6).
  repeat split; congruence.
Qed.

(** ** Outputs and modifiers *)
Lemma gact_sim : forall f v g s, RelT g s -> v < 12 ->
  exists d, virtual_action v f (k_dev s) = Ok d /\ RelT (gact f v g) (set_dev d s).
Proof.
  intros f v g s HT Hv. rt HT.
  destruct (action_refines f _ _ v T3 Hv) as [d (E&F&G)].
  exists d. split; auto. unfold gact.
  destruct (spec_action f (own (g_vs g) v) (lev (g_vs g))) as [lv ev]. cbn in F, G.
  constructor; auto. cbn. congruence.
Qed.

Lemma gact_same : forall f v g, gsame g (gact f v g).
Proof. intros. unfold gact. destruct (spec_action _ _ _). repeat split. Qed.
Lemma gact_mod : forall f v g, g_mod (gact f v g) = g_mod g.
Proof. intros. unfold gact. destruct (spec_action _ _ _). reflexivity. Qed.

Lemma gactivate_sim : forall v g s, RelT g s -> v < 12 ->
  exists s', on_dev (virtual_activate v) s = Ok s' /\ RelT (gact (fn (g_vs g) v) v g) s' /\ same_scanner s s'.
Proof.
  intros v g s HT Hv. destruct (gact_sim (fn (g_vs g) v) v g s HT Hv) as [d [E F]].
  destruct (rd_virt _ _ (rt_dev _ _ HT) v Hv) as [x (X1&X2&X3)].
  unfold on_dev, virtual_activate.
  rewrite (proj2 (lget_ok _ _ _ _ _) X1). cbn [bind]. rewrite X3, E. cbn [bind].
  eexists. split; [reflexivity|]. split; auto. repeat split.
Qed.

Lemma T_mods : forall g s m, RelT g s -> RelT (gp_mod m g) (set_md (m, k_dev s) s).
Proof. intros g s m HT. rt HT. constructor; auto. Qed.

Lemma land2 : forall x, (N.land x SHIFT_LOCKED_ST =? 0)%N = negb (N.testbit x 1).
Proof.
  intros x. unfold SHIFT_LOCKED_ST. replace 2%N with (2 ^ 1)%N by reflexivity.
  destruct (N.testbit x 1) eqn:T; cbn [negb].
  - apply N.eqb_neq. intros Z. apply (f_equal (fun y => N.testbit y 1)) in Z.
    rewrite N.land_spec, T, N.pow2_bits_true, N.bits_0 in Z. discriminate.
  - apply N.eqb_eq. apply N.bits_inj. intros k. rewrite N.land_spec, N.bits_0.
    destruct (N.eq_dec k 1); [subst; rewrite T; auto|].
    rewrite N.pow2_bits_false by lia. apply andb_false_r.
Qed.

Lemma gshift_sim : forall x g s, RelT g s ->
  exists s', on_md (set_shift_state x) s = Ok s' /\ RelT (gset_shift x g) s' /\ same_scanner s s'.
Proof.
  intros x g s H. unfold on_md, set_shift_state, gset_shift. rewrite land2.
  destruct (gact_sim (if N.testbit x 1 then V_SET_HI else V_SET_LO) VSHIFT_LED g s H
              ltac:(apply Nat.ltb_lt; reflexivity)) as [d [F G]].
  replace (if negb (N.testbit x 1) then V_SET_LO else V_SET_HI)
    with (if N.testbit x 1 then V_SET_HI else V_SET_LO) by (destruct (N.testbit x 1); auto).
  rewrite F. cbn [bind]. eexists. split; [reflexivity|]. split; [|repeat split].
  rewrite gact_mod. rewrite <- (rt_mod _ _ H).
  apply (T_mods _ (set_dev d s)). auto.
Qed.

Lemma gcaps_sim : forall g s, RelT g s ->
  exists s', on_md capslock_activate s = Ok s' /\ RelT (gtoggle_caps g) s' /\ same_scanner s s'.
Proof.
  intros g s H. unfold on_md, capslock_activate, set_caps_state, gtoggle_caps. cbn [fst].
  rewrite (rt_mod _ _ H). unfold CAPS_LOCKED_ST.
  set (x := N.lxor (m_caps (g_mod g)) 1).
  destruct (gact_sim (if (x =? 0)%N then V_SET_LO else V_SET_HI) VCAPS_LED g s H
              ltac:(apply Nat.ltb_lt; reflexivity)) as [d [F G]].
  rewrite F. cbn [bind]. eexists. split; [reflexivity|]. split; [|repeat split].
  rewrite gact_mod. apply (T_mods _ (set_dev d s)). auto.
Qed.

Lemma gctrl_sim : forall x g s, RelT g s -> RelT (gset_ctrl x g)
   (set_md (mkMods (m_shift (k_mod s)) (m_caps (k_mod s)) x, k_dev s) s).
Proof.
  intros. unfold gset_ctrl. rewrite (rt_mod _ _ H). apply T_mods; auto.
Qed.

(** ** Messages *)
Lemma gputc_sim : forall c g s, GRel g s ->
  exists s', putc c s = Ok s' /\ GRel (gp_qm (qput_all 128 (expand [c]) (g_qm g)) g) s'.
Proof.
  intros c g s H. pose proof (rs_buf _ _ (proj2 H)) as HB. unfold putc. rewrite (rs_hmsg _ _ (proj2 H)).
  unfold expand. cbn [flat_map]. rewrite app_nil_r.
  destruct (N.eqb_spec c 10).
  - destruct (put_msg 13 _ _ _ HB) as [b1 [E1 B1]]. rewrite E1. cbn [bind].
    destruct (put_msg c _ _ _ B1) as [b2 [E2 B2]]. rewrite E2. cbn [bind].
    eexists; split; [reflexivity|]. apply G_qm; auto.
  - cbn [bind]. destruct (put_msg c _ _ _ HB) as [b2 [E2 B2]]. rewrite E2. cbn [bind].
    eexists; split; [reflexivity|]. apply G_qm; auto.
Qed.

Lemma gprint_sim : forall m g s, GRel g s ->
  match format m with
  | Some l => exists s', print m s = Ok s' /\ GRel (gprint l g) s'
  | None => print m s = Bad UFormat
  end.
Proof.
  assert (ST : forall c t k g s, GRel g s ->
    (forall g1 s1, GRel g1 s1 -> match t with
       | Some l => exists s', k s1 = Ok s' /\ GRel (gprint l g1) s' | None => k s1 = Bad UFormat end) ->
    match option_map (cons c) t with
    | Some l => exists s', (s1 <- putc c s ;; k s1) = Ok s' /\ GRel (gprint l g) s'
    | None => (s1 <- putc c s ;; k s1) = Bad UFormat
    end).
  { intros c t k g s H IH. destruct (gputc_sim c g s H) as [s1 [E1 R1]]. rewrite E1. cbn [bind].
    specialize (IH _ _ R1). destruct t as [l|]; cbn [option_map]; auto. destruct IH as [s2 [E2 R2]]. exists s2. split; auto.
    unfold gprint in *. cbn [g_qm gp_qm] in R2.
    replace (expand (c :: l)) with (expand [c] ++ expand l)
      by (unfold expand; cbn [flat_map]; rewrite app_nil_r; reflexivity).
    rewrite qput_all_app. exact R2. }
  intros m. remember (length m) as n eqn:E. revert m E.
  induction n as [n IH] using lt_wf_ind. intros m E g s H. destruct m as [|c m]; cbn [print format]; cbn [length] in E.
  - exists s. split; auto. destruct g; exact H.
  - destruct (c =? 37)%N.
    + destruct m as [|d m]; [reflexivity|]. cbn [length] in E. destruct (d =? 37)%N; [|reflexivity].
      apply (ST 37%N (format m) (print m)); auto. intros g1 s1 R1. eapply IH; [|reflexivity|auto]. lia.
    + apply (ST c (format m) (print m)); auto. intros g1 s1 R1. eapply IH; [|reflexivity|auto]. lia.
Qed.

Lemma hook_lget : forall id g s, RelT g s -> id < 16 ->
  lget UHookType (k_hook s) id = Ok (nth id (g_hook g) HUnset).
Proof.
  intros id g s H Hi. rewrite (rt_hook _ _ H). apply lget_ok. apply nth_error_nth'.
  rewrite (rt_hlen _ _ H). auto.
Qed.

Lemma valid_id : forall id, 0 < id < 16 -> hook_valid_id id = true.
Proof.
  intros. unfold hook_valid_id. change HOOK_NULL with 0. change num_hooks with 16.
  apply andb_true_iff; split; apply Nat.ltb_lt; lia.
Qed.

Lemma ghook_sim : forall id g s, GRel g s -> 0 < id < 16 -> osim GRel (ghook id g) (hook_execute id s).
Proof.
  intros id g s H Hi. unfold hook_execute, ghook. rewrite valid_id by auto.
  rewrite (hook_lget id g s (proj1 H)) by lia. cbn [bind].
  destruct (nth id (g_hook g) HUnset) eqn:E; cbn [osim]; eauto.
  pose proof (gprint_sim m g s H) as X. destruct (format m); cbn [osim]; auto.
Qed.

(** ** Keyboard selection *)
Lemma Forall_upd : forall A (P : A -> Prop) l i x, Forall P l -> P x -> Forall P (upd l i x).
Proof.
  induction l as [|y l IH]; intros i x H Hx; destruct i; cbn; auto; inv H; constructor; auto.
Qed.

Lemma setup_step_sim : forall c g s, RelT g s ->
  exists s', setup_step c s = Ok s' /\ RelT (gsetup_step c g) s' /\ same_scanner s s'.
Proof.
  intros c g s H. pose proof H as H'. rt H. destruct c; cbn [setup_step gsetup_step].
  - unfold add_map. change num_modifiers with 4. change max_rows with 16. change max_cols with 8.
    destruct ((mi <? 4) && (rows <=? 16) && (cols <=? 8)) eqn:E; [|eauto using same_refl].
    rewrite lset_ok by (rewrite T7; lia). cbn [bind]. eexists. split; [reflexivity|].
    split; [|repeat split]. constructor; auto; cbn.
    + congruence.
    + rewrite upd_length. auto.
    + apply Forall_upd; auto. split; cbn; lia.
  - unfold hook_assign, hook_valid_id. change HOOK_NULL with 0. change num_hooks with 16.
    destruct ((0 <? id) && (id <? 16)) eqn:E.
    + rewrite lset_ok by (rewrite T5; lia). cbn [bind]. eexists. split; [reflexivity|].
      split; [|repeat split]. constructor; auto; cbn; [congruence|]. rewrite upd_length; auto.
    + cbn [bind]. eexists. split; [reflexivity|]. split; [|repeat split].
      constructor; auto.
  - destruct (setup_assign vo po fn init s _ T3) as [d (A&B&C)]. rewrite A.
    eexists. split; [reflexivity|]. split; [|repeat split]. constructor; auto. cbn. congruence.
  - eexists. split; [reflexivity|]. split; [|repeat split]. constructor; auto.
  - apply gcaps_sim; auto.
  - eexists. split; [reflexivity|]. split; [|repeat split]. apply T_note; auto.
Qed.

Lemma setup_run_sim : forall cs g s, RelT g s ->
  exists s', setup_run cs s = Ok s' /\ RelT (gsetup cs g) s' /\ same_scanner s s'.
Proof.
  induction cs as [|c cs IH]; intros g s H; cbn [setup_run].
  - eauto using same_refl.
  - destruct (setup_step_sim c g s H) as [s1 (E1&R1&F1)]. rewrite E1. cbn [bind].
    destruct (IH _ _ R1) as [s2 (E2&R2&F2)]. exists s2. split; auto. split; auto.
    eapply same_trans; eauto.
Qed.

Lemma gcaps_same : forall g, gsame g (gtoggle_caps g).
Proof. intros. unfold gtoggle_caps, gact. destruct (spec_action _ _ _). repeat split. Qed.
Lemma gshift_same : forall x g, gsame g (gset_shift x g).
Proof. intros. unfold gset_shift, gact. destruct (spec_action _ _ _). repeat split. Qed.
Lemma gstep_same : forall c g, gsame g (gsetup_step c g).
Proof.
  intros. destruct c; cbn [gsetup_step]; try (repeat split; fail); try apply gcaps_same;
    match goal with |- context [if ?b then _ else _] => destruct b end; repeat split.
Qed.
Lemma gsetup_same : forall cs g, gsame g (gsetup cs g).
Proof.
  induction cs as [|c cs IH]; intros g; [repeat split|].
  eapply gsame_trans; [apply gstep_same|]. exact (IH (gsetup_step c g)).
Qed.

Definition clear_k (i : N) (s : kb) : kb :=
  set_hook hook_init (set_dev (virtual_init (emit EvArchInit (k_dev s)))
     (set_maps (repeat no_map 4) (set_cur i s))).

Lemma clear_sim : forall i g s, RelT g s -> RelT (gclear i g) (clear_k i s).
Proof.
  intros i g s H. rt H. constructor; auto; cbn.
  - apply (RD_init (emit EvArchInit (k_dev s))).
  - congruence.
  - repeat constructor; cbn; lia.
Qed.

Section Sim.
Variable kbs : N -> option (list setup_cmd).

Lemma gswitch_same : forall i g, gsame g (gswitch kbs i g).
Proof.
  intros. unfold gswitch. destruct (kbs i); [|repeat split].
  eapply gsame_trans; [|apply gsetup_same]. repeat split.
Qed.

Lemma gswitch_sim : forall i g s, RelT g s ->
  exists s', c_switch kbs i s = Ok s' /\ RelT (gswitch kbs i g) s' /\ same_scanner s s'.
Proof.
  intros i g s H. unfold c_switch, gswitch. destruct (kbs i) as [cs|]; [|eauto using same_refl].
  rewrite reset_ok by (change (k_maps (emit_kb EvArchInit (set_cur i s))) with (k_maps s);
                       rewrite (rt_maps _ _ H); apply (rt_mlen _ _ H)).
  cbn [bind].
  destruct (setup_run_sim cs _ _ (clear_sim i g s H)) as [s' (E&F&G)].
  exists s'. split; [exact E|]. split; [exact F|]. exact G.
Qed.

Lemma gselect_sim : forall i g s, GRel g s ->
  exists s', c_select kbs i s = Ok s' /\ GRel (gselect kbs i g) s'.
Proof.
  intros i g s [HT HS]. unfold c_select, gselect. rewrite (rt_cur _ _ HT).
  destruct (i =? g_cur g)%N; [exists s; split; [|split]; auto|].
  destruct (gswitch_sim i g s HT) as [s' (E&F&G)]. exists s'. split; auto. split; auto.
  eapply same_S; eauto. apply gswitch_same.
Qed.

(** ** Actions *)
Lemma lift_T : forall g g' s x, GRel g s ->
  (exists s', x = Ok s' /\ RelT g' s' /\ same_scanner s s') -> gsame g g' ->
  osim GRel (Ok g') x.
Proof.
  intros g g' s x [HT HS] [s' (E&F&G)] HG. cbn. exists s'. split; auto. split; auto.
  eapply same_S; eauto.
Qed.

Lemma lor_setbit : forall k n, N.lor k (N.shiftl 1 n) = N.setbit k n.
Proof. intros. unfold N.setbit. reflexivity. Qed.
Lemma ldiff_clearbit : forall k n, N.ldiff k (N.shiftl 1 n) = N.clearbit k n.
Proof. intros. unfold N.clearbit. reflexivity. Qed.

Lemma gaction_on_sim : forall c g s, GRel g s ->
  osim GRel (gaction_on kbs c g) (c_activate_action kbs c s).
Proof.
  intros c g s H. pose proof (proj1 H) as HT. unfold c_activate_action, gaction_on, activate_action.
  destruct (decode c) eqn:D.
  - apply (ghook_sim HOOK_USER_1); auto. unfold HOOK_USER_1. lia.
  - eapply lift_T; [exact H|apply gshift_sim; auto|apply gshift_same].
  - unfold shiftlock_on_activate. rewrite <- (rt_mod _ _ HT).
    eapply lift_T; [exact H|apply (gshift_sim _ g s HT)|apply gshift_same].
  - unfold shiftlock_toggle_activate. rewrite <- (rt_mod _ _ HT).
    eapply lift_T; [exact H|apply (gshift_sim _ g s HT)|apply gshift_same].
  - eapply lift_T; [exact H|apply gcaps_sim; auto|apply gcaps_same].
  - eapply lift_T; [exact H| |repeat split].
    unfold on_md, ctrl_activate. cbn [bind]. eexists. split; [reflexivity|].
    split; [apply gctrl_sim; auto|repeat split].
  - unfold on_rep. rewrite (rs_rep _ _ (proj2 H)). eexists. split; [reflexivity|]. apply G_rep; auto.
  - apply (ghook_sim HOOK_USER_1); auto. unfold HOOK_USER_1. lia.
  - unfold c_select_set. rewrite (rt_cur _ _ HT), lor_setbit.
    apply gselect_sim; auto.
  - unfold on_rep. rewrite (rs_rep _ _ (proj2 H)). eexists. split; [reflexivity|]. apply G_rep; auto.
  - eexists. split; [reflexivity|]. apply G_note; auto.
  - apply decode_vled in D. replace (VLED1 + n - 1) with (6 + n) by (unfold VLED1; lia).
    eapply lift_T; [exact H|apply gactivate_sim; auto; lia|apply gact_same].
  - apply decode_vout in D. replace (VOUT1 + n - 1) with n by (unfold VOUT1; lia).
    eapply lift_T; [exact H|apply gactivate_sim; auto; lia|apply gact_same].
  - apply decode_fn in D. destruct (Nat.leb_spec n 10); [|cbn; eauto].
    replace (HOOK_USER_1 + n - 1) with (4 + n) by (unfold HOOK_USER_1; lia).
    apply ghook_sim; auto. lia.
  - cbn. eauto.
Qed.

Lemma gaction_off_sim : forall c g s, GRel g s ->
  osim GRel (Ok (gaction_off kbs c g)) (c_deactivate_action kbs c s).
Proof.
  intros c g s H. pose proof (proj1 H) as HT. unfold c_deactivate_action, gaction_off, deactivate_action.
  destruct (decode c) eqn:D; try (eexists; split; [reflexivity|]; exact H).
  - eapply lift_T; [exact H|apply gshift_sim; auto|apply gshift_same].
  - eapply lift_T; [exact H| |repeat split].
    unfold on_md, ctrl_deactivate. cbn [bind]. eexists. split; [reflexivity|].
    split; [apply gctrl_sim; auto|repeat split].
  - unfold on_rep. rewrite (rs_rep _ _ (proj2 H)). eexists. split; [reflexivity|]. apply G_rep; auto.
  - unfold c_select_clear. rewrite (rt_cur _ _ HT), ldiff_clearbit. apply gselect_sim; auto.
  - unfold on_rep. rewrite (rs_rep _ _ (proj2 H)). eexists. split; [reflexivity|]. apply G_rep; auto.
  - eexists. split; [reflexivity|]. apply G_note; auto.
Qed.

(** ** Keys *)
Lemma gpress_sim : forall c g s, GRel g s -> osim GRel (gpress kbs c g) (c_activate_key kbs c s).
Proof.
  intros c g s H. unfold c_activate_key, gpress, ASDF_ACTION.
  destruct (0xA0 <? c)%N; [apply gaction_on_sim; auto|].
  pose proof (proj2 H) as HS. unfold put_code. rewrite (rs_hkey _ _ HS).
  destruct (put_key c _ _ _ (rs_buf _ _ HS)) as [b [E F]]. rewrite E. cbn [bind].
  change (k_last (set_buf b s)) with (k_last s). rewrite (rs_last _ _ HS).
  assert (R1 : GRel (gp_qk (qput 16 c (g_qk g)) g) (set_buf b s)) by (apply G_qk; auto).
  cbn [osim]. destruct (g_last g =? c)%N; [eauto|].
  unfold on_rep. eexists. split; [reflexivity|].
  cbn [g_rep gp_qk k_rep set_last set_buf]. rewrite (rs_rep _ _ HS).
  apply G_rep. apply G_last. auto.
Qed.

Lemma grelease_sim : forall c g s, GRel g s ->
  osim GRel (Ok (grelease kbs c g)) (c_deactivate_key kbs c s).
Proof.
  intros c g s H. unfold c_deactivate_key, grelease, ASDF_ACTION.
  destruct (0xA0 <? c)%N; [apply gaction_off_sim; auto|].
  rewrite (rs_last _ _ (proj2 H)). destruct (g_last g =? c)%N; cbn [osim]; eauto.
  eexists. split; [reflexivity|]. apply G_last; auto.
Qed.

Lemma gmap_lget : forall g s m, RelT g s -> m < 4 ->
  lget UKeymapsOob (k_maps s) m = Ok (nth m (g_maps g) no_map).
Proof.
  intros g s m H Hm. rewrite (rt_maps _ _ H). apply lget_ok. apply nth_error_nth'.
  rewrite (rt_mlen _ _ H). auto.
Qed.

Lemma glookup_sim : forall r c g s, RelT g s -> lookup_keycode r c s = gcode r c g.
Proof.
  intros r c g s H. unfold lookup_keycode, get_code, gcode.
  rewrite (rt_mod _ _ H), map_now_ok. cbn [bind]. rewrite (rt_cur _ _ H).
  rewrite (gmap_lget g s (map_now (g_mod g)) H (map_now_lt _)).
  rewrite (rt_maps _ _ H). unfold lget at 1.
  destruct (nth_error (g_maps g) (N.to_nat (g_cur g))) as [km|]; [|reflexivity]. cbn [bind].
  destruct (km_cols km =? 0), (km_rows km =? 0); reflexivity.
Qed.

Lemma glookup_osim : forall r c g s, RelT g s ->
  osim (fun x y => x = y) (gcode r c g) (lookup_keycode r c s).
Proof. intros. rewrite (glookup_sim r c g s H). destruct (gcode r c g); cbn; eauto. Qed.

Lemma gheld_sim : forall r c g s, GRel g s ->
  osim GRel (code <- gcode r c g ;; gheld kbs code g) (c_handle_held kbs r c s).
Proof.
  intros r c g s H. unfold c_handle_held, gheld. rewrite (glookup_sim r c g s (proj1 H)).
  destruct (gcode r c g) as [code|u]; cbn [bind]; [|reflexivity].
  rewrite (rs_last _ _ (proj2 H)), (rs_rep _ _ (proj2 H)).
  destruct (N.eqb_spec code (g_last g)); [|cbn; eauto].
  destruct (repeat_tick (g_rep g)) as [due rp].
  assert (R1 : GRel (gp_rep rp g) (set_rep rp s)) by (apply G_rep; auto).
  destruct due; [|cbn; eauto].
  change (k_last (set_rep rp s)) with (k_last s). rewrite (rs_last _ _ (proj2 H)), <- e.
  apply gpress_sim; auto.
Qed.

Lemma G_ct : forall g s r c v, GRel g s -> r < 16 -> c < 8 -> (1 <= v <= 10)%N ->
  GRel (gp_ct (set2 (g_ct g) r c v) g) (set_cnt (upd (k_cnt s) (r * 8 + c) v) s).
Proof.
  intros g s r c v [HT HS] Hr Hc Hv. split; [rt HT; constructor; auto|]. rs HS. constructor; auto.
  - cbn. rewrite upd_length; auto.
  - cbn. intros r' c' v' Hc' E. rewrite nth_error_upd in E. unfold set2.
    destruct (Nat.eqb_spec (r * 8 + c) (r' * 8 + c')) as [e|n]; cbn [andb] in E.
    + assert (r' = r /\ c' = c) as [-> ->] by lia. rewrite !Nat.eqb_refl. cbn.
      rewrite (proj2 (Nat.ltb_lt _ _)) in E by lia. inv E. auto.
    + replace ((r' =? r) && (c' =? c)) with false by lia. apply S4; auto.
Qed.

Lemma G_dn : forall g s r c now b, GRel g s -> r < 16 -> c < 8 ->
  nth_error (k_stable s) r = Some b ->
  GRel (gp_dn (set2 (g_dn g) r c now) g)
      (set_stable (upd (k_stable s) r
         (if (now : bool) then N.lor b (N.shiftl 1 (N.of_nat c)) else N.ldiff b (N.shiftl 1 (N.of_nat c)))) s).
Proof.
  intros g s r c now b [HT HS] Hr Hc E. split; [rt HT; constructor; auto|]. rs HS.
  destruct (S2 _ _ E) as [B1 B2].
  destruct (bits_set b r c (g_dn g) B1 Hc B2 now) as [B3 B4].
  constructor; auto.
  - cbn. rewrite upd_length; auto.
  - cbn. intros r' b' E'. rewrite nth_error_upd in E'.
    destruct (Nat.eqb_spec r r').
    + subst r'. rewrite (proj2 (Nat.ltb_lt _ _)) in E' by lia. cbn [andb] in E'. inv E'. auto.
    + cbn [andb] in E'. destruct (S2 _ _ E') as [A1 A2]. split; auto.
      intros k Hk. rewrite A2 by auto. unfold set2.
      replace (r' =? r) with false by lia. reflexivity.
Qed.

Definition c_one_key (r c : nat) (now was : bool) (s : kb) : outcome kb :=
  if xorb now was then c_handle_change kbs r c now s
  else if now then c_handle_held kbs r c s else Ok s.

Lemma gchange_sim : forall now r c g s, GRel g s -> r < 16 -> c < 8 ->
  osim GRel
   (if (g_ct g r c =? 1)%N then
      let g1 := gp_dn (set2 (g_dn g) r c now) (gp_ct (set2 (g_ct g) r c 10%N) g) in
      code <- gcode r c g1 ;; if now then gpress kbs code g1 else Ok (grelease kbs code g1)
    else Ok (gp_ct (set2 (g_ct g) r c (g_ct g r c - 1)%N) g))
   (c_handle_change kbs r c now s).
Proof.
  intros now r c g s H Hr Hc.
  assert (HL : r * 8 + c < length (k_cnt s)) by (rewrite (rs_cntlen _ _ (proj2 H)); lia).
  destruct (nth_error_ex _ _ _ HL) as [v EV]. destruct (rs_cnt _ _ (proj2 H) r c v Hc EV) as [EQ BV].
  unfold c_handle_change, cnt_get, cnt_set. change max_cols with 8.
  rewrite (proj2 (Nat.ltb_lt _ _) Hc). rewrite (proj2 (lget_ok _ _ _ _ _) EV). cbn [bind].
  rewrite lset_ok by auto. cbn [bind].
  assert (EU : u8 (v + 255) = (v - 1)%N).
  { unfold u8. replace (v + 255)%N with ((v - 1) + 1 * 256)%N by lia.
    rewrite N.mod_add by lia. apply N.mod_small. lia. }
  rewrite EU. rewrite <- EQ.
  destruct (N.eqb_spec v 1).
  - replace (v - 1 =? 0)%N with true by lia.
    cbn [k_cnt set_cnt]. rewrite lset_ok by (rewrite upd_length; auto). cbn [bind].
    rewrite upd_upd. fold (set_cnt (upd (k_cnt s) (r * 8 + c) DEBOUNCE) s).
    set (s1 := set_cnt _ _) at 1.
    assert (E1 : s1 = set_cnt (upd (k_cnt s) (r * 8 + c) 10%N) s) by reflexivity.
    assert (R1 : GRel (gp_ct (set2 (g_ct g) r c 10%N) g) s1).
    { rewrite E1. apply G_ct; auto; lia. }
    change (k_stable (set_cnt (upd (k_cnt s) (r * 8 + c) DEBOUNCE) s)) with (k_stable s1).
    assert (HS : r < length (k_stable s1)) by (rewrite (rs_stlen _ _ (proj2 R1)); lia).
    destruct (nth_error_ex _ _ _ HS) as [b EB].
    rewrite (proj2 (lget_ok _ _ _ _ _) EB). cbn [bind].
    pose proof (G_dn _ _ r c now b R1 ltac:(lia) Hc EB) as R2.
    destruct now; rewrite lset_ok by auto; cbn [bind]; cbv zeta.
    + eapply osim_bind; [apply (glookup_osim r c _ _ (proj1 R2))|].
      intros x y <-. apply gpress_sim. exact R2.
    + eapply osim_bind; [apply (glookup_osim r c _ _ (proj1 R2))|].
      intros x y <-. apply grelease_sim. exact R2.
  - replace (v - 1 =? 0)%N with false by lia. cbn [osim].
    eexists. split; [reflexivity|]. apply G_ct; auto; lia.
Qed.

Lemma gkey_sim : forall rd r c g s, GRel g s -> r < 16 -> c < 8 ->
  osim GRel (gkey kbs rd r c g) (c_one_key r c (reading rd r c) (g_dn g r c) s).
Proof.
  intros rd r c g s H Hr Hc. unfold gkey, c_one_key. set (now := reading rd r c). clearbody now.
  replace (xorb now (g_dn g r c)) with (negb (Bool.eqb now (g_dn g r c)))
    by (destruct now, (g_dn g r c); reflexivity).
  destruct (Bool.eqb now (g_dn g r c)); cbn [negb].
  - destruct now; [apply gheld_sim; auto|cbn; eauto].
  - apply gchange_sim; auto.
Qed.

(** Only the key itself changes its accepted state and its count. *)
Definition gdeb (g g' : gkb) : Prop := g_dn g' = g_dn g /\ g_ct g' = g_ct g.
Lemma same_deb : forall g g', gsame g g' -> gdeb g g'.
Proof. intros g g' (A&B&_). split; auto. Qed.

Lemma ghook_deb : forall id g g', ghook id g = Ok g' -> gdeb g g'.
Proof.
  intros id g g' H. unfold ghook in H. destruct (nth id (g_hook g) HUnset) as [| | | | |m]; try destruct (format m); inv H; split; auto.
Qed.
Lemma gselect_deb : forall i g, gdeb g (gselect kbs i g).
Proof.
  intros. unfold gselect. destruct (i =? g_cur g)%N; [split; auto|]. apply same_deb, gswitch_same.
Qed.
Lemma gon_deb : forall c g g', gaction_on kbs c g = Ok g' -> gdeb g g'.
Proof.
  intros c g g' H. unfold gaction_on in H. destruct (decode c);
    try (eapply ghook_deb; eassumption);
    try (inv H; first [split; reflexivity | apply same_deb, gshift_same | apply same_deb, gcaps_same
                      | apply same_deb, gact_same | apply gselect_deb]).
  destruct (n <=? 10); [eapply ghook_deb; eassumption|inv H; split; auto].
Qed.
Lemma goff_deb : forall c g, gdeb g (gaction_off kbs c g).
Proof.
  intros c g. unfold gaction_off. destruct (decode c);
    first [split; reflexivity | apply same_deb, gshift_same | apply gselect_deb].
Qed.
Lemma gpress_deb : forall c g g', gpress kbs c g = Ok g' -> gdeb g g'.
Proof.
  intros c g g' H. unfold gpress in H. destruct (0xA0 <? c)%N; [eapply gon_deb; eauto|].
  destruct (g_last g =? c)%N; inv H; split; auto.
Qed.
Lemma grelease_deb : forall c g, gdeb g (grelease kbs c g).
Proof.
  intros c g. unfold grelease. destruct (0xA0 <? c)%N; [apply goff_deb|].
  destruct (g_last g =? c)%N; split; auto.
Qed.
Lemma gheld_deb : forall c g g', gheld kbs c g = Ok g' -> gdeb g g'.
Proof.
  intros c g g' H. unfold gheld in H. destruct (c =? g_last g)%N; [|inv H; split; auto].
  destruct (repeat_tick (g_rep g)) as [[] q]; [|inv H; split; auto].
  apply gpress_deb in H. exact H.
Qed.

Lemma bind_Ok_inv : forall A B (x : outcome A) (f : A -> outcome B) b,
  bind x f = Ok b -> exists a, x = Ok a /\ f a = Ok b.
Proof. intros. destruct x; cbn in H; eauto. discriminate. Qed.

Lemma gkey_frame : forall rd r c g g' r' c', gkey kbs rd r c g = Ok g' ->
  (r' <> r \/ c' <> c) -> g_dn g' r' c' = g_dn g r' c' /\ g_ct g' r' c' = g_ct g r' c'.
Proof.
  intros rd r c g g' r' c' H HN.
  assert (X : (r' =? r) && (c' =? c) = false) by (destruct HN; lia).
  unfold gkey in H. destruct (Bool.eqb _ _).
  - destruct (reading rd r c); [|inv H; auto].
    apply bind_Ok_inv in H. destruct H as [code [_ H]]. apply gheld_deb in H. destruct H as [-> ->]; auto.
  - destruct (g_ct g r c =? 1)%N.
    + cbv zeta in H. apply bind_Ok_inv in H. destruct H as [code [_ H]].
      destruct (reading rd r c).
      * apply gpress_deb in H. destruct H as [-> ->]. cbn. unfold set2. rewrite X. auto.
      * inv H. match goal with |- context [grelease kbs ?x ?y] => destruct (grelease_deb x y) as [-> ->] end.
        cbn. unfold set2. rewrite X. auto.
    + inv H. cbn. unfold set2. rewrite X. auto.
Qed.

(** ** Rows *)
Lemma gnum : forall g s, RelT g s -> num_cols s = Ok (g_cols g) /\ num_rows s = Ok (g_rows g).
Proof.
  intros g s H. unfold num_cols, num_rows, active_map. rewrite (rt_mod _ _ H), map_now_ok. cbn [bind].
  rewrite (gmap_lget g s _ H (map_now_lt _)). split; reflexivity.
Qed.

Lemma g_small : forall g s, RelT g s -> g_cols g <= 8 /\ g_rows g <= 16.
Proof.
  intros g s H. unfold g_cols, g_rows.
  assert (X : In (nth (map_now (g_mod g)) (g_maps g) no_map) (g_maps g)).
  { apply nth_In. rewrite (rt_mlen _ _ H). apply map_now_lt. }
  pose proof (proj1 (Forall_forall _ _) (rt_small _ _ H) _ X) as [A B]. auto.
Qed.

Lemma gcols_sim : forall n col rd r g s st fuel, GRel g s -> r < 16 ->
  n + col = 8 -> n < fuel ->
  (forall k, col <= k < 8 -> N.testbit st (N.of_nat k) = g_dn g r k) ->
  osim GRel (gcols kbs n rd r col g)
    (c_cols_loop kbs fuel r col (N.shiftr (u8 (rd r)) (N.of_nat col))
       (N.shiftr (N.lxor (u8 (rd r)) st) (N.of_nat col)) s).
Proof.
  induction n as [|n IH]; intros col rd r g s st fuel H Hr HN HF HST.
  - destruct fuel; [lia|]. cbn [c_cols_loop]. rewrite (proj1 (gnum _ _ (proj1 H))). cbn [bind].
    pose proof (g_small _ _ (proj1 H)) as [B1 B2].
    replace (col <? g_cols g) with false by lia. cbn [gcols osim]. eauto.
  - destruct fuel; [lia|]. cbn [c_cols_loop]. rewrite (proj1 (gnum _ _ (proj1 H))). cbn [bind gcols].
    destruct (Nat.ltb_spec col (g_cols g)); [|cbn; eauto].
    rewrite !div2_shiftr, !odd_shiftr.
    assert (K := gkey_sim rd r col g s H Hr ltac:(lia)). unfold c_one_key in K.
    replace (N.testbit (u8 (rd r)) (N.of_nat col)) with (reading rd r col)
      by (unfold reading; rewrite u8_bit by lia; auto).
    replace (N.testbit (N.lxor (u8 (rd r)) st) (N.of_nat col))
      with (xorb (reading rd r col) (g_dn g r col)).
    2:{ rewrite N.lxor_spec, u8_bit by lia. rewrite HST by lia. reflexivity. }
    destruct (gkey kbs rd r col g) as [g1|u] eqn:EK; cbn [osim bind] in *.
    + destruct K as [s1 [E1 R1]]. rewrite E1. cbn [bind].
      apply IH; auto; try lia.
      intros k Hk. rewrite HST by lia. symmetry.
      eapply (gkey_frame rd r col g g1 r k EK). lia.
    + rewrite K. reflexivity.
Qed.

Lemma grow_sim : forall rd r g s, GRel g s -> r < 16 ->
  osim GRel (gcols kbs 8 rd r 0 g)
    (st <- lget UScanOob (k_stable s) r ;; c_cols_loop kbs 256 r 0 (u8 (rd r)) (N.lxor (u8 (rd r)) st) s).
Proof.
  intros rd r g s H Hr.
  assert (HS : r < length (k_stable s)) by (rewrite (rs_stlen _ _ (proj2 H)); lia).
  destruct (nth_error_ex _ _ _ HS) as [b EB].
  rewrite (proj2 (lget_ok _ _ _ _ _) EB). cbn [bind].
  assert (X := gcols_sim 8 0 rd r g s b 256 H Hr eq_refl ltac:(apply Nat.ltb_lt; reflexivity)).
  change (N.of_nat 0) with 0%N in X. rewrite !N.shiftr_0_r in X. apply X.
  intros k Hk. apply (rs_stable _ _ (proj2 H) _ _ EB). lia.
Qed.

Lemma c_rows_step : forall f rd row s,
  c_rows_loop kbs (S f) rd row s =
  (nr <- num_rows s ;;
   if row <? nr then
     s1 <- (st <- lget UScanOob (k_stable s) row ;;
            c_cols_loop kbs 256 row 0 (u8 (rd row)) (N.lxor (u8 (rd row)) st) s) ;;
     c_rows_loop kbs f rd (S row) s1
   else Ok s).
Proof.
  intros. cbn [c_rows_loop]. destruct (num_rows s); cbn [bind]; [|reflexivity].
  destruct (row <? a); [|reflexivity].
  destruct (lget UScanOob (k_stable s) row); reflexivity.
Qed.

Lemma grows_sim : forall n row fuel rd g s, GRel g s -> n + row = 16 -> n < fuel ->
  osim GRel (grows kbs n rd row g) (c_rows_loop kbs fuel rd row s).
Proof.
  induction n as [|n IH]; intros row fuel rd g s H HN HF; (destruct fuel; [lia|]); rewrite c_rows_step;
    rewrite (proj2 (gnum _ _ (proj1 H))); cbn [bind].
  - pose proof (g_small _ _ (proj1 H)) as [B1 B2].
    replace (row <? g_rows g) with false by lia. cbn. eauto.
  - cbn [grows]. destruct (Nat.ltb_spec row (g_rows g)); [|cbn; eauto].
    assert (HQ : row < 16) by lia.
    eapply osim_bind; [apply (grow_sim rd row g s H HQ)|].
    intros g1 s1 R1. apply IH; auto; lia.
Qed.

(** ** Scan, tick, run *)
Lemma gscan_sim : forall rd g s, GRel g s -> osim GRel (gscan kbs rd g) (c_keyscan kbs rd s).
Proof.
  intros rd g s H. unfold c_keyscan, gscan, hook_get. rewrite valid_id by (unfold HOOK_ROW_SCANNER; lia).
  rewrite (hook_lget _ g s (proj1 H)) by (unfold HOOK_ROW_SCANNER; lia). cbn [bind].
  destruct (nth HOOK_ROW_SCANNER (g_hook g) HUnset); try reflexivity.
  eapply osim_bind; [apply ghook_sim; auto; unfold HOOK_EACH_SCAN; lia|].
  intros g1 s1 R1. apply grows_sim; auto. apply Nat.ltb_lt. reflexivity.
Qed.

Lemma gemit_sim : forall c g s, GRel g s ->
  osim GRel (gemit c g) (if (c <? INVALID)%N then output c s else Ok s).
Proof.
  intros c g s H. unfold gemit, INVALID, output. destruct (c <? 0xA0)%N; [|cbn; eauto].
  unfold hook_get. rewrite valid_id by (unfold HOOK_OUTPUT; lia).
  rewrite (hook_lget _ g s (proj1 H)) by (unfold HOOK_OUTPUT; lia). cbn [bind].
  destruct (nth HOOK_OUTPUT (g_hook g) HUnset); try reflexivity.
  cbn [osim]. eexists. split; [reflexivity|]. apply G_note; auto.
Qed.

Lemma gsend_sim : forall g s, GRel g s ->
  osim GRel (gsend g) ('(code, s1) <- next_code s ;;
              if (code <? INVALID)%N then output code s1 else Ok s1).
Proof.
  intros g s H. pose proof (proj2 H) as HS. unfold next_code, gsend.
  rewrite (rs_hmsg _ _ HS), (rs_hkey _ _ HS), (rt_delay _ _ (proj1 H)).
  destruct (get_msg _ _ _ (rs_buf _ _ HS)) as [b [E F]]. rewrite E. cbn [bind]. cbv zeta.
  change INVALID with 0xA0%N in *.
  destruct (hd 0xA0 (g_qm g) =? 0xA0)%N.
  - destruct (get_key _ _ _ F) as [b2 [E2 F2]]. rewrite E2. cbn [bind].
    apply (gemit_sim _ (gp_qk (tl (g_qk g)) (gp_qm (tl (g_qm g)) g)) (set_buf b2 s)).
    apply (G_qk (gp_qm (tl (g_qm g)) g) (set_buf b s) b2); [|exact F2].
    apply G_qm; auto.
  - cbn [bind]. apply gemit_sim. apply G_note. apply G_qm; auto.
Qed.

Lemma gtick_sim : forall rd g s, GRel g s -> osim GRel (gtick kbs rd g) (c_tick kbs rd s).
Proof.
  intros rd g s H. unfold c_tick, gtick. pose proof (gsend_sim g s H) as X.
  destruct (next_code s) as [[code s1]|u]; cbn [bind] in *.
  - eapply osim_bind; [exact X|]. intros g1 s2 R1. apply gscan_sim; auto.
  - destruct (gsend g) as [g1|u1]; cbn [osim bind] in *.
    + destruct X as [b [X _]]. discriminate.
    + congruence.
Qed.

Lemma gticks_sim : forall rds g s, GRel g s -> osim GRel (gticks kbs rds g) (c_ticks kbs rds s).
Proof.
  induction rds as [|rd rds IH]; intros g s H; cbn [gticks c_ticks].
  - cbn. eauto.
  - eapply osim_bind; [apply gtick_sim; eauto|]. intros. apply IH; auto.
Qed.

End Sim.

(** ** Initialisation *)

(** The tables before the first setup; only keymaps and outputs matter, and
    both are cleared by it. *)
Lemma first_switch : forall cs kbs s i, kbs i = Some cs -> length (k_maps s) = 4 ->
  k_mod s = mods_zero -> k_delay s = 0%N -> log (k_dev s) = [] ->
  exists s', c_switch kbs i s = Ok s' /\ RelT (gswitch kbs i gzero) s' /\ same_scanner s s'.
Proof.
  intros cs kbs s i HK HM H1 H2 H3. unfold c_switch, gswitch. rewrite HK.
  rewrite reset_ok by exact HM. cbn [bind].
  assert (R0 : RelT (gclear i gzero) (clear_k i s)).
  { constructor; auto; cbn.
    - apply (RD_init (emit EvArchInit (k_dev s))).
    - congruence.
    - repeat constructor; cbn; lia. }
  destruct (setup_run_sim cs _ _ R0) as [s' (E&F&G)].
  exists s'. split; [exact E|]. split; [exact F|]. exact G.
Qed.

Lemma gboot_sim : forall kbs cs, kbs 0%N = Some cs ->
  exists s, c_init kbs kb_zero = Ok s /\ GRel (gboot kbs) s.
Proof.
  intros kbs cs HK. unfold c_init. cbn [bind on_rep]. cbv zeta.
  set (s3 := set_rep _ _).
  destruct (first_switch cs kbs s3 0 HK eq_refl eq_refl eq_refl eq_refl) as [s4 (E4&F4&G4)].
  rewrite E4. cbn [bind].
  destruct G4 as (B1&B2&B3&B4&B5&B6&B7).
  assert (HB : k_buf s4 = buffer_init bufs_zero) by (rewrite B6; reflexivity). rewrite HB.
  assert (HW : wf_storage bufs_zero) by (split; reflexivity).
  assert (R0 := R_init _ HW).
  destruct (step_refines (BNew 16) _ _ R0 ltac:(cbn; lia)) as [b1 [E1 R1]].
  cbn [buf_step] in E1. apply bind_ok in E1. destruct E1 as [[h1 b1'] [E1 E1']].
  cbn in E1'. inv E1'. rewrite E1. cbn [bind].
  destruct (step_refines (BNew 128) _ _ R1 ltac:(cbn; lia)) as [b2 [E2 R2]].
  cbn [buf_step] in E2. apply bind_ok in E2. destruct E2 as [[h2 b2'] [E2 E2']].
  cbn in E2'. inv E2'. rewrite E2. cbn [bind].
  eexists. split; [reflexivity|]. cbn in R2.
  assert (GS := gswitch_same kbs 0 gzero). destruct GS as (A1&A2&A3&A4&A5&A6).
  fold (gboot kbs) in *. split.
  - rt F4. constructor; auto.
  - constructor; cbn [k_stable k_cnt k_last k_hkey k_hmsg k_delay k_buf k_rep k_mod k_dev k_hook k_maps k_cur
     set_cnt set_stable set_handles set_buf]; rewrite ?A1, ?A2, ?A3, ?A4, ?A5, ?A6; auto.
    + intros r b E. apply (nth_error_repeat_inv _ 0%N b 16 r) in E. subst b. split; [lia|].
      intros. apply N.bits_0.
    + intros r c v Hc E. apply nth_error_repeat_inv in E. subst v. cbn. unfold DEBOUNCE. lia.
Qed.

Theorem grun_sim : forall kbs cs rds, kbs 0%N = Some cs ->
  osim GRel (grun kbs rds) (c_run kbs rds).
Proof.
  intros kbs cs rds HK. unfold grun, c_run. destruct (gboot_sim kbs cs HK) as [s [E F]].
  rewrite E. cbn [bind]. apply gticks_sim; auto.
Qed.
