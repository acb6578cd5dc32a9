(** What a client of the firmware's public functions sees, on the abstract
    machine of CustomSpec.v, and the proof that the functions do just that. *)
From Coq Require Import List NArith ZArith Arith Bool Lia.
From Coq Require Import ZifyBool ZifyNat ZifyN.
From Verif Require Import Base Lib Buffer BufferSpec BufferProofs Repeat Devices DevSpec DevProofs
     Modifiers Hook Asdf KeySpec KeyRef Custom CustomSpec CustomRef Client.
Import ListNotations.
Local Open Scope outcome_scope.

(** ** Specification *)

(** A level on one output line: recorded, and driven. *)
Definition gline (p : nat) (v : N) (g : gkb) : outcome gkb :=
  if p <? 13
  then Ok (gnote (EvOut p v) (gp_vs (mkVspec (own (g_vs g)) (fn (g_vs g)) (set_at (lev (g_vs g)) p v)) g))
  else Bad UDevOob.

(** Action [f] on virtual output [v], one of twelve. *)
Definition gvirtual (v : nat) (f : vfun) (g : gkb) : outcome gkb :=
  if v <? 12 then Ok (gact f v g) else Bad UDevOob.

(** CAPS lock off, with its lamp. *)
Definition gcaps_off (g : gkb) : gkb :=
  let g1 := gact V_SET_LO VCAPS_LED g in
  gp_mod (mkMods (m_shift (g_mod g1)) 0 (m_ctrl (g_mod g1))) g1.

(** The code of a key in table [mi]. *)
Definition gcode_in (r c mi : nat) (g : gkb) : outcome N :=
  match nth_error (g_maps g) (N.to_nat (g_cur g)) with
  | None => Bad UKeymapsOob
  | Some km =>
      if (km_cols km =? 0) || (km_rows km =? 0) then Ok 0%N
      else match nth_error (g_maps g) mi with
           | None => Bad UKeymapsOob
           | Some t => match km_matrix t with None => Bad UMatrixNull | Some m => lget UMatrixOob m (r * km_cols km + c) end
           end
  end.

Definition ghook_of (id : nat) (g : gkb) : hookfn :=
  if (0 <? id) && (id <? 16) then nth id (g_hook g) HUnset else HNull.

(** Each of the two queues by its handle. *)
Definition gqueue (h : Z) (g : gkb) : list N :=
  if (h =? 0)%Z then g_qk g else if (h =? 1)%Z then g_qm g else [].
Definition gqput (h : Z) (c : N) (g : gkb) : gkb :=
  if (h =? 0)%Z then gp_qk (qput 16 c (g_qk g)) g
  else if (h =? 1)%Z then gp_qm (qput 128 c (g_qm g)) g else g.
Definition gqpop (h : Z) (g : gkb) : gkb :=
  if (h =? 0)%Z then gp_qk (tl (g_qk g)) g
  else if (h =? 1)%Z then gp_qm (tl (g_qm g)) g else g.

Definition silent (x : outcome gkb) : outcome (ret * gkb) := g <- x ;; Ok (Void, g).

Section Spec.
Variable kbs : N -> option (list setup_cmd).

(** Initialised again: modifiers and message delay survive. *)
Definition ginit (g : gkb) : gkb :=
  gswitch kbs 0 (mkG (fun _ _ => false) (fun _ _ => 10%N) 0xA0 [] [] (repeat_init (g_rep g)) (g_mod g) (g_vs g)
                     (g_log g) (g_cur g) (g_maps g) (g_hook g) (g_delay g)).

Definition g_call (k : call) (g : gkb) : outcome (ret * gkb) :=
  match k with
  | KInit => Ok (Void, ginit g)
  | KScan rd => silent (gscan kbs rd g)
  | KPutCode c => Ok (Void, gp_qk (qput 16 c (g_qk g)) g)
  | KPutc c => Ok (Num (Z.of_N c), gp_qm (qput_all 128 (expand [c]) (g_qm g)) g)
  | KNextCode =>
      let m := hd 0xA0%N (g_qm g) in
      let g1 := gp_qm (tl (g_qm g)) g in
      if (m =? 0xA0)%N then Ok (Num (Z.of_N (hd 0xA0%N (g_qk g))), gp_qk (tl (g_qk g)) g1)
      else Ok (Num (Z.of_N m), gnote (EvDelayMs (g_delay g)) g1)
  | KDelay ms => Ok (Void, gp_delay (u8 ms) g)
  | KAddMap m mi r c =>
      Ok (Void, if (mi <? 4) && (r <=? 16) && (c <=? 8) then gp_maps (upd (g_maps g) mi (mkKmap m r c)) g else g)
  | KRows => Ok (Num (Z.of_nat (g_rows g)), g)
  | KCols => Ok (Num (Z.of_nat (g_cols g)), g)
  | KSelect i => Ok (Void, gselect kbs (u8 i) g)
  | KSelectSet n => Ok (Void, gselect kbs (u8 (N.setbit (g_cur g) n)) g)
  | KSelectClear n => Ok (Void, gselect kbs (u8 (N.clearbit (g_cur g) n)) g)
  | KKeymapsInit => Ok (Void, gswitch kbs 0 g)
  | KGetCode r c mi => x <- gcode_in r c mi g ;; Ok (Num (Z.of_N x), g)
  | KShift => Ok (Void, gset_shift 1 g)
  | KShiftlockOn => Ok (Void, gset_shift (N.lor (m_shift (g_mod g)) 2) g)
  | KShiftlockToggle => Ok (Void, gset_shift (N.lxor (m_shift (g_mod g)) 2) g)
  | KCapslock => Ok (Void, gtoggle_caps g)
  | KCtrl => Ok (Void, gset_ctrl 1 g)
  | KShiftOff => Ok (Void, gset_shift 0 g)
  | KCtrlOff => Ok (Void, gset_ctrl 0 g)
  | KModifiersInit => Ok (Void, gset_ctrl 0 (gcaps_off (gset_shift 0 g)))
  | KModifierIndex => Ok (Num (Z.of_nat (map_now (g_mod g))), g)
  | KRepeatInit => Ok (Void, gp_rep (repeat_init (g_rep g)) g)
  | KRepeatReset => Ok (Void, gp_rep (repeat_reset_count (g_rep g)) g)
  | KAutoOff => Ok (Void, gp_rep (repeat_auto_off (g_rep g)) g)
  | KAutoOn => Ok (Void, gp_rep (repeat_auto_on (g_rep g)) g)
  | KRepeatOn => Ok (Void, gp_rep (repeat_activate (g_rep g)) g)
  | KRepeatOff => Ok (Void, gp_rep (repeat_deactivate (g_rep g)) g)
  | KRepeat => let '(due, r) := repeat_tick (g_rep g) in Ok (Num (if (due : bool) then 1 else 0), gp_rep r g)
  | KBufNew _ => Ok (Num (-1), g)
  | KBufPut h c => Ok (Void, gqput h c g)
  | KBufGet h => Ok (Num (Z.of_N (hd 0xA0%N (gqueue h g))), gqpop h g)
  | KAction v f => silent (gvirtual v f g)
  | KActivate v => silent (gvirtual v (fn (g_vs g) v) g)
  | KAssign v p f i => Ok (Void, gp_vs (fst (vspec_step (VAssign v p f i) (g_vs g))) g)
  | KVirtualInit => Ok (Void, gp_vs spec_zero g)
  | KSync => Ok (Void, gp_log (rev (map (fun p => EvOut p (lev (g_vs g) p)) (seq 0 13)) ++ g_log g) g)
  | KSet p v => silent (gline p v g)
  | KOn p => silent (gline p 1 g)
  | KOff p => silent (gline p 0 g)
  | KAssert p => if p <? 13 then Ok (Void, gnote (EvOut p (lev (g_vs g) p)) g) else Bad UDevOob
  | KToggle p => silent (gline p (opposite (lev (g_vs g) p)) g)
  | KHook rd id =>
      match ghook_of id g with
      | HKeyscan => silent (gscan kbs rd g)
      | _ => if (0 <? id) && (id <? 16) then silent (ghook id g) else Ok (Void, g)
      end
  | KHookGet id => Ok (Fn (ghook_of id g), g)
  | KHookAssign id f => Ok (Void, if (0 <? id) && (id <? 16) then gp_hook (upd (g_hook g) id f) g else g)
  | KHookInit => Ok (Void, gp_hook hook_init g)
  | KPrint m => match format m with Some l => Ok (Void, gprint l g) | None => Bad UFormat end
  end.

Fixpoint g_calls (ks : list call) (g : gkb) : outcome (list ret * gkb) :=
  match ks with
  | [] => Ok ([], g)
  | k :: t => '(r, g1) <- g_call k g ;; '(rs, g2) <- g_calls t g1 ;; Ok (r :: rs, g2)
  end.

Definition gclient (ks : list call) : outcome (list ret * gkb) := g_calls ks (gboot kbs).

End Spec.

(** Requests for a further buffer ask for room. *)
Definition proper (k : call) : Prop := match k with KBufNew n => (0 < n)%Z | _ => True end.

(** ** Proof *)
Definition RelR {A} (x : A * gkb) (y : A * kb) : Prop := fst x = fst y /\ GRel (snd x) (snd y).

Lemma sim_quiet : forall x y, osim GRel x y -> osim RelR (silent x) (quiet y).
Proof.
  intros x y H. unfold silent, quiet. eapply osim_bind; [exact H|]. intros a b HR. cbn. eexists. split; [reflexivity|].
  split; auto.
Qed.
Lemma sim_void : forall g y, osim GRel (Ok g) y -> osim RelR (Ok (Void, g)) (quiet y).
Proof. intros g y H. apply (sim_quiet (Ok g) y H). Qed.
Lemma sim_ok : forall g s, GRel g s -> osim RelR (Ok (Void, g)) (quiet (Ok s)).
Proof. intros. cbn. eexists. split; [reflexivity|]. split; auto. Qed.
Lemma sim_asks : forall z g s y, GRel g s -> y = Ok z -> osim RelR (Ok (Num z, g)) (asks y s).
Proof. intros z g s y H ->. cbn. eexists. split; [reflexivity|]. split; auto. Qed.

Lemma on_md_bind : forall f h s, on_md (fun x => x1 <- f x ;; h x1) s = (s1 <- on_md f s ;; on_md h s1).
Proof.
  intros f h s. unfold on_md. destruct (f (k_mod s, k_dev s)) as [[m d]|u]; cbn [bind]; [|reflexivity].
  cbn [set_md k_mod k_dev fst snd]. destruct (h (m, d)) as [[m2 d2]|u]; reflexivity.
Qed.

Lemma caps_off_sim : forall g s, RelT g s ->
  exists s', on_md (set_caps_state 0) s = Ok s' /\ RelT (gcaps_off g) s' /\ same_scanner s s'.
Proof.
  intros g s H. unfold on_md, set_caps_state, gcaps_off.
  destruct (gact_sim V_SET_LO VCAPS_LED g s H ltac:(apply Nat.ltb_lt; reflexivity)) as [d [F G]].
  change (if (0 =? 0)%N then V_SET_LO else V_SET_HI) with V_SET_LO.
  rewrite F. cbn [bind]. eexists. split; [reflexivity|]. split; [|repeat split].
  rewrite gact_mod. rewrite <- (rt_mod _ _ H). apply (T_mods _ (set_dev d s)). auto.
Qed.

Lemma caps_off_same : forall g, gsame g (gcaps_off g).
Proof. intros. unfold gcaps_off, gact. destruct (spec_action _ _ _). repeat split. Qed.

Lemma mods_init_sim : forall g s, RelT g s ->
  exists s', on_md modifiers_init s = Ok s' /\ RelT (gset_ctrl 0 (gcaps_off (gset_shift 0 g))) s' /\ same_scanner s s'.
Proof.
  intros g s H. unfold modifiers_init. rewrite on_md_bind.
  destruct (gshift_sim 0 g s H) as [s1 (E1&R1&F1)]. change SHIFT_OFF_ST with 0%N. rewrite E1. cbn [bind].
  rewrite on_md_bind. destruct (caps_off_sim _ _ R1) as [s2 (E2&R2&F2)]. change CAPS_OFF_ST with 0%N. rewrite E2. cbn [bind].
  eexists. split; [reflexivity|]. split; [apply gctrl_sim; auto|].
  eapply same_trans; [exact F1|]. eapply same_trans; [exact F2|]. repeat split.
Qed.

Lemma line_sim : forall p v g s, GRel g s -> osim GRel (gline p v g) (on_dev (physical_set p v) s).
Proof.
  intros p v g s [HT HS]. unfold gline, on_dev. pose proof (rt_dev _ _ HT) as HD.
  destruct (Nat.ltb_spec p 13).
  - destruct (nth_error_ex _ (ptab (k_dev s)) p) as [q EQ]; [rewrite (rd_plen _ _ HD); auto|].
    rewrite (physical_set_ok p v _ q EQ). cbn [bind]. eexists. split; [reflexivity|].
    split; [|rs HS; constructor; auto]. rt HT. constructor; auto; cbn.
    + apply (RD_same (g_vs g) (k_dev s)); auto.
      * cbn. rewrite upd_length; auto.
      * intros i. cbn. rewrite nth_error_upd. destruct (Nat.eqb_spec p i); cbn [andb]; auto.
        subst i. destruct (Nat.ltb_spec p (length (ptab (k_dev s)))); auto. rewrite EQ. reflexivity.
      * intros i x. cbn. rewrite nth_error_upd. unfold set_at. rewrite (Nat.eqb_sym i p).
        destruct (Nat.eqb_spec p i); cbn [andb].
        -- destruct (p <? length (ptab (k_dev s))) eqn:L; [|rewrite (rd_plen _ _ HD) in L; lia].
           intros E. inv E. reflexivity.
        -- intros E. apply (rd_lev _ _ HD); auto.
    + congruence.
  - unfold physical_set, lget. rewrite (proj2 (nth_error_None _ _)); [reflexivity|].
    rewrite (rd_plen _ _ HD). auto.
Qed.

Lemma virtual_sim : forall v f g s, GRel g s -> osim GRel (gvirtual v f g) (on_dev (virtual_action v f) s).
Proof.
  intros v f g s H. unfold gvirtual. pose proof (proj1 H) as HT. destruct (Nat.ltb_spec v 12).
  - eapply lift_T; [exact H| |apply gact_same].
    destruct (gact_sim f v g s HT) as [d [E F]]; auto. unfold on_dev. rewrite E. cbn [bind].
    eexists. split; [reflexivity|]. split; auto. repeat split.
  - unfold on_dev, virtual_action, lget. rewrite (proj2 (nth_error_None _ _)); [reflexivity|].
    rewrite (rd_vlen _ _ (rt_dev _ _ HT)). auto.
Qed.

Lemma activate_sim : forall v g s, GRel g s ->
  osim GRel (gvirtual v (fn (g_vs g) v) g) (on_dev (virtual_activate v) s).
Proof.
  intros v g s H. pose proof (virtual_sim v (fn (g_vs g) v) g s H) as X. pose proof (rt_dev _ _ (proj1 H)) as HD.
  unfold on_dev, virtual_activate in *. destruct (Nat.ltb_spec v 12).
  - destruct (rd_virt _ _ HD v H0) as [e (E1&E2&E3)]. rewrite (proj2 (lget_ok _ _ _ _ _) E1). cbn [bind].
    rewrite E3. exact X.
  - unfold gvirtual. replace (v <? 12) with false by lia. unfold lget. rewrite (proj2 (nth_error_None _ _)); [reflexivity|].
    rewrite (rd_vlen _ _ HD). auto.
Qed.

Lemma toggle_is_set : forall p g s, GRel g s ->
  on_dev (physical_toggle p) s = on_dev (physical_set p (opposite (lev (g_vs g) p))) s.
Proof.
  intros p g s H. pose proof (rt_dev _ _ (proj1 H)) as HD. unfold on_dev, physical_toggle.
  destruct (nth_error (ptab (k_dev s)) p) as [q|] eqn:E.
  - rewrite (proj2 (lget_ok _ _ _ _ _) E). cbn [bind]. rewrite (rd_lev _ _ HD _ _ E). reflexivity.
  - unfold physical_set, lget. rewrite E. reflexivity.
Qed.

Lemma next_sim : forall g s, GRel g s ->
  osim RelR (g_call (fun _ => None) KNextCode g) (c_call (fun _ => None) KNextCode s).
Proof.
  intros g s H. pose proof (proj2 H) as HS. cbn [g_call c_call]. unfold next_code.
  rewrite (rs_hmsg _ _ HS), (rs_hkey _ _ HS), (rt_delay _ _ (proj1 H)).
  destruct (get_msg _ _ _ (rs_buf _ _ HS)) as [b [E F]]. rewrite E. cbn [bind]. cbv zeta.
  change INVALID with 0xA0%N in *.
  destruct (hd 0xA0 (g_qm g) =? 0xA0)%N.
  - destruct (get_key _ _ _ F) as [b2 [E2 F2]]. rewrite E2. cbn [bind osim].
    eexists. split; [reflexivity|]. split; [reflexivity|]. cbn [snd].
    apply (G_qk (gp_qm (tl (g_qm g)) g) (set_buf b s) b2); [|exact F2]. apply G_qm; auto.
  - cbn [bind osim]. eexists. split; [reflexivity|]. split; [reflexivity|]. cbn [snd]. apply G_note. apply G_qm; auto.
Qed.

Lemma find_two : forall h q1 q2, BufferSpec.find [mkFifo 16 q1; mkFifo 128 q2] h =
  if (h =? 0)%Z then Some (0, mkFifo 16 q1) else if (h =? 1)%Z then Some (1, mkFifo 128 q2) else None.
Proof.
  intros h q1 q2. unfold BufferSpec.find. destruct (Z.eqb_spec h 0); [subst; reflexivity|].
  destruct (Z.eqb_spec h 1); [subst; reflexivity|]. destruct (Z.ltb_spec h 0); [reflexivity|].
  destruct (Z.to_nat h) as [|[|k]] eqn:E; [lia|lia|]. cbn. destruct k; reflexivity.
Qed.

Lemma put_any : forall h c g s, GRel g s -> exists b, buffer_put h c (k_buf s) = Ok b /\ GRel (gqput h c g) (set_buf b s).
Proof.
  intros h c g s H. pose proof (rs_buf _ _ (proj2 H)) as HB. unfold gqput.
  destruct (Z.eqb_spec h 0); [|destruct (Z.eqb_spec h 1)].
  - subst. destruct (put_key c _ _ _ HB) as [b [E F]]. exists b. split; auto. apply G_qk; auto.
  - subst. destruct (put_msg c _ _ _ HB) as [b [E F]]. exists b. split; auto. apply G_qm; auto.
  - destruct (step_refines (BPut h c) _ _ HB I) as [b [E F]]. cbn [buf_step] in E. apply bind_ok in E.
    destruct E as [b1 [E1 E2]]. unfold spec_step in *. rewrite find_two in *.
    replace (h =? 0)%Z with false in * by lia. replace (h =? 1)%Z with false in * by lia. cbn [fst snd] in *. inv E2.
    exists b. split; auto. pose proof (G_qk g s b (g_qk g) H F) as X. destruct g; exact X.
Qed.

Lemma get_any : forall h g s, GRel g s ->
  exists b, buffer_get h (k_buf s) = Ok (hd 0xA0%N (gqueue h g), b) /\ GRel (gqpop h g) (set_buf b s).
Proof.
  intros h g s H. pose proof (rs_buf _ _ (proj2 H)) as HB. unfold gqpop, gqueue.
  destruct (Z.eqb_spec h 0); [|destruct (Z.eqb_spec h 1)].
  - subst. destruct (get_key _ _ _ HB) as [b [E F]]. exists b. split; [exact E|]. apply G_qk; auto.
  - subst. destruct (get_msg _ _ _ HB) as [b [E F]]. exists b. split; [exact E|]. apply G_qm; auto.
  - destruct (step_refines (BGet h) _ _ HB I) as [b [E F]]. cbn [buf_step] in E. apply bind_ok in E.
    destruct E as [[x b1] [E1 E2]]. unfold spec_step in *. rewrite find_two in *.
    replace (h =? 0)%Z with false in * by lia. replace (h =? 1)%Z with false in * by lia. cbn [fst snd] in *. inv E2.
    exists b. split; [exact E1|]. pose proof (G_qk g s b (g_qk g) H F) as X. destruct g; exact X.
Qed.

Lemma new_none : forall n g s, GRel g s -> (0 < n)%Z ->
  exists b, buffer_new n (k_buf s) = Ok ((-1)%Z, b) /\ GRel g (set_buf b s).
Proof.
  intros n g s H Hn. pose proof (rs_buf _ _ (proj2 H)) as HB.
  destruct (step_refines (BNew n) _ _ HB ltac:(cbn; lia)) as [b [E F]]. cbn [buf_step] in E. apply bind_ok in E.
  destruct E as [[x b1] [E1 E2]]. unfold spec_step in *. cbn [used fold_right f_cap] in *.
  change (length [mkFifo 16 (g_qk g); mkFifo 128 (g_qm g)] <? max_buffers) with true in *. unfold total_room in *.
  replace (16 + (128 + 0) + n <=? 144)%Z with false in * by lia. cbn [andb fst snd] in *. inv E2.
  exists b. split; [exact E1|]. pose proof (G_qk g s b (g_qk g) H F) as X. destruct g; exact X.
Qed.

Lemma code_in : forall r c mi g s, RelT g s -> get_code r c mi s = gcode_in r c mi g.
Proof.
  intros r c mi g s H. unfold get_code, gcode_in. rewrite (rt_cur _ _ H), (rt_maps _ _ H). unfold lget at 1 2.
  destruct (nth_error (g_maps g) (N.to_nat (g_cur g))) as [km|]; [|reflexivity]. cbn [bind].
  destruct (km_cols km =? 0), (km_rows km =? 0); cbn [negb andb orb]; try reflexivity.
  destruct (nth_error (g_maps g) mi); reflexivity.
Qed.

Lemma hook_of : forall id g s, RelT g s -> hook_get id (k_hook s) = Ok (ghook_of id g).
Proof.
  intros id g s H. unfold hook_get, ghook_of. change (hook_valid_id id) with ((0 <? id) && (id <? 16)).
  destruct ((0 <? id) && (id <? 16)) eqn:E; [|reflexivity]. apply hook_lget; auto. lia.
Qed.

Lemma init_sim : forall kbs g s, GRel g s -> osim GRel (Ok (ginit kbs g)) (c_init kbs s).
Proof.
  intros kbs g s [HT HS]. unfold c_init. cbn [bind on_rep]. cbv zeta.
  set (s3 := set_rep _ _). set (g3 := mkG (fun _ _ => false) (fun _ _ => 10%N) 0xA0 [] [] (repeat_init (g_rep g)) (g_mod g) (g_vs g)
                     (g_log g) (g_cur g) (g_maps g) (g_hook g) (g_delay g)).
  assert (R3 : RelT g3 s3) by (rt HT; constructor; auto).
  destruct (gswitch_sim kbs 0 g3 s3 R3) as [s4 (E4&F4&G4)]. rewrite E4. cbn [bind].
  destruct G4 as (B1&B2&B3&B4&B5&B6&B7).
  assert (HB : k_buf s4 = buffer_init (k_buf s)) by (rewrite B6; reflexivity). rewrite HB.
  pose proof (rs_buf _ _ HS) as HR. assert (HW : wf_storage (k_buf s)) by (destruct HR as (P1&P2&_); split; auto).
  assert (R0 := R_init _ HW).
  destruct (step_refines (BNew 16) _ _ R0 ltac:(cbn; lia)) as [b1 [E1 R1]].
  cbn [buf_step] in E1. apply bind_ok in E1. destruct E1 as [[h1 b1'] [E1 E1']].
  cbn in E1'. inv E1'. rewrite E1. cbn [bind].
  destruct (step_refines (BNew 128) _ _ R1 ltac:(cbn; lia)) as [b2 [E2 R2]].
  cbn [buf_step] in E2. apply bind_ok in E2. destruct E2 as [[h2 b2'] [E2 E2']].
  cbn in E2'. inv E2'. rewrite E2. cbn [bind].
  cbn [osim]. eexists. split; [reflexivity|]. cbn in R2.
  assert (GS := gswitch_same kbs 0 g3). destruct GS as (A1&A2&A3&A4&A5&A6).
  unfold ginit. fold g3. split.
  - rt F4. constructor; auto.
  - constructor; cbn [k_stable k_cnt k_last k_hkey k_hmsg k_delay k_buf k_rep k_mod k_dev k_hook k_maps k_cur
     set_cnt set_stable set_handles set_buf]; rewrite ?A1, ?A2, ?A3, ?A4, ?A5, ?A6; auto.
    + intros r b E. apply (nth_error_repeat_inv _ 0%N b 16 r) in E. subst b. split; [lia|].
      intros. apply N.bits_0.
    + intros r c v Hc E. apply nth_error_repeat_inv in E. subst v. cbn. unfold DEBOUNCE. lia.
Qed.

Section Sim.
Variable kbs : N -> option (list setup_cmd).

Lemma call_sim : forall k g s, proper k -> GRel g s -> osim RelR (g_call kbs k g) (c_call kbs k s).
Proof.
  intros k g s HP H. pose proof (proj1 H) as HT. pose proof (proj2 H) as HS.
  assert (REP : forall f, osim RelR (Ok (Void, gp_rep (f (g_rep g)) g)) (quiet (on_rep f s))).
  { intros f. apply sim_void. unfold on_rep. rewrite (rs_rep _ _ HS). cbn. eexists. split; [reflexivity|]. apply G_rep; auto. }
  destruct k; try exact (next_sim g s H); cbn [g_call c_call]; try apply REP.
  - apply sim_void. apply init_sim; auto.
  - apply sim_quiet. apply gscan_sim; auto.
  - apply sim_void. unfold put_code. rewrite (rs_hkey _ _ HS).
    destruct (put_key c _ _ _ (rs_buf _ _ HS)) as [b [E F]]. rewrite E. cbn. eexists. split; [reflexivity|]. apply G_qk; auto.
  - destruct (gputc_sim c g s H) as [s1 [E F]]. rewrite E. cbn. eexists. split; [reflexivity|]. split; auto.
  - apply sim_ok. split; [rt HT|rs HS]; constructor; auto.
  - apply sim_void. unfold add_map. change num_modifiers with 4. change max_rows with 16. change max_cols with 8.
    destruct ((mi <? 4) && (rows <=? 16) && (cols <=? 8)) eqn:E; [|cbn; eauto].
    rewrite lset_ok by (rewrite (rt_maps _ _ HT), (rt_mlen _ _ HT); lia). cbn [bind osim]. eexists. split; [reflexivity|].
    split; [|rs HS; constructor; auto]. rt HT. constructor; auto; cbn.
    + congruence.
    + rewrite upd_length. auto.
    + apply Forall_upd; auto. split; cbn; lia.
  - apply sim_asks; auto. rewrite (proj2 (gnum _ _ HT)). reflexivity.
  - apply sim_asks; auto. rewrite (proj1 (gnum _ _ HT)). reflexivity.
  - apply sim_void. apply gselect_sim; auto.
  - apply sim_void. unfold c_select_set. rewrite (rt_cur _ _ HT), lor_setbit. apply gselect_sim; auto.
  - apply sim_void. unfold c_select_clear. rewrite (rt_cur _ _ HT), ldiff_clearbit. apply gselect_sim; auto.
  - apply sim_void. eapply lift_T; [exact H|apply gswitch_sim; auto|apply gswitch_same].
  - unfold asks. rewrite (code_in r c mi g s HT). destruct (gcode_in r c mi g); cbn; [|reflexivity].
    eexists. split; [reflexivity|]. split; auto.
  - apply sim_void. eapply lift_T; [exact H|apply gshift_sim; auto|apply gshift_same].
  - apply sim_void. unfold shiftlock_on_activate. rewrite <- (rt_mod _ _ HT).
    eapply lift_T; [exact H|apply (gshift_sim _ g s HT)|apply gshift_same].
  - apply sim_void. unfold shiftlock_toggle_activate. rewrite <- (rt_mod _ _ HT).
    eapply lift_T; [exact H|apply (gshift_sim _ g s HT)|apply gshift_same].
  - apply sim_void. eapply lift_T; [exact H|apply gcaps_sim; auto|apply gcaps_same].
  - apply sim_void. eapply lift_T; [exact H| |repeat split].
    unfold on_md, ctrl_activate. cbn [bind]. eexists. split; [reflexivity|].
    split; [apply gctrl_sim; auto|repeat split].
  - apply sim_void. eapply lift_T; [exact H|apply gshift_sim; auto|apply gshift_same].
  - apply sim_void. eapply lift_T; [exact H| |repeat split].
    unfold on_md, ctrl_deactivate. cbn [bind]. eexists. split; [reflexivity|].
    split; [apply gctrl_sim; auto|repeat split].
  - apply sim_void. eapply lift_T; [exact H|apply mods_init_sim; auto|].
    eapply gsame_trans; [apply gshift_same|]. eapply gsame_trans; [apply caps_off_same|]. repeat split.
  - apply sim_asks; auto. rewrite (rt_mod _ _ HT), map_now_ok. reflexivity.
  - rewrite (rs_rep _ _ HS). destruct (repeat_tick (g_rep g)) as [due r]. cbn. eexists. split; [reflexivity|].
    split; auto. apply G_rep; auto.
  - destruct (new_none size g s H HP) as [b [E F]]. rewrite E. cbn. eexists. split; [reflexivity|]. split; auto.
  - destruct (put_any h c g s H) as [b [E F]]. rewrite E. cbn. eexists. split; [reflexivity|]. split; auto.
  - destruct (get_any h g s H) as [b [E F]]. rewrite E. cbn [bind osim]. eexists. split; [reflexivity|]. split; auto.
  - apply sim_quiet. apply virtual_sim; auto.
  - apply sim_quiet. apply activate_sim; auto.
  - apply sim_void. destruct (setup_assign v p f i s _ (rt_dev _ _ HT)) as [d (A&B&C)]. rewrite A.
    cbn [osim]. eexists. split; [reflexivity|]. split; [rt HT|rs HS]; constructor; auto. cbn. congruence.
  - apply sim_ok. split; [rt HT|rs HS]; constructor; auto. apply RD_init.
  - apply sim_void. unfold on_dev. destruct (sync_refines _ _ (rt_dev _ _ HT)) as [d (A&B&C)]. rewrite A. cbn [bind osim].
    eexists. split; [reflexivity|]. split; [rt HT|rs HS]; constructor; auto. cbn. rewrite <- T4. exact C.
  - apply sim_quiet. apply line_sim; auto.
  - apply sim_quiet. apply line_sim; auto.
  - apply sim_quiet. apply line_sim; auto.
  - unfold on_dev. pose proof (rt_dev _ _ HT) as HD. destruct (Nat.ltb_spec p 13).
    + destruct (nth_error_ex _ (ptab (k_dev s)) p) as [q EQ]; [rewrite (rd_plen _ _ HD); auto|].
      rewrite (assert_ok p _ q EQ), (rd_lev _ _ HD _ _ EQ). cbn. eexists. split; [reflexivity|]. split; [reflexivity|].
      cbn [snd]. exact (G_note g s (EvOut p (lev (g_vs g) p)) H).
    + unfold physical_assert, lget. rewrite (proj2 (nth_error_None _ _)); [reflexivity|]. rewrite (rd_plen _ _ HD). auto.
  - rewrite (toggle_is_set p g s H). apply sim_quiet. apply line_sim; auto.
  - unfold c_hook. rewrite (hook_of id g s HT). cbn [bind].
    assert (X : osim RelR (if (0 <? id) && (id <? 16) then silent (ghook id g) else Ok (Void, g)) (quiet (hook_execute id s))).
    { destruct ((0 <? id) && (id <? 16)) eqn:E.
      - apply sim_quiet. apply ghook_sim; auto. lia.
      - unfold hook_execute. change (hook_valid_id id) with ((0 <? id) && (id <? 16)). rewrite E. apply sim_ok; auto. }
    destruct (ghook_of id g); auto. apply sim_quiet. apply gscan_sim; auto.
  - rewrite (hook_of id g s HT). cbn. eexists. split; [reflexivity|]. split; auto.
  - apply sim_void. unfold hook_assign. change (hook_valid_id id) with ((0 <? id) && (id <? 16)).
    destruct ((0 <? id) && (id <? 16)) eqn:E.
    + rewrite lset_ok by (rewrite (rt_hook _ _ HT), (rt_hlen _ _ HT); lia). cbn [bind osim]. eexists. split; [reflexivity|].
      split; [rt HT|rs HS]; constructor; auto; cbn; [congruence|]. rewrite upd_length; auto.
    + cbn [bind osim]. eexists. split; [reflexivity|]. split; [rt HT|rs HS]; constructor; auto.
  - apply sim_ok. split; [rt HT|rs HS]; constructor; auto.
  - pose proof (gprint_sim m g s H) as X. destruct (format m) as [l|].
    + destruct X as [s1 [E F]]. rewrite E. apply sim_ok; auto.
    + rewrite X. reflexivity.
Qed.

Lemma calls_sim : forall ks g s, Forall proper ks -> GRel g s -> osim RelR (g_calls kbs ks g) (c_calls kbs ks s).
Proof.
  induction ks as [|k ks IH]; intros g s HP H; cbn [g_calls c_calls].
  - cbn. eexists. split; [reflexivity|]. split; auto.
  - inv HP. pose proof (call_sim k g s H2 H) as X.
    destruct (g_call kbs k g) as [[r g1]|u]; cbn [osim bind] in *.
    + destruct X as [[r' s1] [E [X1 X2]]]. cbn [fst snd] in *. subst r'. rewrite E. cbn [bind].
      pose proof (IH g1 s1 H3 X2) as Y. destruct (g_calls kbs ks g1) as [[rs g2]|u]; cbn [osim bind] in *.
      * destruct Y as [[rs' s2] [E2 [Y1 Y2]]]. cbn [fst snd] in *. subst rs'. rewrite E2. cbn. eexists. split; [reflexivity|].
        split; auto.
      * rewrite Y. reflexivity.
    + rewrite X. reflexivity.
Qed.

Theorem client_sim : forall cs ks, kbs 0%N = Some cs -> Forall proper ks ->
  osim RelR (gclient kbs ks) (client kbs ks).
Proof.
  intros cs ks HK HP. unfold gclient, client. destruct (gboot_sim kbs cs HK) as [s [E F]].
  rewrite E. cbn [bind]. apply calls_sim; auto.
Qed.

End Sim.
