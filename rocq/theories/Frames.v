(** What each abstract operation leaves alone. *)
From Coq Require Import List NArith ZArith Arith Bool Lia.
From Coq Require Import ZifyBool ZifyNat ZifyN.
From Verif Require Import Base Lib Repeat Devices DevSpec Modifiers KeymapData Asdf KeySpec KeyRef Obs.
Import ListNotations.

(** ** Outputs *)
Lemma aact_cur : forall f v a, a_cur (aact f v a) = a_cur a.
Proof. intros. unfold aact. destruct (spec_action _ _ _). reflexivity. Qed.
Lemma aact_last : forall f v a, a_last (aact f v a) = a_last a.
Proof. intros. unfold aact. destruct (spec_action _ _ _). reflexivity. Qed.
Lemma aact_qk : forall f v a, a_qk (aact f v a) = a_qk a.
Proof. intros. unfold aact. destruct (spec_action _ _ _). reflexivity. Qed.
Lemma aact_qm : forall f v a, a_qm (aact f v a) = a_qm a.
Proof. intros. unfold aact. destruct (spec_action _ _ _). reflexivity. Qed.
Lemma aact_rep : forall f v a, a_rep (aact f v a) = a_rep a.
Proof. intros. unfold aact. destruct (spec_action _ _ _). reflexivity. Qed.
Lemma aact_mod : forall f v a, a_mod (aact f v a) = a_mod a.
Proof. intros. unfold aact. destruct (spec_action _ _ _). reflexivity. Qed.

(** Events produced by output actions. *)
Definition outev (e : event) : Prop :=
  match e with EvOut _ _ | EvPulseShort | EvPulseLong => True | _ => False end.
(** Events other than sending (and its delay). *)
Definition silent (e : event) : Prop := match e with EvSend _ | EvDelayMs _ => False | _ => True end.
Lemma outev_silent : forall l, Forall outev l -> Forall silent l.
Proof. intros l H. eapply Forall_impl; [|exact H]. intros []; cbn; auto. Qed.
Lemma silent_sends : forall l, Forall silent l -> sends l = [].
Proof. induction 1 as [|x l H HF IH]; auto. cbn. destruct x; cbn in *; auto. contradiction. Qed.
Lemma drive_outev : forall g l lv, Forall outev (snd (drive g l lv)).
Proof.
  induction l as [|p l IH]; intros lv; cbn [drive]; [constructor|].
  specialize (IH (set_at lv p (g (lv p)))). destruct (drive g l (set_at lv p (g (lv p)))). cbn in *. constructor; cbn; auto.
Qed.
Lemma action_outev : forall f l lv, Forall outev (snd (spec_action f l lv)).
Proof.
  intros f l lv. destruct f; cbn [spec_action]; try apply drive_outev; try constructor.
  - pose proof (drive_outev opposite l lv) as A. destruct (drive opposite l lv) as [l1 e1].
    pose proof (drive_outev opposite l l1) as B. destruct (drive opposite l l1) as [l2 e2]. cbn in *.
    apply Forall_app. split; auto. constructor; cbn; auto.
  - pose proof (drive_outev opposite l lv) as A. destruct (drive opposite l lv) as [l1 e1].
    pose proof (drive_outev opposite l l1) as B. destruct (drive opposite l l1) as [l2 e2]. cbn in *.
    apply Forall_app. split; auto. constructor; cbn; auto.
Qed.
Lemma aact_log : forall f v a, exists l, a_log (aact f v a) = l ++ a_log a /\ Forall outev l.
Proof.
  intros. unfold aact. pose proof (action_outev f (own (wiring (a_cur a)) v) (a_lev a)) as H.
  destruct (spec_action _ _ _) as [lv ev]. exists (rev ev). split; auto. apply Forall_rev. auto.
Qed.

(** ** Sending *)
Ltac send_case := intros; unfold asend;
  match goal with |- context [a_qm ?a] => destruct (a_qm a) eqn:?; [destruct (a_qk a) eqn:?; [|
    match goal with |- context [(?n <? 0xA0)%N] => destruct (n <? 0xA0)%N eqn:? end]|] end; auto.
Lemma send_last : forall a, a_last (asend a) = a_last a. Proof. send_case. Qed.
Lemma send_cur : forall a, a_cur (asend a) = a_cur a. Proof. send_case. Qed.
Lemma send_rep : forall a, a_rep (asend a) = a_rep a. Proof. send_case. Qed.
Lemma send_mod : forall a, a_mod (asend a) = a_mod a. Proof. send_case. Qed.
Lemma send_lev : forall a, a_lev (asend a) = a_lev a. Proof. send_case. Qed.

(** ** Selection *)
Ltac sel_case := intros; unfold aselect, aswitch, atoggle_caps; cbn zeta;
  repeat match goal with
  | |- context [if ?b then _ else _] => destruct b
  end; cbn; rewrite ?aact_cur, ?aact_last, ?aact_qk, ?aact_qm, ?aact_rep, ?aact_mod; auto.
Lemma select_last : forall i a, a_last (aselect i a) = a_last a. Proof. sel_case. Qed.
Lemma select_qk : forall i a, a_qk (aselect i a) = a_qk a. Proof. sel_case. Qed.
Lemma select_qm : forall i a, a_qm (aselect i a) = a_qm a. Proof. sel_case. Qed.
Lemma select_rep : forall i a, a_rep (aselect i a) = a_rep a. Proof. sel_case. Qed.
Lemma select_shift : forall i a, m_shift (a_mod (aselect i a)) = m_shift (a_mod a). Proof. sel_case. Qed.
Lemma select_ctrl : forall i a, m_ctrl (a_mod (aselect i a)) = m_ctrl (a_mod a). Proof. sel_case. Qed.
Lemma select_cur : forall i a, (i < 6)%N -> a_cur (aselect i a) = i.
Proof.
  intros i a H. unfold aselect. destruct (N.eqb_spec i (a_cur a)); auto.
  replace (i <? 6)%N with true by lia. unfold aswitch, atoggle_caps. cbn zeta.
  destruct (toggles_caps i), (i =? 4)%N; cbn; rewrite ?aact_cur; auto.
Qed.
Lemma select_log : forall i a, exists l, a_log (aselect i a) = l ++ a_log a /\ Forall silent l.
Proof.
  intros i a. unfold aselect. destruct (_ =? _)%N; [exists []; auto|].
  destruct (_ <? _)%N; [|exists []; auto]. unfold aswitch. cbn zeta.
  set (a1 := note EvArchInit _).
  assert (X : exists l, a_log (if toggles_caps i then atoggle_caps a1 else a1) = l ++ a_log a /\ Forall silent l).
  { destruct (toggles_caps i).
    - unfold atoggle_caps. cbn zeta. cbn [a_log put_mod].
      match goal with |- context [aact ?f ?v a1] => destruct (aact_log f v a1) as [l [-> L2]] end.
      exists (l ++ [EvArchInit]). rewrite <- app_assoc. split; auto.
      apply Forall_app. split; [apply outev_silent; auto|]. repeat constructor.
    - exists [EvArchInit]. split; auto. repeat constructor. }
  destruct X as [l [L1 L2]]. destruct (i =? 4)%N; [|eauto].
  exists (EvStrobeNeg :: l). cbn [a_log note put_log]. rewrite L1. split; auto. constructor; cbn; auto.
Qed.

(** ** Actions *)
Ltac on_case := intros; unfold aaction_on, aaction_off, aset_shift, atoggle_caps, aset_ctrl, aprint;
  match goal with |- context [decode ?code] => destruct (decode code) eqn:? end;
  repeat match goal with |- context [match message ?x ?y with _ => _ end] => destruct (message x y) end;
  cbn; rewrite ?aact_cur, ?aact_last, ?aact_qk, ?aact_qm, ?aact_rep, ?aact_mod, ?select_last, ?select_qk, ?select_qm, ?select_rep, ?select_shift, ?select_ctrl; auto.
Lemma on_last : forall code a, a_last (aaction_on code a) = a_last a. Proof. on_case. Qed.
Lemma on_qk : forall code a, a_qk (aaction_on code a) = a_qk a. Proof. on_case. Qed.
Lemma on_qm : forall code a, (forall n, decode code <> AFn n) -> a_qm (aaction_on code a) = a_qm a.
Proof. on_case; exfalso; eapply H; eauto. Qed.
Lemma on_repeat : forall code a, decode code <> ARepeat -> decode code <> AAutorepeat -> a_rep (aaction_on code a) = a_rep a.
Proof. on_case; congruence. Qed.
Lemma on_ctrl : forall code a, decode code <> ACtrl -> m_ctrl (a_mod (aaction_on code a)) = m_ctrl (a_mod a).
Proof. on_case; congruence. Qed.
Lemma on_shift : forall code a, decode code <> AShift -> decode code <> AShiftlockOn -> decode code <> AShiftlockToggle ->
  m_shift (a_mod (aaction_on code a)) = m_shift (a_mod a).
Proof. on_case; congruence. Qed.
Lemma on_cur : forall code a, (forall n, decode code <> AMapsel n) -> a_cur (aaction_on code a) = a_cur a.
Proof. on_case; exfalso; eapply H; eauto. Qed.
Lemma on_caps : forall code a, (forall n, decode code <> AMapsel n) -> decode code <> ACaps ->
  m_caps (a_mod (aaction_on code a)) = m_caps (a_mod a).
Proof. on_case; try congruence; exfalso; eapply H; eauto. Qed.
Lemma off_last : forall code a, a_last (aaction_off code a) = a_last a. Proof. on_case. Qed.
Lemma off_qk : forall code a, a_qk (aaction_off code a) = a_qk a. Proof. on_case. Qed.
Lemma off_qm : forall code a, a_qm (aaction_off code a) = a_qm a. Proof. on_case. Qed.
Lemma off_repeat : forall code a, decode code <> ARepeat -> decode code <> AAutorepeat -> a_rep (aaction_off code a) = a_rep a.
Proof. on_case; congruence. Qed.
Lemma off_ctrl : forall code a, decode code <> ACtrl -> m_ctrl (a_mod (aaction_off code a)) = m_ctrl (a_mod a).
Proof. on_case; congruence. Qed.
Lemma off_shift : forall code a, decode code <> AShift -> m_shift (a_mod (aaction_off code a)) = m_shift (a_mod a).
Proof. on_case; congruence. Qed.
Lemma off_cur : forall code a, (forall n, decode code <> AMapsel n) -> a_cur (aaction_off code a) = a_cur a.
Proof. on_case; exfalso; eapply H; eauto. Qed.
Lemma off_caps : forall code a, (forall n, decode code <> AMapsel n) ->
  m_caps (a_mod (aaction_off code a)) = m_caps (a_mod a).
Proof. on_case; exfalso; eapply H; eauto. Qed.

Lemma app_log_nil : forall (a b : akb), a_log a = a_log b -> exists l, a_log a = l ++ a_log b /\ Forall silent l.
Proof. intros a b H. exists []. auto. Qed.
Lemma aact_log_silent : forall f v a, exists l, a_log (aact f v a) = l ++ a_log a /\ Forall silent l.
Proof. intros. destruct (aact_log f v a) as [l [A B]]. exists l. split; auto. apply outev_silent; auto. Qed.
Lemma on_log : forall code a, exists l, a_log (aaction_on code a) = l ++ a_log a /\ Forall silent l.
Proof.
  intros. unfold aaction_on, aset_shift, atoggle_caps, aset_ctrl, aprint.
  destruct (decode code); try (apply app_log_nil; reflexivity); try apply aact_log_silent;
    try (cbn zeta; cbn [a_log put_mod]; apply aact_log_silent).
  - apply select_log.
  - exists [EvStrobePos]. split; auto. repeat constructor.
  - destruct (message _ _); apply app_log_nil; reflexivity.
Qed.
Lemma off_log : forall code a, exists l, a_log (aaction_off code a) = l ++ a_log a /\ Forall silent l.
Proof.
  intros. unfold aaction_off, aset_shift, aset_ctrl.
  destruct (decode code); try (apply app_log_nil; reflexivity); try apply aact_log_silent;
    try (cbn zeta; cbn [a_log put_mod]; apply aact_log_silent).
  - apply select_log.
  - exists [EvStrobeNeg]. split; auto. repeat constructor.
Qed.

(** ** Presses, releases, held keys *)
Lemma decode_high : forall code, (code < 0xA0)%N -> decode code = AOther.
Proof.
  intros code H. unfold decode.
  repeat match goal with |- context [if ?b then _ else _] => destruct b eqn:? end; auto; lia.
Qed.
Lemma low_not_sel : forall code, (code <= 0xA0)%N -> forall n, decode code <> AMapsel n.
Proof.
  intros code H n. destruct (N.eq_dec code 0xA0); [subst; discriminate|]. rewrite decode_high by lia. discriminate.
Qed.

Lemma press_cur : forall code a, (forall n, decode code <> AMapsel n) -> a_cur (apress code a) = a_cur a.
Proof.
  intros. unfold apress. destruct (0xA0 <? code)%N; [apply on_cur; auto|]. destruct (a_last a =? code)%N; auto.
Qed.
Lemma release_cur : forall code a, (forall n, decode code <> AMapsel n) -> a_cur (arelease code a) = a_cur a.
Proof.
  intros. unfold arelease. destruct (0xA0 <? code)%N; [apply off_cur; auto|]. destruct (a_last a =? code)%N; auto.
Qed.

(** The repeating code is never an action. *)
Definition last_low (a : akb) : Prop := (a_last a <= 0xA0)%N.
Lemma press_last_low : forall code a, last_low a -> last_low (apress code a).
Proof.
  intros code a H. unfold apress, last_low in *. destruct (N.ltb_spec 0xA0 code).
  - rewrite on_last. auto.
  - destruct (N.eqb_spec (a_last a) code); cbn; lia.
Qed.
Lemma release_last_low : forall code a, last_low a -> last_low (arelease code a).
Proof.
  intros code a H. unfold arelease, last_low in *. destruct (N.ltb_spec 0xA0 code).
  - rewrite off_last. auto.
  - destruct (N.eqb_spec (a_last a) code); cbn; lia.
Qed.

(** A held key at most ticks the repeat timer and queues its code again. *)
Lemma held_form : forall code a, last_low a ->
  exists r, aheld code a = put_rep r a \/ aheld code a = put_rep r (put_qk (qput 16 code (a_qk a)) a).
Proof.
  intros code a H. unfold aheld. destruct (N.eqb_spec code (a_last a)).
  - destruct (repeat_tick (a_rep a)) as [due r] eqn:ER. destruct due.
    + exists r. right. unfold apress. unfold last_low in H. replace (0xA0 <? code)%N with false by lia.
      cbn [a_last put_rep]. replace (a_last a =? code)%N with true by lia. reflexivity.
    + exists r. left. reflexivity.
  - exists (a_rep a). left. destruct a; reflexivity.
Qed.
Lemma held_last_low : forall code a, last_low a -> last_low (aheld code a).
Proof. intros code a H. destruct (held_form code a H) as [r [-> | ->]]; exact H. Qed.
Lemma held_cur : forall code a, last_low a -> a_cur (aheld code a) = a_cur a.
Proof. intros code a H. destruct (held_form code a H) as [r [-> | ->]]; reflexivity. Qed.
Lemma held_mod : forall code a, last_low a -> a_mod (aheld code a) = a_mod a.
Proof. intros code a H. destruct (held_form code a H) as [r [-> | ->]]; reflexivity. Qed.
Lemma held_log : forall code a, last_low a -> a_log (aheld code a) = a_log a.
Proof. intros code a H. destruct (held_form code a H) as [r [-> | ->]]; reflexivity. Qed.
Lemma held_qm : forall code a, last_low a -> a_qm (aheld code a) = a_qm a.
Proof. intros code a H. destruct (held_form code a H) as [r [-> | ->]]; reflexivity. Qed.
Lemma held_last : forall code a, last_low a -> a_last (aheld code a) = a_last a.
Proof. intros code a H. destruct (held_form code a H) as [r [-> | ->]]; reflexivity. Qed.
Lemma held_lev : forall code a, last_low a -> a_lev (aheld code a) = a_lev a.
Proof. intros code a H. destruct (held_form code a H) as [r [-> | ->]]; reflexivity. Qed.

Lemma press_log : forall code a, exists l, a_log (apress code a) = l ++ a_log a /\ Forall silent l.
Proof.
  intros. unfold apress. destruct (0xA0 <? code)%N; [apply on_log|].
  destruct (a_last a =? code)%N; apply app_log_nil; reflexivity.
Qed.
Lemma release_log : forall code a, exists l, a_log (arelease code a) = l ++ a_log a /\ Forall silent l.
Proof.
  intros. unfold arelease. destruct (0xA0 <? code)%N; [apply off_log|].
  destruct (a_last a =? code)%N; apply app_log_nil; reflexivity.
Qed.

(** ** Induction over the key steps of one tick *)
Lemma obind_some : forall A B (f : A -> option B) o y, obind o f = Some y -> exists x, o = Some x /\ f x = Some y.
Proof. intros A B f [x|] y H; [eauto|discriminate]. Qed.

Lemma keys_ind : forall (J : akb -> Prop) rd,
  (forall r c x y, r < 9 \/ (4 <= a_cur x)%N -> r < 16 -> c < 8 -> (a_cur x < 6)%N -> J x -> kstep rd r c x y -> J y) ->
  forall ps a a', keys_step rd ps a = Some a' -> (a_cur a < 6)%N ->
  Forall (fun p => fst p < 16 /\ snd p < 8) ps -> Forall (fun p => fst p < 9) ps \/ (4 <= a_cur a)%N ->
  J a -> J a'.
Proof.
  intros J rd HK. induction ps as [|[r c] ps IH]; intros a a' E HC HF HR HJ.
  - cbn in E. inv E. auto.
  - change (keys_step rd ((r, c) :: ps) a) with (obind (key_step rd r c a) (keys_step rd ps)) in E.
    apply obind_some in E. destruct E as [a1 [E1 E]]. inv HF. cbn [fst snd] in H1.
    destruct (key_step_rows _ _ _ _ _ E1 HC) as [C1 C2].
    apply (IH a1); auto.
    + destruct HR as [HR|HR]; [inv HR; auto|]. right. rewrite C2; auto.
    + apply (HK r c a); auto; try tauto.
      * destruct HR as [HR|HR]; [inv HR; auto|auto].
      * apply key_step_cases; auto.
Qed.

Lemma grid_bounds : forall r n m, r + n <= m -> Forall (fun p => fst p < m /\ snd p < 8) (grid r n).
Proof.
  intros. apply Forall_forall. intros [u v] Hp. unfold grid in Hp. apply in_prod_iff in Hp. rewrite !in_seq in Hp. cbn [fst snd]. lia.
Qed.

Lemma tick_ind : forall (J : akb -> Prop) rd a a', atick rd a = Some a' -> (a_cur a < 6)%N -> J (asend a) ->
  (forall r c x y, r < 9 \/ (4 <= a_cur x)%N -> r < 16 -> c < 8 -> (a_cur x < 6)%N -> J x -> kstep rd r c x y -> J y) ->
  J a'.
Proof.
  intros J rd a a' E HC HJ HK. unfold atick, ascan in E. apply obind_some in E. destruct E as [z [EZ E]].
  assert (C0 : (a_cur (asend a) < 6)%N) by (rewrite send_cur; auto).
  destruct (keys_cur_high _ _ _ _ EZ C0) as [C1 _].
  assert (JZ : J z).
  { apply (keys_ind J rd HK _ _ _ EZ); auto; [apply (grid_bounds 0 9 16); lia|].
    left. eapply Forall_impl; [|apply (grid_bounds 0 9 9); lia]. cbn beta. tauto. }
  pose proof (rows_ge _ C1) as NR.
  destruct (N.leb_spec 4 (a_cur z)).
  - apply (keys_ind J rd HK _ _ _ E); auto. apply (grid_bounds 9 (nrows (a_cur z) - 9) 16). lia.
  - rewrite rows_9, Nat.sub_diag in E by auto. change (grid 9 0) with (@nil (nat * nat)) in E.
    change (keys_step rd [] z) with (Some z) in E. inv E. auto.
Qed.

(** ** Growth of the log *)
Definition grows (a b : akb) : Prop := exists l, a_log b = l ++ a_log a.
Lemma grows_refl : forall a, grows a a.
Proof. intros. exists []. reflexivity. Qed.
Lemma grows_trans : forall a b c, grows a b -> grows b c -> grows a c.
Proof. intros a b c [l E] [l' E']. exists (l' ++ l). rewrite E', E, app_assoc. reflexivity. Qed.

Lemma key_grows : forall rd r c a b, key_step rd r c a = Some b -> grows a b.
Proof.
  intros rd r c a b H. apply key_step_cases in H. destruct H.
  - apply grows_refl.
  - exists []. reflexivity.
  - unfold aheld. destruct (_ =? _)%N; [|apply grows_refl]. destruct (repeat_tick _) as [[|] q]; [|exists []; reflexivity].
    destruct (press_log (code_now a r c) (put_rep q a)) as [l [L _]]. exists l. exact L.
  - destruct (press_log (code_now a r c) (accept r c true a)) as [l [L _]]. exists l. exact L.
  - destruct (release_log (code_now a r c) (accept r c false a)) as [l [L _]]. exists l. exact L.
Qed.
Lemma keys_grow : forall rd ps a b, keys_step rd ps a = Some b -> grows a b.
Proof.
  intros rd. induction ps as [|[r c] ps IH]; intros a b H; cbn [keys_step] in H.
  - inv H. apply grows_refl.
  - destruct (key_step rd r c a) as [x|] eqn:E; cbn [obind] in H; [|discriminate H].
    eapply grows_trans; [eapply key_grows; eauto|auto].
Qed.
Lemma send_grows : forall a, grows a (asend a).
Proof.
  intros x. unfold asend. destruct (a_qm x) as [|n q]; [|exists [EvSend n; EvDelayMs 40]; reflexivity].
  destruct (a_qk x) as [|n q]; [apply grows_refl|]. destruct (n <? 0xA0)%N; [exists [EvSend n]|exists []]; reflexivity.
Qed.
Lemma tick_grows : forall rd a b, atick rd a = Some b -> grows a b.
Proof.
  intros rd a b E. unfold atick, ascan in E. apply obind_some in E. destruct E as [z [EZ E]].
  eapply grows_trans; [apply send_grows|]. eapply grows_trans; eapply keys_grow; eauto.
Qed.
Lemma ticks_grow : forall rds a b, aticks rds a = Some b -> grows a b.
Proof.
  induction rds as [|rd rds IH]; intros a b E; cbn [aticks] in E; [inv E; apply grows_refl|].
  apply obind_some in E. destruct E as [z [EZ E]]. eapply grows_trans; [eapply tick_grows; eauto|auto].
Qed.
