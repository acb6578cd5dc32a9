(** Modifier, REPEAT, CAPS LED and strobe state over whole runs: C32-C35, C41. *)
From Coq Require Import List NArith ZArith Arith Bool Lia.
From Coq Require Import ZifyBool ZifyNat ZifyN.
From Verif Require Import Base Lib Buffer BufferSpec BufferProofs Repeat Devices DevSpec DevProofs
     Modifiers Hook KeymapData Asdf KeySpec KeyRef Obs Frames.
Import ListNotations.

Lemma set2_other : forall (f : nat -> nat -> bool) r c x r' c', (r <> r' \/ c <> c') -> set2 f r c x r' c' = f r' c'.
Proof. intros. unfold set2. replace ((r' =? r) && (c' =? c)) with false by lia. auto. Qed.
Lemma set2_same : forall (f : nat -> nat -> bool) r c x, set2 f r c x r c = x.
Proof. intros. unfold set2. rewrite !Nat.eqb_refl. auto. Qed.

(** A press or release of a code that is not the action [x] of interest. *)
Lemma press_ctrl : forall code a, decode code <> ACtrl -> m_ctrl (a_mod (apress code a)) = m_ctrl (a_mod a).
Proof. intros. unfold apress. destruct (0xA0 <? code)%N; [apply on_ctrl; auto|]. destruct (a_last a =? code)%N; auto. Qed.
Lemma release_ctrl : forall code a, decode code <> ACtrl -> m_ctrl (a_mod (arelease code a)) = m_ctrl (a_mod a).
Proof. intros. unfold arelease. destruct (0xA0 <? code)%N; [apply off_ctrl; auto|]. destruct (a_last a =? code)%N; auto. Qed.
Lemma press_act : forall code a x, decode code = x -> x <> AOther -> x <> ANothing ->
  apress code a = aaction_on code a.
Proof.
  intros code a x D H1 H2. unfold apress. destruct (N.ltb_spec 0xA0 code); auto.
  destruct (N.eq_dec code 0xA0); [subst code; cbn in D; congruence|]. rewrite decode_high in D by lia. congruence.
Qed.
Lemma release_act : forall code a x, decode code = x -> x <> AOther -> x <> ANothing ->
  arelease code a = aaction_off code a.
Proof.
  intros code a x D H1 H2. unfold arelease. destruct (N.ltb_spec 0xA0 code); auto.
  destruct (N.eq_dec code 0xA0); [subst code; cbn in D; congruence|]. rewrite decode_high in D by lia. congruence.
Qed.

(** ** C33 *)
Definition ctrl_codes (k : N) (m r c : nat) (code : N) : bool :=
  match decode code with ACtrl => (r =? 0) && (c =? 6) | _ => negb ((r =? 0) && (c =? 6)) end.
Lemma ctrl_codes_ok : all_codes ctrl_codes = true.
Proof. vm_compute. reflexivity. Qed.

Definition CtrlInv (a : akb) : Prop :=
  last_low a /\ m_ctrl (a_mod a) = (if a_dn a 0 6 then 1 else 0)%N.

Lemma ctrl_inv : forall rds a, arun rds = Some a -> CtrlInv a.
Proof.
  intros rds a. apply (ainv (fun _ => True)) with (rds := rds); [ | | | | | |apply True_all].
  - split; [unfold last_low; cbn; lia | reflexivity].
  - intros x [A B]. unfold CtrlInv, last_low. destruct (asend_dn x) as [-> _]. rewrite send_last, send_mod. auto.
  - intros x y H. exact H.
  - intros rd r c x _ [A B] Hr Hc Hk _ _. unfold CtrlInv. destruct (aheld_dn (code_now x r c) x) as [-> _].
    rewrite held_mod by auto. split; auto. apply held_last_low; auto.
  - intros rd r c x _ [A B] Hr Hc Hk _ HD.
    pose proof (code_now_check _ ctrl_codes_ok x r c Hk Hr Hc) as CC. unfold ctrl_codes in CC.
    unfold CtrlInv. split; [apply press_last_low; exact A|].
    destruct (apress_dn (code_now x r c) (accept r c true x)) as [-> _].
    cbn [a_dn accept put_dn].
    destruct (decode (code_now x r c)) eqn:D;
      try (rewrite press_ctrl by congruence; rewrite set2_other by lia; exact B).
    rewrite (press_act _ _ _ D) by discriminate. unfold aaction_on. rewrite D.
    assert (r = 0 /\ c = 6) as [-> ->] by lia. rewrite set2_same. reflexivity.
  - intros rd r c x _ [A B] Hr Hc Hk _ HD.
    pose proof (code_now_check _ ctrl_codes_ok x r c Hk Hr Hc) as CC. unfold ctrl_codes in CC.
    unfold CtrlInv. split; [apply release_last_low; exact A|].
    destruct (arelease_dn (code_now x r c) (accept r c false x)) as [-> _].
    cbn [a_dn accept put_dn].
    destruct (decode (code_now x r c)) eqn:D;
      try (rewrite release_ctrl by congruence; rewrite set2_other by lia; exact B).
    rewrite (release_act _ _ _ D) by discriminate. unfold aaction_off. rewrite D.
    assert (r = 0 /\ c = 6) as [-> ->] by lia. rewrite set2_same. reflexivity.
Qed.

(** (0, 6) is the CTRL key of all four matrices of keyboards 0-3 and no other
    key is. *)
Theorem C33_ctrl_iff_key_down : forall rds s, run rds = Ok s -> ctrl_on s = down s 0 6.
Proof.
  intros rds s H. destruct (reach _ _ H) as [a [A RL]]. destruct (ctrl_inv _ _ A) as [_ B].
  unfold ctrl_on. rewrite (rl_mod _ _ RL), (down_ok _ _ _ _ RL), B by lia. destruct (a_dn a 0 6); reflexivity.
Qed.
Print Assumptions C33_ctrl_iff_key_down.

Theorem C33_ctrl_key : forall k m r c, (k < 4)%N -> m < 4 -> r < 9 -> c < 8 ->
  (code_at k m r c = 0xA5%N <-> r = 0 /\ c = 6).
Proof.
  intros k m r c Hk Hm Hr Hc.
  assert (F : all_codes (fun _ _ r c code => Bool.eqb (code =? 0xA5)%N ((r =? 0) && (c =? 6))) = true)
    by (vm_compute; reflexivity).
  pose proof (codes_check _ F k m r c Hk Hm Hr Hc) as X. apply eqb_prop in X. lia.
Qed.
Print Assumptions C33_ctrl_key.

(** CTRL held while the keymap is switched, then released. *)
Example C33_example :
  obs (fun s => (k_cur s, ctrl_on s)) (run (hold 12 [(0, 6)] ++ hold 12 [(0, 6); (8, 1)])) = Some (2%N, true) /\
  obs (fun s => (k_cur s, ctrl_on s)) (run (hold 12 [(0, 6)] ++ hold 12 [(0, 6); (8, 1)] ++ hold 10 [(8, 1)])) = Some (2%N, false).
Proof. vm_compute. auto. Qed.

(** ** C34 *)
Definition shift_codes (k : N) (m r c : nat) (code : N) : bool :=
  match decode code with
  | AShift => (r =? 0) && ((c =? 1) || (c =? 2))
  | AShiftlockOn | AShiftlockToggle => false
  | _ => negb ((r =? 0) && ((c =? 1) || (c =? 2)))
  end.
Lemma shift_codes_ok : all_codes shift_codes = true.
Proof. vm_compute. reflexivity. Qed.
Definition is_shift (r c : nat) : bool := (r =? 0) && ((c =? 1) || (c =? 2)).

Lemma press_shift : forall k m r c a code, shift_codes k m r c code = true ->
  m_shift (a_mod (apress code a)) = if is_shift r c then 1%N else m_shift (a_mod a).
Proof.
  intros k m r c a code H. unfold shift_codes, is_shift in *. destruct (decode code) eqn:D;
    try discriminate; rewrite ?H; try (apply negb_true_iff in H; rewrite H);
    try (unfold apress; destruct (0xA0 <? code)%N; [apply on_shift; congruence|]; destruct (a_last a =? code)%N; auto; fail).
  rewrite (press_act _ _ _ D) by discriminate. unfold aaction_on. rewrite D. reflexivity.
Qed.
Lemma release_shift : forall k m r c a code, shift_codes k m r c code = true ->
  m_shift (a_mod (arelease code a)) = if is_shift r c then 0%N else m_shift (a_mod a).
Proof.
  intros k m r c a code H. unfold shift_codes, is_shift in *. destruct (decode code) eqn:D;
    try discriminate; rewrite ?H; try (apply negb_true_iff in H; rewrite H);
    try (unfold arelease; destruct (0xA0 <? code)%N; [apply off_shift; congruence|]; destruct (a_last a =? code)%N; auto; fail).
  rewrite (release_act _ _ _ D) by discriminate. unfold aaction_off. rewrite D. reflexivity.
Qed.

(** One key step: a SHIFT key that changes decides, other steps leave SHIFT. *)
Lemma key_step_shift : forall rd r c a a', key_step rd r c a = Some a' -> last_low a -> r < 9 -> c < 8 ->
  last_low a' /\
  m_shift (a_mod a') = if is_shift r c && negb (Bool.eqb (a_dn a' r c) (a_dn a r c))
                       then (if a_dn a' r c then 1 else 0)%N else m_shift (a_mod a).
Proof.
  intros rd r c a a' E L Hr Hc. destruct (key_step_cases _ _ _ _ _ E) as [H1 H2|H1 H2|H0 H1 H2|H0 H1 H2 H3|H0 H1 H2 H3].
  - rewrite eqb_reflx, andb_false_r. auto.
  - cbn [a_dn put_ct a_mod]. rewrite eqb_reflx, andb_false_r. auto.
  - destruct (aheld_dn (code_now a r c) a) as [-> _]. rewrite eqb_reflx, andb_false_r, held_mod by auto.
    split; auto. apply held_last_low; auto.
  - pose proof (code_now_check _ shift_codes_ok a r c H0 Hr Hc) as S.
    destruct (apress_dn (code_now a r c) (accept r c true a)) as [-> _].
    split; [apply press_last_low; exact L|]. rewrite (press_shift _ _ _ _ _ _ S).
    cbn [a_dn a_mod accept put_dn put_ct]. rewrite set2_same, H2. cbn [Bool.eqb negb]. rewrite andb_true_r. auto.
  - pose proof (code_now_check _ shift_codes_ok a r c H0 Hr Hc) as S.
    destruct (arelease_dn (code_now a r c) (accept r c false a)) as [-> _].
    split; [apply release_last_low; exact L|]. rewrite (release_shift _ _ _ _ _ _ S).
    cbn [a_dn a_mod accept put_dn put_ct]. rewrite set2_same, H2. cbn [Bool.eqb negb]. rewrite andb_true_r. auto.
Qed.

Lemma keys_no_shift : forall rd ps a a', keys_step rd ps a = Some a' -> last_low a -> (a_cur a < 6)%N ->
  Forall (fun p => snd p < 8 /\ is_shift (fst p) (snd p) = false) ps ->
  Forall (fun p => fst p < 9) ps \/ (4 <= a_cur a)%N ->
  last_low a' /\ m_shift (a_mod a') = m_shift (a_mod a).
Proof.
  induction ps as [|[r c] ps IH]; intros a a' E L HC HF HR; cbn [keys_step] in E.
  - inv E. auto.
  - destruct (key_step rd r c a) as [a1|] eqn:E1; [|discriminate]. cbn [obind] in E. inv HF. cbn [fst snd] in H1.
    destruct (key_step_rows _ _ _ _ _ E1 HC) as [C1 C2].
    assert (X : last_low a1 /\ m_shift (a_mod a1) = m_shift (a_mod a)).
    { destruct HR as [HR|HR].
      - inv HR. destruct (key_step_shift _ _ _ _ _ E1 L) as [L1 S1]; try tauto. cbn [fst] in H3.
        rewrite (proj2 H1) in S1. auto.
      - destruct (key_step_cases _ _ _ _ _ E1); try lia; auto. }
    destruct X as [L1 S1]. destruct (IH a1 a' E L1 C1 H2) as [L2 S2].
    + destruct HR as [HR|HR]; [inv HR; auto|]. right. rewrite C2; auto.
    + split; auto. congruence.
Qed.

Definition after_shift : list (nat * nat) := skipn 3 (grid 0 9).
Lemma grid_split : grid 0 9 = (0, 0) :: (0, 1) :: (0, 2) :: after_shift.
Proof. reflexivity. Qed.
Lemma after_shift_no : forall c, c < 3 -> existsb (fun p => (fst p =? 0) && (snd p =? c)) after_shift = false.
Proof. intros c H. destruct c as [|[|[|c]]]; [reflexivity..|lia]. Qed.
Lemma after_shift_all : Forall (fun p => snd p < 8 /\ is_shift (fst p) (snd p) = false) after_shift /\
  Forall (fun p => fst p < 9) after_shift.
Proof.
  split; apply Forall_forall; intros [u v] Hp;
    (assert (B : forallb (fun p => (snd p <? 8) && negb (is_shift (fst p) (snd p)) && (fst p <? 9)) after_shift = true) by reflexivity);
    rewrite forallb_forall in B; specialize (B _ Hp); cbn [fst snd] in *; apply andb_true_iff in B; destruct B as [B B3];
    apply andb_true_iff in B; destruct B as [B1 B2]; apply negb_true_iff in B2; [split; auto|]; lia.
Qed.
Lemma after_shift_nodup : NoDup after_shift.
Proof.
  pose proof (NoDup_grid 0 9) as ND. rewrite grid_split in ND. apply NoDup_cons_iff in ND. destruct ND as [_ ND].
  apply NoDup_cons_iff in ND. destruct ND as [_ ND]. apply NoDup_cons_iff in ND. apply ND.
Qed.
Lemma keys_cons : forall rd r c ps a, keys_step rd ((r, c) :: ps) a = obind (key_step rd r c a) (keys_step rd ps).
Proof. reflexivity. Qed.
Lemma keys_none : forall rd r a, keys_step rd (grid r 0) a = Some a.
Proof. reflexivity. Qed.

(** The complete behaviour of SHIFT over one tick. *)
Lemma tick_shift : forall rd a a', atick rd a = Some a' -> last_low a -> (a_cur a < 6)%N ->
  last_low a' /\ m_shift (a_mod a') =
    if negb (Bool.eqb (a_dn a' 0 2) (a_dn a 0 2)) then (if a_dn a' 0 2 then 1 else 0)%N
    else if negb (Bool.eqb (a_dn a' 0 1) (a_dn a 0 1)) then (if a_dn a' 0 1 then 1 else 0)%N
    else m_shift (a_mod a).
Proof.
  intros rd a a' E L HC. unfold atick, ascan in E.
  assert (L0 : last_low (asend a)) by (unfold last_low in *; rewrite send_last; auto).
  assert (C0 : (a_cur (asend a) < 6)%N) by (rewrite send_cur; auto).
  rewrite <- (send_mod a). destruct (asend_dn a) as [<- _].
  revert L0 C0 E. generalize (asend a). clear L HC a. intros a L HC E.
  apply obind_some in E. destruct E as [z [EZ E]]. rewrite grid_split in EZ. rewrite !keys_cons in EZ.
  apply obind_some in EZ. destruct EZ as [a0 [E0 EZ]]. rewrite keys_cons in EZ.
  apply obind_some in EZ. destruct EZ as [a1 [E1 EZ]]. rewrite keys_cons in EZ.
  apply obind_some in EZ. destruct EZ as [a2 [E2 EZ]].
  destruct (key_step_shift _ _ _ _ _ E0 L) as [L0 S0]; try lia.
  destruct (key_step_shift _ _ _ _ _ E1 L0) as [L1 S1]; try lia.
  destruct (key_step_shift _ _ _ _ _ E2 L1) as [L2 S2]; try lia.
  destruct (key_step_rows _ _ _ _ _ E0 HC) as [C0 _]. destruct (key_step_rows _ _ _ _ _ E1 C0) as [C1 _].
  destruct (key_step_rows _ _ _ _ _ E2 C1) as [C2 _].
  destruct after_shift_all as [FR1 FR2].
  destruct (keys_no_shift _ _ _ _ EZ L2 C2 FR1 (or_introl FR2)) as [L3 S3].
  destruct (keys_cur_high _ _ _ _ EZ C2) as [C3 _].
  assert (HI : last_low a' /\ m_shift (a_mod a') = m_shift (a_mod z)).
  { destruct (N.leb_spec 4 (a_cur z)).
    - apply (keys_no_shift _ _ _ _ E L3 C3); auto. apply Forall_forall. intros [u v] Hp. unfold grid in Hp.
      apply in_prod_iff in Hp. rewrite !in_seq in Hp. cbn [fst snd]. unfold is_shift. split; lia.
    - rewrite rows_9, Nat.sub_diag, keys_none in E by auto. inv E. auto. }
  destruct HI as [L4 S4]. split; auto. rewrite S4, S3, S2, S1, S0.
  assert (D2 : a_dn a' 0 2 = a_dn a2 0 2 /\ a_dn a' 0 1 = a_dn a2 0 1).
  { assert (K : forall c, c < 3 -> a_dn a' 0 c = a_dn a2 0 c).
    { intros c X. pose proof (keys_step_db _ _ _ _ 0 c E (NoDup_grid _ _)) as Y.
      pose proof (keys_step_db _ _ _ _ 0 c EZ after_shift_nodup) as Z. rewrite (after_shift_no _ X) in Z.
      match type of Y with context [existsb ?f ?l] => destruct (existsb f l) eqn:W end; [apply in_grid in W; lia|].
      congruence. }
    split; apply K; lia. }
  destruct D2 as [-> ->].
  destruct (key_step_frame _ _ _ _ _ 0 1 E2 ltac:(lia)) as [-> _].
  destruct (key_step_frame _ _ _ _ _ 0 2 E1 ltac:(lia)) as [-> _].
  destruct (key_step_frame _ _ _ _ _ 0 2 E0 ltac:(lia)) as [-> _].
  destruct (key_step_frame _ _ _ _ _ 0 1 E0 ltac:(lia)) as [-> _].
  cbn [is_shift Nat.eqb orb andb]. 
  destruct (negb (Bool.eqb (a_dn a2 0 2) (a_dn a 0 2))); auto.
Qed.

Lemma run_low : forall rds a, arun rds = Some a -> last_low a.
Proof. intros rds a H. apply (ctrl_inv _ _ H). Qed.

(** SHIFT after a tick is decided by the SHIFT keys that change in it, the right
    one (scanned last) first; without such a change it stays.  Missing against
    the wanted claim: with both SHIFT keys down, releasing one switches SHIFT
    off. *)
Theorem C34_shift_tick_partial : forall rds rd s s', run rds = Ok s -> run (rds ++ [rd]) = Ok s' ->
  shift_on s' =
    if negb (Bool.eqb (down s' 0 2) (down s 0 2)) then down s' 0 2
    else if negb (Bool.eqb (down s' 0 1) (down s 0 1)) then down s' 0 1
    else shift_on s.
Proof.
  intros rds rd s s' H H'. destruct (reach _ _ H) as [a [A RL]]. destruct (reach _ _ H') as [a' [A' RL']].
  unfold arun in A'. rewrite aticks_app in A'. fold (arun rds) in A'. rewrite A in A'. cbn [obind aticks] in A'.
  destruct (atick rd a) as [b|] eqn:E; [|discriminate]. cbn in A'. inv A'.
  destruct (tick_shift _ _ _ E (run_low _ _ A)) as [_ S].
  { apply (rl_lt _ _ RL). }
  unfold shift_on. rewrite (rl_mod _ _ RL), (rl_mod _ _ RL'), S, !(down_ok _ _ _ _ RL), !(down_ok _ _ _ _ RL') by lia.
  destruct (Bool.eqb (a_dn a' 0 2) (a_dn a 0 2)); cbn [negb].
  - destruct (Bool.eqb (a_dn a' 0 1) (a_dn a 0 1)); cbn [negb]; auto. destruct (a_dn a' 0 1); reflexivity.
  - destruct (a_dn a' 0 2); reflexivity.
Qed.
Print Assumptions C34_shift_tick_partial.

(** Never active without a SHIFT key down. *)
Theorem C34_shift_only_while_down : forall rds s, run rds = Ok s ->
  shift_on s = true -> down s 0 1 = true \/ down s 0 2 = true.
Proof.
  induction rds as [|rd rds IH] using rev_ind; intros s H HS.
  - assert (X : obs shift_on (run []) = Some false) by (vm_compute; reflexivity).
    rewrite H in X. cbn in X. congruence.
  - pose proof H as H'. rewrite run_app in H'. destruct (run rds) as [s0|] eqn:E0; [|discriminate].
    rewrite (C34_shift_tick_partial _ _ _ _ E0 H) in HS. specialize (IH _ eq_refl).
    destruct (Bool.eqb (down s 0 2) (down s0 0 2)) eqn:B2; cbn [negb] in HS; auto.
    destruct (Bool.eqb (down s 0 1) (down s0 0 1)) eqn:B1; cbn [negb] in HS; auto.
    apply eqb_prop in B1, B2. rewrite B1, B2. auto.
Qed.
Print Assumptions C34_shift_only_while_down.

(** With only one of the two keys in use, SHIFT is exactly that key. *)
Theorem C34_single_shift_key : forall rds s c, c = 1 \/ c = 2 ->
  Forall (fun rd => reading rd 0 (3 - c) = false) rds ->
  run rds = Ok s -> shift_on s = down s 0 c.
Proof.
  intros rds s c Hc HF H.
  assert (NO : forall rds s, Forall (fun rd => reading rd 0 (3 - c) = false) rds -> run rds = Ok s -> down s 0 (3 - c) = false).
  { clear. intros rds s HF H. destruct (reach _ _ H) as [a [A RL]].
    destruct (Nat.ltb_spec (3 - c) 8); [|lia].
    rewrite (down_ok _ _ _ _ RL) by lia.
    pose proof (key_hist _ _ 0 (3 - c) A ltac:(lia) H0) as K.
    assert (X : fold_left db (key_readings rds 0 (3 - c)) (false, 10%N) = (false, 10%N)).
    { clear -HF. induction HF as [|x l Hx HF IH]; auto. cbn [key_readings map fold_left]. rewrite Hx. exact IH. }
    rewrite X in K. congruence. }
  revert s HF H. induction rds as [|rd rds IH] using rev_ind; intros s HF H.
  - assert (X : obs (fun s => (shift_on s, down s 0 1, down s 0 2)) (run []) = Some (false, false, false)) by (vm_compute; reflexivity).
    rewrite H in X. cbn [obs] in X. destruct Hc; subst c; congruence.
  - pose proof (NO _ _ HF H) as N1. apply Forall_app in HF. destruct HF as [HF _].
    pose proof H as H'. rewrite run_app in H'. destruct (run rds) as [s0|] eqn:E0; [|discriminate].
    pose proof (NO _ _ HF E0) as N0. specialize (IH _ HF eq_refl).
    rewrite (C34_shift_tick_partial _ _ _ _ E0 H).
    destruct Hc; subst c; cbn [Nat.sub] in N0, N1; rewrite N0, N1; cbn [Bool.eqb negb]; rewrite ?IH.
    + destruct (down s 0 1), (down s0 0 1); reflexivity.
    + destruct (down s 0 2), (down s0 0 2); reflexivity.
Qed.
Print Assumptions C34_single_shift_key.

Theorem C34_shift_while_any_down_refuted : exists rds s, run rds = Ok s /\
  down s 0 1 = true /\ down s 0 2 = false /\ shift_on s = false.
Proof.
  exists (hold 10 [(0, 1); (0, 2)] ++ hold 10 [(0, 1)]).
  assert (X : obs (fun s => (down s 0 1, down s 0 2, shift_on s)) (run (hold 10 [(0, 1); (0, 2)] ++ hold 10 [(0, 1)])) =
              Some (true, false, false)) by (vm_compute; reflexivity).
  apply obs_some in X. destruct X as [s [E X]]. exists s. inversion X. auto.
Qed.
Print Assumptions C34_shift_while_any_down_refuted.

Example C34_example :
  obs (fun s => (down s 0 1, shift_on s)) (run (hold 10 [(0, 1)] ++ hold 5 [(0, 1); (3, 3)])) = Some (true, true).
Proof. vm_compute. reflexivity. Qed.
