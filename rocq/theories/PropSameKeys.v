(** Which differences between keymaps can be noticed (C141): the order and
    number of registrations cannot, the codes, messages and electrical lines can. *)
From Coq Require Import List NArith ZArith Arith Bool Lia.
From Coq Require Import ZifyBool ZifyNat ZifyN.
From Verif Require Import Base Lib Buffer Repeat Devices Modifiers Hook KeymapData Asdf KeySpec Obs PropDebounce
     Custom CustomSpec CustomRef PropCustom PropEvents PropFlow PropExact PropSession PropAllCalls PropLamps PropNoLoss PropOnce PropRate PropDeaf.
Import ListNotations.

(** ** Specification *)
(** The code of a key in table [mi] of a keyboard. *)
Definition cell (cs : list setup_cmd) (mi r c : nat) : N :=
  match table_of cs mi with Some (m, _, C) => nth (r * C + c) m 0%N | None => 0%N end.
(** The lines of a setup function that concern outputs, pauses, CAPS LOCK and
    strobe. *)
Definition electric (cs : list setup_cmd) : list setup_cmd :=
  filter (fun x => match x with SAddMap _ _ _ _ | SHook _ _ => false | _ => true end) cs.
(** Two setup functions that describe the same keyboard of R x C keys. *)
Definition same_keyboard (R C : nat) (cs cs' : list setup_cmd) : Prop :=
  (forall mi r c, mi < 4 -> r < R -> c < C -> cell cs mi r c = cell cs' mi r c) /\
  (forall id, 4 <= id -> id <= 14 -> shown (message_of cs id) = shown (message_of cs' id)) /\
  electric cs = electric cs'.
Definition same_firmware (R C : nat) (kbs kbs' : N -> option (list setup_cmd)) : Prop :=
  forall i, match kbs i, kbs' i with Some cs, Some cs' => same_keyboard R C cs cs' | None, None => True | _, _ => False end.
(** Two lines that register different things, at least one of them a table or a
    message. *)
Definition apart (x y : setup_cmd) : Prop :=
  match x, y with
  | SAddMap _ i _ _, SAddMap _ j _ _ => i <> j
  | SHook i _, SHook j _ => i <> j
  | SAddMap _ _ _ _, _ | SHook _ _, _ => True
  | _, SAddMap _ _ _ _ | _, SHook _ _ => True
  | _, _ => False
  end.

(** ** Proofs *)
Lemma sets_up_electric : forall cs caps n, sets_up cs caps n = sets_up (electric cs) caps n.
Proof.
  intros cs. induction cs as [|x cs IH]; intros caps n; [reflexivity|]. unfold electric in *. destruct x; cbn [filter sets_up]; rewrite ?IH; try reflexivity.
  destruct (lamp VCAPS_LED (negb caps) n). rewrite IH. reflexivity.
Qed.
Lemma caps_electric : forall cs, caps_toggles cs = caps_toggles (electric cs).
Proof.
  intros cs. unfold caps_toggles, electric. induction cs as [|x cs IH]; [reflexivity|]. destruct x; cbn [filter length]; rewrite ?IH; reflexivity.
Qed.
Section Same.
Variable R C : nat.
Variable kbs kbs' : N -> option (list setup_cmd).
Hypothesis same : same_firmware R C kbs kbs'.

Lemma same_code : forall e r c, r < R -> c < C -> code_in kbs e r c = code_in kbs' e r c.
Proof.
  intros e r c HR HC. unfold code_in. specialize (same (e_kb e)). destruct (kbs (e_kb e)) as [cs|], (kbs' (e_kb e)) as [cs'|]; try contradiction; [|reflexivity].
  destruct same as [X _]. apply (X (map_in e) r c); [|exact HR|exact HC]. unfold map_in. destruct (e_ctrl e), (e_shift e || e_lock e), (e_caps e); lia.
Qed.
Lemma same_prints : forall id t, 4 <= id -> id <= 14 -> prints kbs id t = prints kbs' id t.
Proof.
  intros id t H1 H2. unfold prints. specialize (same (e_kb (t_set t))). destruct (kbs _) as [cs|], (kbs' _) as [cs'|]; try contradiction; [|reflexivity].
  destruct same as [_ [X _]]. rewrite (X id H1 H2). reflexivity.
Qed.
Lemma same_odd : forall cs cs', electric cs = electric cs' -> Nat.odd (caps_toggles cs) = Nat.odd (caps_toggles cs').
Proof. intros cs cs' E. rewrite (caps_electric cs), (caps_electric cs'), E. reflexivity. Qed.
Lemma same_choose : forall i e, choose kbs i e = choose kbs' i e.
Proof.
  intros i e. unfold choose. destruct (i =? e_kb e)%N; [reflexivity|]. specialize (same i). destruct (kbs i) as [cs|], (kbs' i) as [cs'|]; try contradiction; [|reflexivity].
  destruct same as [_ [_ X]]. rewrite (same_odd cs cs' X). reflexivity.
Qed.
Lemma same_selects : forall i e n, PropAllCalls.selects kbs i e n = PropAllCalls.selects kbs' i e n.
Proof.
  intros i e n. unfold PropAllCalls.selects. destruct (i =? e_kb e)%N; [reflexivity|]. specialize (same i). destruct (kbs i) as [cs|], (kbs' i) as [cs'|]; try contradiction; [|reflexivity].
  destruct same as [_ [_ X]]. rewrite (sets_up_electric cs), (sets_up_electric cs'), X. reflexivity.
Qed.
Lemma fn_range : forall x n, decode x = AFn n -> 1 <= n.
Proof.
  intros x n. unfold decode. repeat match goal with |- context [if ?b then _ else _] => let E := fresh "E" in destruct b eqn:E; [try discriminate|] end; [|discriminate].
  intros H. injection H as <-. lia.
Qed.
Lemma same_step : forall o r c m, r < R -> c < C -> moves kbs o (r, c, m) = moves kbs' o (r, c, m).
Proof.
  intros [t n l] r c m HR HC. unfold moves. cbn [o_typist o_panel o_calls acts moved]. rewrite (same_code (t_set t) r c HR HC). set (x := code_in kbs' (t_set t) r c).
  assert (A : (match m with
     | Press => on_press kbs x t | Release => on_release kbs x t | Held => on_held x t end) =
     (match m with Press => on_press kbs' x t | Release => on_release kbs' x t | Held => on_held x t end)).
  { destruct m; [| |reflexivity].
    - unfold on_press. destruct (x <=? 0xA0)%N; [reflexivity|]. unfold after_press. destruct (decode x) eqn:D; try reflexivity; try (apply same_prints; lia).
      + rewrite same_choose. reflexivity.
      + destruct (Nat.leb_spec n0 10); [|reflexivity]. apply same_prints; lia.
    - unfold on_release. destruct (x <=? 0xA0)%N; [reflexivity|]. unfold after_release. destruct (decode x); try reflexivity. rewrite same_choose. reflexivity. }
  rewrite A. destruct m; [| |reflexivity]; destruct (decode x); try reflexivity; rewrite same_selects; reflexivity.
Qed.
Lemma same_begins : forall o, begins kbs o = begins kbs' o.
Proof. intros [t n l]. unfold begins, scan_starts. cbn [o_typist o_panel o_calls]. rewrite same_prints by lia. reflexivity. Qed.
Lemma same_fold : forall l o, (forall v, In v l -> fst (fst v) < R /\ snd (fst v) < C) -> fold_left (moves kbs) l o = fold_left (moves kbs') l o.
Proof.
  intros l. induction l as [|[[r c] m] l IH]; intros o H; [reflexivity|]. cbn [fold_left]. destruct (H (r, c, m) (or_introl eq_refl)) as [HR HC]. cbn [fst snd] in HR, HC.
  rewrite (same_step o r c m HR HC). apply IH. intros v I. apply H. right. exact I.
Qed.
Lemma in_matrix : forall pre rd v, In v (scan_moves R C pre rd) -> fst (fst v) < R /\ snd (fst v) < C.
Proof.
  intros pre rd v I. unfold scan_moves in I. apply in_flat_map in I as [r [Ir I]]. apply in_flat_map in I as [c [Ic I]]. apply in_seq in Ir, Ic.
  unfold key_moves in I. destruct (accepted_after pre r c), (accepted_after (pre ++ [rd]) r c); try destruct (reading rd r c); cbn [In] in I; try contradiction; destruct I as [<-|[]]; cbn [fst snd]; lia.
Qed.
Lemma same_works : forall rds pre o, works_on kbs R C pre rds o = works_on kbs' R C pre rds o.
Proof.
  intros rds. induction rds as [|rd rds IH]; intros pre o; [reflexivity|]. cbn [works_on]. rewrite same_begins, (same_fold _ _ (in_matrix pre rd)). apply IH.
Qed.
Lemma same_opens : opens kbs = opens kbs'.
Proof.
  unfold opens, starts, at_start. specialize (same 0%N). destruct (kbs 0%N) as [cs|], (kbs' 0%N) as [cs'|]; try contradiction; [|reflexivity].
  destruct same as [_ [_ X]]. rewrite (sets_up_electric cs), (sets_up_electric cs'), X, (same_odd cs cs' X). reflexivity.
Qed.
End Same.

(** ** C141 *)
Theorem C141_same_keyboards : forall R C kbs kbs' rds s s', sound_firmware R kbs -> same_size R C kbs -> sound_firmware R kbs' -> same_size R C kbs' ->
  same_firmware R C kbs kbs' -> c_run kbs rds = Ok s -> c_run kbs' rds = Ok s' -> events s = events s'.
Proof.
  intros R C kbs kbs' rds s s' HS HZ HS' HZ' HF E E'. rewrite (C108_all_calls R C kbs rds s HS HZ E), (C108_all_calls R C kbs' rds s' HS' HZ' E'). unfold calls_of_run.
  rewrite (same_opens R C kbs kbs' HF), (same_works R C kbs kbs' HF). reflexivity.
Qed.
Print Assumptions C141_same_keyboards.

(** Lines that register different things can be exchanged. *)
Lemma apart_same : forall R C a b x y, apart x y -> same_keyboard R C (a ++ x :: y :: b) (a ++ y :: x :: b).
Proof.
  intros R C a b x y A. split; [|split].
  - intros mi r c _ _ _. unfold cell, table_of. rewrite !fold_left_app. cbn [fold_left].
    match goal with |- context [fold_left ?f a None] => set (t := fold_left f a None) end.
    destruct x, y; cbn [apart] in A; try contradiction; try reflexivity.
    destruct (Nat.eqb_spec mi0 mi), (Nat.eqb_spec mi1 mi); cbn [andb]; try reflexivity. congruence.
  - intros id _ _. unfold message_of. rewrite !fold_left_app. cbn [fold_left].
    match goal with |- context [fold_left ?f a []] => set (t := fold_left f a []) end.
    destruct x, y; cbn [apart] in A; try contradiction; try reflexivity.
    destruct (Nat.eqb_spec id0 id), (Nat.eqb_spec id1 id); try reflexivity. congruence.
  - unfold electric. rewrite !filter_app. cbn [filter]. destruct x, y; cbn [apart] in A; try contradiction; reflexivity.
Qed.
Theorem C141_lines_commute : forall R C kbs i a x y b rds s s', sound_firmware R kbs -> same_size R C kbs ->
  kbs i = Some (a ++ x :: y :: b) -> apart x y ->
  let kbs' := fun j => if (j =? i)%N then Some (a ++ y :: x :: b) else kbs j in
  sound_firmware R kbs' -> same_size R C kbs' ->
  c_run kbs rds = Ok s -> c_run kbs' rds = Ok s' -> events s = events s'.
Proof.
  intros R C kbs i a x y b rds s s' HS HZ K A kbs' HS' HZ' E E'. apply (C141_same_keyboards R C kbs kbs' rds s s' HS HZ HS' HZ'); [|exact E|exact E'].
  intros j. unfold kbs'. destruct (N.eqb_spec j i) as [->|NE].
  - rewrite K. apply apart_same. exact A.
  - destruct (kbs j) as [cs|]; [|exact I]. split; [|split]; auto.
Qed.
Print Assumptions C141_lines_commute.

(** The same keyboard written in two ways: other order, a table and a message
    registered twice, keys beside the matrix. *)
Definition keys1 : list N := [97; 0xA7; 0xA4]%N.
Definition keys2 : list N := [65; 0xA7; 0xA4]%N.
Definition written1 (i : N) : option (list setup_cmd) :=
  if (i =? 0)%N then Some [SAddMap keys1 0 1 3; SAddMap keys2 1 1 3; SAddMap keys2 2 1 3; SAddMap keys1 3 1 3;
    SHook 5 (HPrint [79; 75]%N); SAssign VCAPS_LED LED1 V_NOFUNC 0; SCapslock] else None.
Definition written2 (i : N) : option (list setup_cmd) :=
  if (i =? 0)%N then Some [SHook 5 (HPrint [33]%N); SAssign VCAPS_LED LED1 V_NOFUNC 0; SAddMap keys1 2 1 3; SAddMap keys1 3 1 3; SCapslock;
    SAddMap keys2 2 1 3; SAddMap keys1 0 1 3; SHook 5 (HPrint [79; 75]%N); SAddMap (keys2 ++ [7; 8]%N) 1 1 3] else None.
Definition written3 (i : N) : option (list setup_cmd) :=
  if (i =? 0)%N then Some [SAddMap keys1 0 1 3; SAddMap keys2 1 1 3; SAddMap keys2 2 1 3; SAddMap keys1 3 1 3;
    SHook 5 (HPrint [79; 75]%N); SCapslock; SAssign VCAPS_LED LED1 V_NOFUNC 0] else None.
Lemma written_sound : (sound_firmware 1 written1 /\ same_size 1 3 written1) /\ (sound_firmware 1 written3 /\ same_size 1 3 written3).
Proof.
  split; (split; [split|]).
  1, 4: eexists; reflexivity.
  1, 3: intros i cs E1; unfold written1, written3 in E1; destruct (N.eqb_spec i 0); inv E1; split; [lia|]; apply (sound_b_ok 1 1 3); vm_compute; reflexivity.
  all: intros i cs mi E1 Hm; unfold written1, written3 in E1; destruct (i =? 0)%N; inv E1; do 4 (destruct mi as [|mi]; [eexists; vm_compute; reflexivity|]); lia.
Qed.
Definition some_use : list (nat -> N) := hold 12 [(0, 0)] ++ hold 12 [(0, 2)] ++ hold 12 [(0, 1)] ++ hold 12 [(0, 0)] ++ hold 12 [].
Example C141_example : (sound_firmware 1 written1 /\ same_size 1 3 written1) /\ (sound_firmware 1 written2 /\ same_size 1 3 written2) /\
  same_firmware 1 3 written1 written2 /\
  obs sent (c_run written1 some_use) = Some [65; 79; 75; 97]%N /\
  obs sent (c_run written2 some_use) = Some [65; 79; 75; 97]%N /\
  obs events (c_run written1 some_use) = obs events (c_run written2 some_use).
Proof.
  split; [apply written_sound|]. split; [|split; [|split; [|split]; vm_compute; reflexivity]].
  { split; [split|].
    - eexists. reflexivity.
    - intros i cs E1. unfold written2 in E1. destruct (N.eqb_spec i 0); inv E1. split; [lia|]. apply (sound_b_ok 1 1 3); vm_compute; reflexivity.
    - intros i cs mi E1 Hm. unfold written2 in E1. destruct (i =? 0)%N; inv E1. do 4 (destruct mi as [|mi]; [eexists; vm_compute; reflexivity|]). lia. }
  intros i. unfold written1, written2. destruct (i =? 0)%N; [|exact I]. split; [|split].
  - intros mi r c Hm Hr Hc. assert (r = 0) as -> by lia. do 4 (destruct mi as [|mi]; [do 3 (destruct c as [|c]; [vm_compute; reflexivity|]); lia|]). lia.
  - intros id H1 H2. do 4 (destruct id as [|id]; [lia|]). do 11 (destruct id as [|id]; [vm_compute; reflexivity|]). lia.
  - reflexivity.
Qed.
(** The lines that concern outputs and CAPS LOCK cannot be exchanged: a lamp
    assigned after CAPS LOCK was toggled stays dark. *)
Theorem C141_lamp_after_caps_refuted : exists kbs kbs' rds s s', sound_firmware 1 kbs /\ same_size 1 3 kbs /\ sound_firmware 1 kbs' /\ same_size 1 3 kbs' /\
  (forall mi r c cs cs', kbs 0%N = Some cs -> kbs' 0%N = Some cs' -> cell cs mi r c = cell cs' mi r c) /\
  (forall x cs cs', kbs 0%N = Some cs -> kbs' 0%N = Some cs' -> In x cs <-> In x cs') /\
  c_run kbs rds = Ok s /\ c_run kbs' rds = Ok s' /\ In (EvOut LED1 1%N) (events s) /\ ~ In (EvOut LED1 1%N) (events s').
Proof.
  exists written1, written3, [].
  assert (X : forall (o : outcome kb) (P : kb -> Prop), match o with Ok s => P s | Bad _ => False end -> exists s, o = Ok s /\ P s).
  { intros [s|u] P H; [eauto|contradiction]. }
  destruct (X (c_run written1 []) (fun s => In (EvOut LED1 1%N) (events s))) as [s [E1 E2]]; [vm_compute; tauto|].
  destruct (X (c_run written3 []) (fun s => ~ In (EvOut LED1 1%N) (events s))) as [s' [E1' E2']]; [vm_compute; intuition discriminate|].
  exists s, s'. destruct written_sound as [[A1 A2] [B1 B2]]. split; [exact A1|]. split; [exact A2|]. split; [exact B1|]. split; [exact B2|].
  split; [|split; [|repeat split; assumption]].
  - intros mi r c cs cs' K K'. injection K as <-. injection K' as <-. reflexivity.
  - intros x cs cs' K K'. injection K as <-. injection K' as <-. cbn [In]. tauto.
Qed.
Print Assumptions C141_lamp_after_caps_refuted.
