(** Typing sessions on a firmware built from any keymaps (C105). *)
From Coq Require Import List NArith ZArith Arith Bool Lia.
From Coq Require Import ZifyBool ZifyNat ZifyN.
From Verif Require Import Base Lib Buffer Repeat Devices Modifiers Hook KeymapData Asdf KeySpec Obs PropDebounce
     Custom PropCustom PropEvents PropFlow PropExact.
Import ListNotations.

(** ** Specification *)

(** The matrix reads as pressed exactly the keys of [H]. *)
Definition reads (R C : nat) (H : nat -> nat -> bool) (rd : nat -> N) : Prop :=
  forall r c, r < R -> c < C -> reading rd r c = H r c.

(** A key that is no character key under any modes on any keyboard. *)
Definition mode_key (kbs : N -> option (list setup_cmd)) (r c : nat) : Prop :=
  forall e, kbs (e_kb e) <> None -> (0xA0 < code_in kbs e r c)%N.
(** Codes that neither print a message nor have to do with repeating. *)
Definition plain_code (x : N) : Prop :=
  match decode x with ARepeat | AAutorepeat | AHereIs | AFn _ => False | _ => True end.

(** How often a character is typed by a key pressed for [h] scans: once when it
    is accepted (after 10), again after 525 more, and then every 66. *)
Definition times (h : nat) : nat := if h <? 535 then 1 else 2 + (h - 535) / 66.

(** Sessions: the readings, the keys held and the modes at the end, and what is
    typed.  Nothing moves; or a mode key is pressed or released and nothing else
    moves for ten scans; or a character key is pressed for [h] scans, 10 or
    more, and released, and nothing else moves until ten scans after. *)
Inductive session (R C : nat) (kbs : N -> option (list setup_cmd)) :
  list (nat -> N) -> (nat -> nat -> bool) -> setting -> list N -> Prop :=
| session_start : session R C kbs [] (fun _ _ => false) (at_start kbs) []
| session_rest : forall rds H e out l, session R C kbs rds H e out ->
    Forall (reads R C H) l -> session R C kbs (rds ++ l) H e out
| session_mode : forall rds H e out l r c, session R C kbs rds H e out ->
    r < R -> c < C -> mode_key kbs r c -> plain_code (code_in kbs e r c) ->
    Forall (reads R C (set2 H r c (negb (H r c)))) l -> length l = 10 ->
    session R C kbs (rds ++ l) (set2 H r c (negb (H r c))) (after_event kbs e (r, c, negb (H r c))) out
| session_stroke : forall rds H e out l l' r c, session R C kbs rds H e out ->
    r < R -> c < C -> H r c = false -> (code_in kbs e r c < 0xA0)%N ->
    Forall (reads R C (set2 H r c true)) l -> 10 <= length l ->
    Forall (reads R C H) l' -> length l' = 10 ->
    session R C kbs (rds ++ l ++ l') H e (out ++ repeat (code_in kbs e r c) (times (length l))).

(** ** One key moves *)
Section Scan.
Variable R C : nat.
Variable kbs : N -> option (list setup_cmd).
Hypothesis quiet : scan_hook_free kbs.

Notation moved := (moved kbs).

Definition valid (t : typist) : Prop := (t_last t <= 0xA0)%N /\ kbs (e_kb (t_set t)) <> None.

Lemma choose_valid : forall i e, kbs (e_kb e) <> None -> kbs (e_kb (choose kbs i e)) <> None.
Proof.
  intros i e H. unfold choose. destruct (i =? e_kb e)%N; auto. destruct (kbs i) eqn:E; auto. cbn. congruence.
Qed.
Lemma press_valid : forall x e, kbs (e_kb e) <> None -> kbs (e_kb (after_press kbs x e)) <> None.
Proof. intros x e H. unfold after_press. destruct (decode x); cbn [e_kb]; auto using choose_valid. Qed.
Lemma release_valid : forall x e, kbs (e_kb e) <> None -> kbs (e_kb (after_release kbs x e)) <> None.
Proof. intros x e H. unfold after_release. destruct (decode x); cbn [e_kb]; auto using choose_valid. Qed.
Lemma prints_valid : forall id t, valid t -> valid (prints kbs id t).
Proof. intros id t V. unfold prints. destruct (kbs (e_kb (t_set t))) eqn:E; auto. Qed.
Lemma types_valid : forall x t, (x <= 0xA0)%N -> valid t -> valid (types x t).
Proof. intros x t HX [V1 V2]. unfold types. cbv zeta. destruct (x =? t_last t)%N; split; auto. Qed.
Lemma moved_valid : forall t v, valid t -> valid (moved t v).
Proof.
  intros t [[r c] m] V. unfold moved. cbv zeta. set (x := code_in kbs (t_set t) r c). pose proof V as [V1 V2]. destruct m.
  - unfold on_press. destruct (N.leb_spec x 0xA0); [apply types_valid; auto|].
    pose proof (press_valid x _ V2) as PV.
    destruct (decode x); try (split; [exact V1|exact PV]); auto using prints_valid.
    + destruct ((66 <? t_left t)%N || negb (t_fast t || t_auto t)); auto.
    + destruct (n <=? 10); auto using prints_valid.
  - unfold on_release. destruct (N.leb_spec x 0xA0).
    + destruct (x =? t_last t)%N; auto. split; cbn; [lia|auto].
    + pose proof (release_valid x _ V2) as PV. destruct (decode x); try (split; [exact V1|exact PV]); auto.
  - unfold on_held. destruct (N.eqb_spec x (t_last t)); cbn [andb]; auto. destruct (0 <? t_left t)%N; auto.
    destruct (t_left t =? 1)%N; auto. apply types_valid; [lia|]. exact V.
Qed.

Section Folds.
Variable A : Type.
Variable f : A -> list (nat * nat * move).
Lemma fold_valid : forall l t, valid t -> valid (fold_left moved l t).
Proof. induction l as [|v l IH]; intros t V; cbn [fold_left]; auto using moved_valid. Qed.
Lemma fold_none : forall l, (forall a, In a l -> forall t, valid t -> fold_left moved (f a) t = t) ->
  forall t, valid t -> fold_left moved (flat_map f l) t = t.
Proof.
  induction l as [|a l IH]; intros H t V; cbn [flat_map]; auto. rewrite fold_left_app, (H a); auto; [|left; auto].
  apply IH; auto. intros. apply H; auto. right; auto.
Qed.
Lemma fold_one : forall l a, NoDup l -> In a l ->
  (forall a', In a' l -> a' <> a -> forall t, valid t -> fold_left moved (f a') t = t) ->
  forall t, valid t -> fold_left moved (flat_map f l) t = fold_left moved (f a) t.
Proof.
  induction l as [|b l IH]; intros a ND HI H t V; [contradiction|]. inv ND. cbn [flat_map]. rewrite fold_left_app.
  destruct HI as [-> |HI].
  - apply fold_none; [|apply fold_valid; auto]. intros a' Ha'. apply H; [right; auto|]. intros ->. contradiction.
  - rewrite (H b); auto; [|left; auto|intros ->; contradiction].
    apply IH; auto. intros a' Ha'. apply H. right; auto.
Qed.
End Folds.

(** All keys rest in [H], except that (r, c) is in debouncing state [d]. *)
Definition resting (pre : list (nat -> N)) (H : nat -> nat -> bool) : Prop :=
  forall r c, r < R -> c < C -> dstate (key_readings pre r c) = (H r c, 10%N).
Definition resting_but (pre : list (nat -> N)) (H : nat -> nat -> bool) (r c : nat) (d : bool * N) : Prop :=
  (forall r' c', r' < R -> c' < C -> (r', c') <> (r, c) -> dstate (key_readings pre r' c') = (H r' c', 10%N)) /\
  dstate (key_readings pre r c) = d.
Definition modes_only (H : nat -> nat -> bool) : Prop := forall r c, r < R -> c < C -> H r c = true -> mode_key kbs r c.

Definition target (d : bool * N) (b : bool) (r c : nat) : list (nat * nat * move) :=
  match fst d, fst (db d b) with
  | false, true => [(r, c, Press)]
  | true, false => [(r, c, Release)]
  | true, true => if b then [(r, c, Held)] else []
  | false, false => []
  end.

Lemma key_snoc : forall pre rd r c, dstate (key_readings (pre ++ [rd]) r c) = db (dstate (key_readings pre r c)) (reading rd r c).
Proof. intros. rewrite key_readings_app. change (key_readings [rd] r c) with [reading rd r c]. apply dstate_snoc. Qed.
Lemma moves_target : forall pre rd r c, key_moves pre rd r c = target (dstate (key_readings pre r c)) (reading rd r c) r c.
Proof. intros. unfold key_moves, target, accepted_after. rewrite key_snoc. reflexivity. Qed.
Lemma db_same : forall b n, db (b, n) b = (b, n).
Proof. intros. unfold db. cbn [fst]. rewrite Bool.eqb_reflx. reflexivity. Qed.

Lemma held_still : forall r c t, mode_key kbs r c -> valid t -> moved t (r, c, Held) = t.
Proof.
  intros r c t M [V1 V2]. cbn [PropExact.moved]. unfold on_held. pose proof (M _ V2).
  replace (code_in kbs (t_set t) r c =? t_last t)%N with false by lia. reflexivity.
Qed.
Lemma other_still : forall pre rd H r c, modes_only H -> r < R -> c < C ->
  dstate (key_readings pre r c) = (H r c, 10%N) -> reading rd r c = H r c ->
  forall t, valid t -> fold_left moved (key_moves pre rd r c) t = t.
Proof.
  intros pre rd H r c M Hr Hc D E t V. rewrite moves_target, D, E. unfold target. rewrite db_same. cbn [fst].
  destruct (H r c) eqn:EH; auto. cbn [fold_left]. apply held_still; auto.
Qed.

Lemma scan_rest : forall pre rd H t, resting pre H -> modes_only H -> reads R C H rd -> valid t ->
  fold_left moved (scan_moves R C pre rd) t = t /\ resting (pre ++ [rd]) H.
Proof.
  intros pre rd H t D M HR V. split.
  - unfold scan_moves. apply fold_none; auto. intros r Hr. apply in_seq in Hr.
    apply fold_none. intros c Hc. apply in_seq in Hc. apply (other_still pre rd H); auto; try lia.
    + apply D; lia.
    + apply HR; lia.
  - intros r c Hr Hc. rewrite key_snoc, D, HR by auto. apply db_same.
Qed.
Lemma scan_one : forall pre rd H r c d b t, resting_but pre H r c d -> modes_only H -> r < R -> c < C ->
  reads R C (set2 H r c b) rd -> valid t ->
  fold_left moved (scan_moves R C pre rd) t = fold_left moved (target d b r c) t /\
  resting_but (pre ++ [rd]) H r c (db d b).
Proof.
  intros pre rd H r c d b t [D1 D2] M Hr Hc HR V.
  assert (RT : reading rd r c = b) by (rewrite HR by auto; unfold set2; rewrite !Nat.eqb_refl; auto).
  assert (RO : forall r' c', r' < R -> c' < C -> (r', c') <> (r, c) -> reading rd r' c' = H r' c').
  { intros r' c' Hr' Hc' NE. rewrite HR by auto. unfold set2.
    destruct (Nat.eqb_spec r' r), (Nat.eqb_spec c' c); cbn [andb]; auto. subst. congruence. }
  split.
  - unfold scan_moves. rewrite (fold_one _ _ (seq 0 R) r); auto.
    + rewrite (fold_one _ _ (seq 0 C) c); auto.
      * rewrite moves_target, D2, RT. reflexivity.
      * apply seq_NoDup.
      * apply in_seq. lia.
      * intros c' Hc' NE. apply in_seq in Hc'. apply (other_still pre rd H); auto; try lia.
        -- apply D1; auto; [lia|congruence].
        -- apply RO; auto; [lia|congruence].
    + apply seq_NoDup.
    + apply in_seq. lia.
    + intros r' Hr' NE. apply in_seq in Hr'. apply fold_none. intros c' Hc'. apply in_seq in Hc'.
      apply (other_still pre rd H); auto; try lia.
      * apply D1; [lia|lia|congruence].
      * apply RO; [lia|lia|congruence].
  - split.
    + intros r' c' Hr' Hc' NE. rewrite key_snoc, D1, RO by auto. apply db_same.
    + rewrite key_snoc, D2, RT. reflexivity.
Qed.

(** ** Queues *)
Lemma no_scan_message : forall cs, (exists i, kbs i = Some cs) -> message_of cs 4 = [].
Proof.
  intros cs [i E]. assert (Q : forall f, In (SHook 4 f) cs -> f = HNull) by (intros; eapply quiet; eauto). clear E.
  unfold message_of.
  assert (X : forall cs, (forall f, In (SHook 4 f) cs -> f = HNull) -> forall t, t = [] -> fold_left (fun t c =>
    match c with SHook i f => if i =? 4 then match f with HPrint m => m | _ => [] end else t | _ => t end) cs t = []).
  { induction cs0 as [|c cs0 IH]; intros HQ t HT; cbn [fold_left]; auto.
    apply IH; [intros; apply HQ; right; auto|]. destruct c; auto. destruct (Nat.eqb_spec id 4); auto. subst id.
    rewrite (HQ f) by (left; auto). auto. }
  apply X; auto.
Qed.
Lemma starts_queue : forall e l f a n k o, kbs (e_kb e) <> None ->
  scan_starts kbs (mkTy e l f a n k [] o) = mkTy e l f a n (tl k) [] (o ++ visible (firstn 1 k)).
Proof.
  intros e l f a n k o V. unfold scan_starts, sends_one, prints. cbn [t_msgs hd tl t_set]. rewrite N.eqb_refl. cbn [t_set].
  destruct (kbs (e_kb e)) as [cs|] eqn:E; [|congruence].
  rewrite (no_scan_message cs) by eauto. cbn [shown new_lines flat_map enter t_set t_last t_fast t_auto t_left t_keys t_msgs t_out].
  destruct k as [|x k]; cbn [hd tl firstn visible filter]; [reflexivity|]. destruct (x <? 0xA0)%N; reflexivity.
Qed.
Lemma scans_app : forall a b pre t, scans kbs R C pre (a ++ b) t = scans kbs R C (pre ++ a) b (scans kbs R C pre a t).
Proof.
  induction a as [|rd a IH]; intros b pre t; cbn [app scans]; [rewrite app_nil_r; auto|]. rewrite IH, <- app_assoc. reflexivity.
Qed.

(** Nothing happens as long as readings differ for less than ten scans. *)
Lemma waiting : forall l pre H r c b k e n o last, resting_but pre H r c (b, k) -> modes_only H -> r < R -> c < C ->
  Forall (reads R C (set2 H r c (negb b))) l -> (N.of_nat (length l) < k)%N -> kbs (e_kb e) <> None -> (last <= 0xA0)%N ->
  scans kbs R C pre l (mkTy e last false true n [] [] o) = mkTy e last false true n [] [] o /\
  resting_but (pre ++ l) H r c (b, (k - N.of_nat (length l))%N).
Proof.
  induction l as [|rd l IH]; intros pre H r c b k e n o last D M Hr Hc HF HL V VL; cbn [scans length].
  - rewrite app_nil_r, N.sub_0_r. auto.
  - inv HF. rewrite starts_queue by auto. cbn [tl firstn visible filter]. rewrite app_nil_r.
    cbn [length] in HL.
    destruct (scan_one pre rd H r c (b, k) (negb b) (mkTy e last false true n [] [] o) D M Hr Hc H2) as [X1 X2]; [split; auto|].
    rewrite X1. assert (DB : db (b, k) (negb b) = (b, (k - 1)%N)).
    { unfold db. cbn [fst snd]. replace (Bool.eqb (negb b) b) with false by (destruct b; auto). replace (k =? 1)%N with false by lia. auto. }
    rewrite DB in X2. unfold target. rewrite DB. cbn [fst].
    replace (fold_left moved match b with true => match b with true => if negb b then [(r, c, Held)] else [] | false => [(r, c, Release)] end
      | false => match b with true => [(r, c, Press)] | false => [] end end (mkTy e last false true n [] [] o))
      with (mkTy e last false true n [] [] o) by (destruct b; reflexivity).
    destruct (IH (pre ++ [rd]) H r c b (k - 1)%N e n o last X2 M Hr Hc H3) as [Y1 Y2]; auto; [lia|].
    split; [exact Y1|]. rewrite <- app_assoc in Y2. cbn [app] in Y2.
    replace (k - N.of_nat (S (length l)))%N with (k - 1 - N.of_nat (length l))%N by lia. auto.
Qed.
Lemma waiting_rest : forall l pre H e n o last, resting pre H -> modes_only H ->
  Forall (reads R C H) l -> kbs (e_kb e) <> None -> (last <= 0xA0)%N ->
  scans kbs R C pre l (mkTy e last false true n [] [] o) = mkTy e last false true n [] [] o /\ resting (pre ++ l) H.
Proof.
  induction l as [|rd l IH]; intros pre H e n o last D M HF V VL; cbn [scans].
  - rewrite app_nil_r. auto.
  - inv HF. rewrite starts_queue by auto. cbn [tl firstn visible filter]. rewrite app_nil_r.
    destruct (scan_rest pre rd H (mkTy e last false true n [] [] o) D M H2) as [X1 X2]; [split; auto|]. rewrite X1.
    destruct (IH (pre ++ [rd]) H e n o last X2 M H3 V VL) as [Y1 Y2]. split; auto. rewrite <- app_assoc in Y2. auto.
Qed.

(** The tenth differing reading. *)
Lemma tenth : forall l pre H r c e n o last, resting pre H -> modes_only H -> r < R -> c < C ->
  Forall (reads R C (set2 H r c (negb (H r c)))) l -> length l = 10 -> kbs (e_kb e) <> None -> (last <= 0xA0)%N ->
  scans kbs R C pre l (mkTy e last false true n [] [] o) =
    moved (mkTy e last false true n [] [] o) (r, c, if H r c then Release else Press) /\
  resting_but (pre ++ l) H r c (negb (H r c), 10%N).
Proof.
  intros l pre H r c e n o last D M Hr Hc HF HL V VL.
  destruct (exists_last (l := l)) as [l' [rd ->]]; [destruct l; [discriminate|congruence]|].
  rewrite app_length in HL. cbn in HL. apply Forall_app in HF. destruct HF as [HF HR]. inv HR.
  assert (D0 : resting_but pre H r c (H r c, 10%N)) by (split; intros; apply D; auto).
  destruct (waiting l' pre H r c (H r c) 10%N e n o last D0 M Hr Hc HF ltac:(lia) V VL) as [X1 X2].
  replace (10 - N.of_nat (length l'))%N with 1%N in X2 by lia.
  rewrite scans_app, X1. cbn [scans]. rewrite starts_queue by auto. cbn [tl firstn visible filter]. rewrite app_nil_r.
  destruct (scan_one _ rd H r c _ _ (mkTy e last false true n [] [] o) X2 M Hr Hc H2) as [Y1 Y2]; [split; auto|].
  rewrite Y1. rewrite <- app_assoc in Y2. unfold target. unfold db in *. cbn [fst snd] in *.
  replace (Bool.eqb (negb (H r c)) (H r c)) with false in * by (destruct (H r c); auto). cbn [fst N.eqb Pos.eqb] in *.
  split; auto. destruct (H r c); reflexivity.
Qed.
Lemma resting_but_on : forall pre H r c b, resting_but pre H r c (b, 10%N) -> r < R -> c < C -> resting pre (set2 H r c b).
Proof.
  intros pre H r c b [D1 D2] Hr Hc r' c' Hr' Hc'. unfold set2.
  destruct (Nat.eqb_spec r' r), (Nat.eqb_spec c' c); cbn [andb]; try (apply D1; auto; congruence). subst. auto.
Qed.

(** ** Holding a character key *)
Definition fires (n : nat) : nat := if n <? 525 then 0 else 1 + (n - 525) / 66.
Definition left_after (n : nat) : N := if n <? 525 then N.of_nat (525 - n) else N.of_nat (66 - (n - 525) mod 66).
Lemma repeat_snoc : forall (x : N) n, repeat x (S n) = repeat x n ++ [x].
Proof. induction n; cbn [repeat app] in *; congruence. Qed.

Lemma fires_next : forall n, (left_after n = 1%N -> fires (S n) = S (fires n) /\ left_after (S n) = 66%N) /\
  (left_after n <> 1%N -> fires (S n) = fires n /\ left_after (S n) = (left_after n - 1)%N) /\ (0 < left_after n)%N.
Proof.
  intros n. unfold fires, left_after. destruct (Nat.ltb_spec n 525).
  - destruct (Nat.ltb_spec (S n) 525); [repeat split; lia|]. assert (n = 524) by lia. subst n.
    split; [intros _; split; reflexivity|]. split; [|lia]. intros X. exfalso. apply X. reflexivity.
  - replace (S n <? 525) with false by lia. replace (S n - 525) with (S (n - 525)) by lia. set (m := n - 525).
    pose proof (Nat.div_mod m 66 ltac:(lia)). pose proof (Nat.mod_upper_bound m 66 ltac:(lia)).
    pose proof (Nat.div_mod (S m) 66 ltac:(lia)). pose proof (Nat.mod_upper_bound (S m) 66 ltac:(lia)).
    split; [|split; [|lia]]; intros X.
    + assert (S m / 66 = S (m / 66)) by nia. nia.
    + assert (S m / 66 = m / 66) by nia. nia.
Qed.

Lemma holding : forall l pre H r c e x o0, resting_but pre H r c (true, 10%N) -> modes_only H -> r < R -> c < C ->
  Forall (reads R C (set2 H r c true)) l -> kbs (e_kb e) <> None -> (x < 0xA0)%N -> code_in kbs e r c = x ->
  exists k o, scans kbs R C pre l (mkTy e x false true 525 [x] [] o0) =
      mkTy e x false true (left_after (length l)) k [] o /\ (k = [] \/ k = [x]) /\
      o ++ k = o0 ++ repeat x (S (fires (length l))) /\ resting_but (pre ++ l) H r c (true, 10%N).
Proof.
  induction l as [|rd l IH] using rev_ind; intros pre H r c e x o0 D M Hr Hc HF V HX EX.
  - exists [x], o0. cbn [scans length]. rewrite app_nil_r. auto.
  - apply Forall_app in HF. destruct HF as [HF HR]. inv HR.
    destruct (IH pre H r c e (code_in kbs e r c) o0 D M Hr Hc HF V HX eq_refl) as (k&o&E1&K&O&D1). set (x := code_in kbs e r c) in *.
    rewrite scans_app, E1. cbn [scans]. rewrite starts_queue by auto.
    assert (Q : tl k = [] /\ o ++ visible (firstn 1 k) = o ++ k).
    { destruct K as [-> | ->]; cbn [tl firstn visible filter]; auto. replace (x <? 0xA0)%N with true by lia. auto. }
    destruct Q as [-> ->]. rewrite O.
    destruct (scan_one _ rd H r c _ _ (mkTy e x false true (left_after (length l)) [] [] (o0 ++ repeat x (S (fires (length l))))) D1 M Hr Hc H2)
      as [Y1 Y2]; [split; [cbn; lia|auto]|].
    rewrite Y1. unfold target. rewrite db_same in *. cbn [fst fold_left PropExact.moved t_set]. fold x. unfold on_held. cbn [t_last t_left].
    rewrite N.eqb_refl. destruct (fires_next (length l)) as (F1&F2&F3). replace (0 <? left_after (length l))%N with true by lia. cbn [andb].
    rewrite app_length. cbn [length]. replace (length l + 1) with (S (length l)) by lia. rewrite app_assoc.
    destruct (N.eqb_spec (left_after (length l)) 1) as [L1|L1].
    + destruct (F1 L1) as [-> ->]. unfold types, beats. cbn [t_set t_last t_fast t_auto t_left t_keys t_msgs t_out enter length Nat.ltb Nat.leb app].
      rewrite N.eqb_refl. eexists _, _. split; [reflexivity|]. split; [auto|]. split; [|exact Y2].
      rewrite (repeat_snoc x (S (fires (length l)))), app_assoc. reflexivity.
    + destruct (F2 L1) as [-> ->]. unfold beats. cbn [t_set t_last t_fast t_auto t_left t_keys t_msgs t_out].
      eexists _, _. split; [reflexivity|]. split; [auto|]. split; [|exact Y2]. apply app_nil_r.
Qed.

(** ** Sessions *)
Lemma plain_moves : forall e last n o r c b, plain_code (code_in kbs e r c) -> mode_key kbs r c -> kbs (e_kb e) <> None ->
  moved (mkTy e last false true n [] [] o) (r, c, if (b : bool) then Release else Press) =
  mkTy (after_event kbs e (r, c, negb b)) last false true n [] [] o.
Proof.
  intros e last n o r c b HP M V. pose proof (M e V) as HX. unfold plain_code in HP.
  destruct b; cbn [PropExact.moved t_set negb after_event]; set (x := code_in kbs e r c) in *.
  - unfold on_release. replace (x <=? 0xA0)%N with false by lia. destruct (decode x) eqn:E; try contradiction; reflexivity.
  - unfold on_press. replace (x <=? 0xA0)%N with false by lia. destruct (decode x) eqn:E; try contradiction; try reflexivity.
Qed.

Lemma stroke : forall rds H r c e n out l l', resting rds H -> modes_only H -> r < R -> c < C -> H r c = false ->
  (code_in kbs e r c < 0xA0)%N -> Forall (reads R C (set2 H r c true)) l -> 10 <= length l ->
  Forall (reads R C H) l' -> length l' = 10 -> kbs (e_kb e) <> None ->
  exists n', scans kbs R C rds (l ++ l') (mkTy e 0xA0 false true n [] [] out) =
    mkTy e 0xA0 false true n' [] [] (out ++ repeat (code_in kbs e r c) (times (length l))) /\
    resting (rds ++ l ++ l') H.
Proof.
  intros rds H r c e n out l l' D M Hr Hc HH HX HF HL HF' HL' V. set (x := code_in kbs e r c) in *.
  rewrite <- (firstn_skipn 10 l) in HF. apply Forall_app in HF. destruct HF as [F1 F2].
  pose proof (firstn_length_le l HL) as L1. pose proof (skipn_length 10 l) as L2.
  assert (EL : l = firstn 10 l ++ skipn 10 l) by (rewrite firstn_skipn; auto).
  set (l1 := firstn 10 l) in *. set (l2 := skipn 10 l) in *. clearbody l1 l2. subst l.
  destruct (tenth l1 rds H r c e n out 0xA0 D M Hr Hc) as [X1 X2]; auto; [rewrite HH; exact F1|lia|].
  rewrite HH in X1, X2. cbn [negb] in X2.
  assert (P1 : moved (mkTy e 0xA0 false true n [] [] out) (r, c, Press) = mkTy e x false true 525 [x] [] out).
  { cbn [PropExact.moved t_set]. fold x. unfold on_press, types. cbn [t_set t_last t_fast t_auto t_left t_keys t_msgs t_out].
    replace (x <=? 0xA0)%N with true by lia. replace (x =? 0xA0)%N with false by lia. reflexivity. }
  rewrite P1 in X1.
  destruct (holding l2 (rds ++ l1) H r c e x out X2 M Hr Hc F2 V HX eq_refl) as (k&o&E2&K&O&D2).
  destruct l' as [|rd1 l']; [discriminate|]. pose proof (Forall_inv HF') as G1. apply Forall_inv_tail in HF'.
  destruct (exists_last (l := l')) as [l3 [rd3 ->]]; [destruct l'; [discriminate|congruence]|].
  cbn [length] in HL'. rewrite app_length in HL'. cbn [length] in HL'. apply Forall_app in HF'. destruct HF' as [F3 F4]. apply Forall_inv in F4.
  assert (RD : forall rd, reads R C H rd -> reads R C (set2 H r c false) rd).
  { intros rd HR r' c' Hr' Hc'. rewrite HR by auto. unfold set2.
    destruct (Nat.eqb_spec r' r), (Nat.eqb_spec c' c); cbn [andb]; auto. subst. auto. }
  rewrite <- app_assoc, scans_app, X1, scans_app, E2. cbn [scans]. rewrite starts_queue by auto.
  assert (Q : tl k = [] /\ o ++ visible (firstn 1 k) = o ++ k).
  { destruct K as [-> | ->]; cbn [tl firstn visible filter]; auto. replace (x <? 0xA0)%N with true by lia. auto. }
  destruct Q as [-> ->]. rewrite O. set (m := left_after (length l2)). set (o1 := out ++ repeat x (S (fires (length l2)))).
  destruct (scan_one _ rd1 H r c _ false (mkTy e x false true m [] [] o1) D2 M Hr Hc (RD _ G1)) as [Y1 Y2]; [split; [cbn; lia|auto]|].
  rewrite Y1. change (db (true, 10%N) false) with (true, 9%N) in Y2. change (target (true, 10%N) false r c) with (@nil (nat * nat * move)).
  cbn [fold_left]. rewrite scans_app.
  destruct (waiting l3 _ H r c true 9%N e m o1 x Y2 M Hr Hc) as [Z1 Z2]; auto; [|lia|lia|].
  { apply (Forall_impl _ RD F3). }
  rewrite Z1. replace (9 - N.of_nat (length l3))%N with 1%N in Z2 by lia. cbn [scans]. rewrite starts_queue by auto.
  cbn [tl firstn visible filter]. rewrite app_nil_r.
  destruct (scan_one _ rd3 H r c _ false (mkTy e x false true m [] [] o1) Z2 M Hr Hc (RD _ F4)) as [W1 W2]; [split; [cbn; lia|auto]|].
  rewrite W1. change (db (true, 1%N) false) with (false, 10%N) in W2. change (target (true, 1%N) false r c) with [(r, c, Release)].
  exists m. split.
  - cbn [fold_left PropExact.moved t_set]. fold x. unfold on_release. cbn [t_set t_last t_fast t_auto t_left t_keys t_msgs t_out].
    replace (x <=? 0xA0)%N with true by lia. rewrite N.eqb_refl. unfold o1.
    replace (times (length (l1 ++ l2))) with (S (fires (length l2))); [reflexivity|]. rewrite app_length, L1. unfold times, fires.
    destruct (Nat.ltb_spec (length l2) 525).
    + replace (10 + length l2 <? 535) with true by lia. reflexivity.
    + replace (10 + length l2 <? 535) with false by lia. replace (10 + length l2 - 535) with (length l2 - 525) by lia. reflexivity.
  - intros r' c' Hr' Hc'. pose proof (resting_but_on _ _ _ _ _ W2 Hr Hc r' c' Hr' Hc') as X.
    revert X. rewrite <- !app_assoc. cbn [app]. intros ->.
    unfold set2. destruct (Nat.eqb_spec r' r), (Nat.eqb_spec c' c); cbn [andb]; auto. subst. rewrite HH. auto.
Qed.

Lemma session_scans : (exists cs, kbs 0%N = Some cs) -> forall rds H e out, session R C kbs rds H e out ->
  resting rds H /\ modes_only H /\ kbs (e_kb e) <> None /\
  exists n, scans kbs R C [] rds (starts kbs) = mkTy e 0xA0 false true n [] [] out.
Proof.
  intros [cs0 E0] rds H e out HS.
  induction HS as [|rds H e out l HS (D&M&V&n&E) HF|rds H e out l r c HS (D&M&V&n&E) Hr Hc HM HP HF HL
                  |rds H e out l l' r c HS (D&M&V&n&E) Hr Hc HH HX HF HL HF' HL'].
  - split; [intros r c _ _; reflexivity|]. split; [intros r c _ _ X; discriminate|]. split; [cbn; congruence|].
    exists 525%N. reflexivity.
  - destruct (waiting_rest l rds H e n out 0xA0 D M HF V ltac:(lia)) as [X1 X2].
    split; [auto|]. split; [auto|]. split; [auto|]. exists n. rewrite scans_app, E. exact X1.
  - destruct (tenth l rds H r c e n out 0xA0 D M Hr Hc HF HL V ltac:(lia)) as [X1 X2].
    split; [apply resting_but_on; auto|]. split.
    { intros r' c' Hr' Hc'. unfold set2. destruct (Nat.eqb_spec r' r), (Nat.eqb_spec c' c); cbn [andb]; auto. subst. auto. }
    split; [destruct (H r c); cbn [negb after_event]; auto using press_valid, release_valid|].
    exists n. rewrite scans_app, E. cbn [app]. rewrite X1. apply plain_moves; auto.
  - destruct (stroke rds H r c e n out l l' D M Hr Hc HH HX HF HL HF' HL' V) as [n' [X1 X2]].
    split; [auto|]. split; [auto|]. split; [auto|]. exists n'. rewrite scans_app, E. exact X1.
Qed.
End Scan.

(** ** C105 *)
Theorem C105_session : forall R C kbs rds H e out s, sound_firmware R kbs -> same_size R C kbs -> scan_hook_free kbs ->
  session R C kbs rds H e out -> c_run kbs rds = Ok s -> sent s = out.
Proof.
  intros R C kbs rds H e out s HS HZ HQ HE ES. rewrite (C104_exact R C kbs rds s HS HZ ES). unfold output_of.
  destruct (session_scans R C kbs HQ (proj1 HS) rds H e out HE) as (_&_&_&n&E). rewrite E. reflexivity.
Qed.
Print Assumptions C105_session.

(** "a", "B" with SHIFT held 12 scans before, and "a" held until it repeats, on
    the keyboard of C104. *)
Definition letters : list (nat -> N) :=
  hold 10 [(0, 0)] ++ hold 10 [] ++ hold 10 [(0, 2)] ++ hold 2 [(0, 2)] ++ hold 15 [(0, 2); (0, 1)] ++ hold 10 [(0, 2)] ++
  hold 10 [] ++ hold 535 [(0, 0)] ++ hold 10 [].
Example C105_example :
  obs sent (c_run desk letters) = Some [97; 66; 97; 97]%N /\
  exists H e, session 1 8 desk letters H e [97; 66; 97; 97]%N.
Proof.
  split; [vm_compute; reflexivity|].
  assert (RD : forall n L H, (forall c, c < 8 -> reading (matrix L) 0 c = H 0 c) -> Forall (reads 1 8 H) (hold n L)).
  { intros n L H HR. apply Forall_forall. intros rd HI. apply repeat_spec in HI. subst rd.
    intros r c Hr Hc. assert (r = 0) as -> by lia. auto. }
  assert (MK : mode_key desk 0 2).
  { intros [i sh lk cp ct] V. cbn [e_kb] in V. unfold code_in. cbn [e_kb]. unfold desk in *.
    destruct (N.eqb_spec i 0); [|destruct (N.eqb_spec i 1); [|congruence]];
      destruct ct, sh, lk, cp; vm_compute; reflexivity. }
  assert (SH : forall b, set2 (fun _ _ : nat => false) 0 2 b 0 2 = b) by (intros []; reflexivity).
  pose proof (session_start 1 8 desk) as S0.
  pose proof (session_stroke 1 8 desk _ _ _ _ (hold 10 [(0, 0)]) (hold 10 []) 0 0 S0 ltac:(lia) ltac:(lia) eq_refl eq_refl
    ltac:(apply RD; intros c Hc; do 8 (destruct c as [|c]; [reflexivity|]); lia) ltac:(cbn; lia)
    ltac:(apply RD; intros c Hc; do 8 (destruct c as [|c]; [reflexivity|]); lia) eq_refl) as S1.
  pose proof (session_mode 1 8 desk _ _ _ _ (hold 10 [(0, 2)]) 0 2 S1 ltac:(lia) ltac:(lia) MK I
    ltac:(apply RD; intros c Hc; do 8 (destruct c as [|c]; [reflexivity|]); lia) eq_refl) as S2.
  pose proof (session_rest 1 8 desk _ _ _ _ (hold 2 [(0, 2)]) S2
    ltac:(apply RD; intros c Hc; do 8 (destruct c as [|c]; [reflexivity|]); lia)) as S3.
  pose proof (session_stroke 1 8 desk _ _ _ _ (hold 15 [(0, 2); (0, 1)]) (hold 10 [(0, 2)]) 0 1 S3 ltac:(lia) ltac:(lia) eq_refl eq_refl
    ltac:(apply RD; intros c Hc; do 8 (destruct c as [|c]; [reflexivity|]); lia) ltac:(cbn; lia)
    ltac:(apply RD; intros c Hc; do 8 (destruct c as [|c]; [reflexivity|]); lia) eq_refl) as S4.
  pose proof (session_mode 1 8 desk _ _ _ _ (hold 10 []) 0 2 S4 ltac:(lia) ltac:(lia) MK I
    ltac:(apply RD; intros c Hc; do 8 (destruct c as [|c]; [reflexivity|]); lia) eq_refl) as S5.
  pose proof (session_stroke 1 8 desk _ _ _ _ (hold 535 [(0, 0)]) (hold 10 []) 0 0 S5 ltac:(lia) ltac:(lia) eq_refl eq_refl
    ltac:(apply RD; intros c Hc; do 8 (destruct c as [|c]; [reflexivity|]); lia) ltac:(unfold hold; rewrite repeat_length; lia)
    ltac:(apply RD; intros c Hc; do 8 (destruct c as [|c]; [reflexivity|]); lia) eq_refl) as S6.
  rewrite <- !app_assoc in S6. eexists _, _. exact S6.
Qed.
