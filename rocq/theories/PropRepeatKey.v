(** Sessions with the REPEAT key and the autorepeat switch, under any keymaps
    (C142). *)
From Coq Require Import List NArith ZArith Arith Bool Lia.
From Coq Require Import ZifyBool ZifyNat ZifyN.
From Verif Require Import Base Lib Buffer Repeat Devices Modifiers Hook KeymapData Asdf KeySpec Obs PropDebounce
     Custom PropCustom PropEvents PropFlow PropExact PropSession.
Import ListNotations.

(** ** Specification *)
(** How often a key held for [h] scans is typed: with REPEAT in force every 66
    scans from the start, with autorepeat again after 525 scans and then every
    66, with neither once. *)
Definition types_held (fast auto : bool) (h : nat) : nat :=
  if fast then 1 + (h - 10) / 66 else if auto then times h else 1.

(** Sessions as in C105, with the REPEAT key and the autorepeat key.  [fast]:
    REPEAT is in force; [auto]: autorepeat is on; [tired]: the key typed last was
    held for 469 scans or more with autorepeat, and neither REPEAT nor the
    autorepeat key has moved since.  A tired keyboard ignores REPEAT. *)
Inductive session_r (R C : nat) (kbs : N -> option (list setup_cmd)) :
  list (nat -> N) -> (nat -> nat -> bool) -> setting -> bool -> bool -> bool -> list N -> Prop :=
| sr_start : session_r R C kbs [] (fun _ _ => false) (at_start kbs) false true false []
| sr_rest : forall rds H e fast auto tired out l, session_r R C kbs rds H e fast auto tired out ->
    Forall (reads R C H) l -> session_r R C kbs (rds ++ l) H e fast auto tired out
| sr_mode : forall rds H e fast auto tired out l r c, session_r R C kbs rds H e fast auto tired out ->
    r < R -> c < C -> mode_key kbs r c -> plain_code (code_in kbs e r c) ->
    Forall (reads R C (set2 H r c (negb (H r c)))) l -> length l = 10 ->
    session_r R C kbs (rds ++ l) (set2 H r c (negb (H r c))) (after_event kbs e (r, c, negb (H r c))) fast auto tired out
| sr_repeat_on : forall rds H e fast auto tired out l r c, session_r R C kbs rds H e fast auto tired out ->
    r < R -> c < C -> mode_key kbs r c -> H r c = false -> code_in kbs e r c = 0xA6%N ->
    Forall (reads R C (set2 H r c true)) l -> length l = 10 ->
    session_r R C kbs (rds ++ l) (set2 H r c true) e (fast || negb (auto && tired)) auto tired out
| sr_repeat_off : forall rds H e fast auto tired out l r c, session_r R C kbs rds H e fast auto tired out ->
    r < R -> c < C -> mode_key kbs r c -> H r c = true -> code_in kbs e r c = 0xA6%N ->
    Forall (reads R C (set2 H r c false)) l -> length l = 10 ->
    session_r R C kbs (rds ++ l) (set2 H r c false) e false auto false out
| sr_auto : forall rds H e fast auto tired out l r c, session_r R C kbs rds H e fast auto tired out ->
    r < R -> c < C -> mode_key kbs r c -> code_in kbs e r c = 0xAC%N ->
    Forall (reads R C (set2 H r c (negb (H r c)))) l -> length l = 10 ->
    session_r R C kbs (rds ++ l) (set2 H r c (negb (H r c))) e fast (negb (H r c)) false out
| sr_stroke : forall rds H e fast auto tired out l l' r c, session_r R C kbs rds H e fast auto tired out ->
    r < R -> c < C -> H r c = false -> (code_in kbs e r c < 0xA0)%N ->
    Forall (reads R C (set2 H r c true)) l -> 10 <= length l ->
    Forall (reads R C H) l' -> length l' = 10 ->
    session_r R C kbs (rds ++ l ++ l') H e fast auto (negb fast && auto && (469 <=? length l))
      (out ++ repeat (code_in kbs e r c) (types_held fast auto (length l))).

(** ** Proofs *)
Section Scan.
Variable R C : nat.
Variable kbs : N -> option (list setup_cmd).
Hypothesis quiet : scan_hook_free kbs.
Notation moved := (moved kbs).

(** Nothing happens as long as readings differ for less than ten scans. *)
Lemma waiting_any : forall l pre H r c b k f a e n o last, resting_but R C pre H r c (b, k) -> modes_only R C kbs H -> r < R -> c < C ->
  Forall (reads R C (set2 H r c (negb b))) l -> (N.of_nat (length l) < k)%N -> kbs (e_kb e) <> None -> (last <= 0xA0)%N ->
  scans kbs R C pre l (mkTy e last f a n [] [] o) = mkTy e last f a n [] [] o /\
  resting_but R C (pre ++ l) H r c (b, (k - N.of_nat (length l))%N).
Proof.
  induction l as [|rd l IH]; intros pre H r c b k f a e n o last D M Hr Hc HF HL V VL; cbn [scans length].
  - rewrite app_nil_r, N.sub_0_r. auto.
  - inv HF. rewrite (starts_queue kbs quiet) by auto. cbn [tl firstn visible filter]. rewrite app_nil_r.
    cbn [length] in HL.
    destruct (scan_one R C kbs pre rd H r c (b, k) (negb b) (mkTy e last f a n [] [] o) D M Hr Hc H2) as [X1 X2]; [split; auto|].
    rewrite X1. assert (DB : db (b, k) (negb b) = (b, (k - 1)%N)).
    { unfold db. cbn [fst snd]. replace (Bool.eqb (negb b) b) with false by (destruct b; auto). replace (k =? 1)%N with false by lia. auto. }
    rewrite DB in X2. unfold target. rewrite DB. cbn [fst].
    replace (fold_left moved match b with true => match b with true => if negb b then [(r, c, Held)] else [] | false => [(r, c, Release)] end
      | false => match b with true => [(r, c, Press)] | false => [] end end (mkTy e last f a n [] [] o))
      with (mkTy e last f a n [] [] o) by (destruct b; reflexivity).
    destruct (IH (pre ++ [rd]) H r c b (k - 1)%N f a e n o last X2 M Hr Hc H3) as [Y1 Y2]; auto; [lia|].
    split; [exact Y1|]. rewrite <- app_assoc in Y2. cbn [app] in Y2.
    replace (k - N.of_nat (S (length l)))%N with (k - 1 - N.of_nat (length l))%N by lia. auto.
Qed.
Lemma waiting_rest_any : forall l pre H f a e n o last, resting R C pre H -> modes_only R C kbs H ->
  Forall (reads R C H) l -> kbs (e_kb e) <> None -> (last <= 0xA0)%N ->
  scans kbs R C pre l (mkTy e last f a n [] [] o) = mkTy e last f a n [] [] o /\ resting R C (pre ++ l) H.
Proof.
  induction l as [|rd l IH]; intros pre H f a e n o last D M HF V VL; cbn [scans].
  - rewrite app_nil_r. auto.
  - inv HF. rewrite (starts_queue kbs quiet) by auto. cbn [tl firstn visible filter]. rewrite app_nil_r.
    destruct (scan_rest R C kbs pre rd H (mkTy e last f a n [] [] o) D M H2) as [X1 X2]; [split; auto|]. rewrite X1.
    destruct (IH (pre ++ [rd]) H f a e n o last X2 M H3 V VL) as [Y1 Y2]. split; auto. rewrite <- app_assoc in Y2. auto.
Qed.

(** The tenth_any differing reading. *)
Lemma tenth_any : forall l pre H r c f a e n o last, resting R C pre H -> modes_only R C kbs H -> r < R -> c < C ->
  Forall (reads R C (set2 H r c (negb (H r c)))) l -> length l = 10 -> kbs (e_kb e) <> None -> (last <= 0xA0)%N ->
  scans kbs R C pre l (mkTy e last f a n [] [] o) =
    moved (mkTy e last f a n [] [] o) (r, c, if H r c then Release else Press) /\
  resting_but R C (pre ++ l) H r c (negb (H r c), 10%N).
Proof.
  intros l pre H r c f a e n o last D M Hr Hc HF HL V VL.
  destruct (exists_last (l := l)) as [l' [rd ->]]; [destruct l; [discriminate|congruence]|].
  rewrite app_length in HL. cbn in HL. apply Forall_app in HF. destruct HF as [HF HR]. inv HR.
  assert (D0 : resting_but R C pre H r c (H r c, 10%N)) by (split; intros; apply D; auto).
  destruct (waiting_any l' pre H r c (H r c) 10%N f a e n o last D0 M Hr Hc HF ltac:(lia) V VL) as [X1 X2].
  replace (10 - N.of_nat (length l'))%N with 1%N in X2 by lia.
  rewrite (scans_app R C kbs), X1. cbn [scans]. rewrite (starts_queue kbs quiet) by auto. cbn [tl firstn visible filter]. rewrite app_nil_r.
  destruct (scan_one R C kbs _ rd H r c _ _ (mkTy e last f a n [] [] o) X2 M Hr Hc H2) as [Y1 Y2]; [split; auto|].
  rewrite Y1. rewrite <- app_assoc in Y2. unfold target. unfold db in *. cbn [fst snd] in *.
  replace (Bool.eqb (negb (H r c)) (H r c)) with false in * by (destruct (H r c); auto). cbn [fst N.eqb Pos.eqb] in *.
  split; auto. destruct (H r c); reflexivity.
Qed.

(** ** Holding a character key *)
Definition fires_r (f a : bool) (n : nat) : nat := if f then n / 66 else if a then fires n else 0.
Definition left_r (f a : bool) (n : nat) : N := if f then N.of_nat (66 - n mod 66) else if a then left_after n else 0%N.
Lemma fires_next_r : forall f a n, (left_r f a n = 1%N -> fires_r f a (S n) = S (fires_r f a n) /\ left_r f a (S n) = 66%N) /\
  (left_r f a n <> 1%N -> fires_r f a (S n) = fires_r f a n /\ left_r f a (S n) = (left_r f a n - 1)%N).
Proof.
  intros f a n. unfold fires_r, left_r. destruct f; [|destruct a].
  - pose proof (Nat.div_mod n 66 ltac:(lia)). pose proof (Nat.mod_upper_bound n 66 ltac:(lia)).
    pose proof (Nat.div_mod (S n) 66 ltac:(lia)). pose proof (Nat.mod_upper_bound (S n) 66 ltac:(lia)).
    split; intros X.
    + assert (S n / 66 = S (n / 66)) by nia. nia.
    + assert (S n / 66 = n / 66) by nia. nia.
  - destruct (fires_next n) as (F1&F2&_). split; assumption.
  - split; [discriminate|]. intros _. split; reflexivity.
Qed.
Lemma holding_any : forall f a l pre H r c e x o0, resting_but R C pre H r c (true, 10%N) -> modes_only R C kbs H -> r < R -> c < C ->
  Forall (reads R C (set2 H r c true)) l -> kbs (e_kb e) <> None -> (x < 0xA0)%N -> code_in kbs e r c = x ->
  exists k o, scans kbs R C pre l (mkTy e x f a (left_r f a 0) [x] [] o0) =
      mkTy e x f a (left_r f a (length l)) k [] o /\ (k = [] \/ k = [x]) /\
      o ++ k = o0 ++ repeat x (S (fires_r f a (length l))) /\ resting_but R C (pre ++ l) H r c (true, 10%N).
Proof.
  intros f a. induction l as [|rd l IH] using rev_ind; intros pre H r c e x o0 D M Hr Hc HF V HX EX.
  - exists [x], o0. cbn [scans length]. rewrite app_nil_r. split; [reflexivity|]. split; [auto|]. split; [|exact D].
    assert (Z : fires_r f a 0 = 0) by (destruct f, a; reflexivity). rewrite Z. reflexivity.
  - apply Forall_app in HF. destruct HF as [HF HR]. inv HR.
    destruct (IH pre H r c e (code_in kbs e r c) o0 D M Hr Hc HF V HX eq_refl) as (k&o&E1&K&O&D1). set (x := code_in kbs e r c) in *.
    rewrite (scans_app R C kbs), E1. cbn [scans]. rewrite (starts_queue kbs quiet) by auto.
    assert (Q : tl k = [] /\ o ++ visible (firstn 1 k) = o ++ k).
    { destruct K as [-> | ->]; cbn [tl firstn visible filter]; auto. replace (x <? 0xA0)%N with true by lia. auto. }
    destruct Q as [-> ->]. rewrite O.
    destruct (scan_one R C kbs _ rd H r c _ _ (mkTy e x f a (left_r f a (length l)) [] [] (o0 ++ repeat x (S (fires_r f a (length l))))) D1 M Hr Hc H2)
      as [Y1 Y2]; [split; [cbn; lia|auto]|].
    rewrite Y1. unfold target. rewrite db_same in *. cbn [fst fold_left PropExact.moved t_set]. fold x. unfold on_held. cbn [t_last t_left].
    rewrite N.eqb_refl. destruct (fires_next_r f a (length l)) as (F1&F2). cbn [andb].
    rewrite app_length. cbn [length]. replace (length l + 1) with (S (length l)) by lia. rewrite app_assoc.
    destruct (N.ltb_spec 0 (left_r f a (length l))) as [LP|LP].
    + destruct (N.eqb_spec (left_r f a (length l)) 1) as [L1|L1].
      * destruct (F1 L1) as [-> ->]. unfold types, beats. cbn [t_set t_last t_fast t_auto t_left t_keys t_msgs t_out enter length Nat.ltb Nat.leb app].
        rewrite N.eqb_refl. eexists _, _. split; [reflexivity|]. split; [auto|]. split; [|exact Y2].
        rewrite (repeat_snoc x (S (fires_r f a (length l)))), app_assoc. reflexivity.
      * destruct (F2 L1) as [-> ->]. unfold beats. cbn [t_set t_last t_fast t_auto t_left t_keys t_msgs t_out].
        eexists _, _. split; [reflexivity|]. split; [auto|]. split; [|exact Y2]. apply app_nil_r.
    + assert (L1 : left_r f a (length l) <> 1%N) by lia. destruct (F2 L1) as [-> ->].
      replace (left_r f a (length l) - 1)%N with (left_r f a (length l)) by lia.
      eexists _, _. split; [reflexivity|]. split; [auto|]. split; [|exact Y2]. apply app_nil_r.
Qed.

Lemma stroke_any : forall f a rds H r c e n out l l', resting R C rds H -> modes_only R C kbs H -> r < R -> c < C -> H r c = false ->
  (code_in kbs e r c < 0xA0)%N -> Forall (reads R C (set2 H r c true)) l -> 10 <= length l ->
  Forall (reads R C H) l' -> length l' = 10 -> kbs (e_kb e) <> None ->
  scans kbs R C rds (l ++ l') (mkTy e 0xA0 f a n [] [] out) =
    mkTy e 0xA0 f a (left_r f a (length l - 10)) [] [] (out ++ repeat (code_in kbs e r c) (types_held f a (length l))) /\
    resting R C (rds ++ l ++ l') H.
Proof.
  intros f a rds H r c e n out l l' D M Hr Hc HH HX HF HL HF' HL' V. set (x := code_in kbs e r c) in *.
  rewrite <- (firstn_skipn 10 l) in HF. apply Forall_app in HF. destruct HF as [F1 F2].
  pose proof (firstn_length_le l HL) as L1. pose proof (skipn_length 10 l) as L2.
  assert (EL : l = firstn 10 l ++ skipn 10 l) by (rewrite firstn_skipn; auto).
  set (l1 := firstn 10 l) in *. set (l2 := skipn 10 l) in *. clearbody l1 l2. subst l.
  destruct (tenth_any l1 rds H r c f a e n out 0xA0 D M Hr Hc) as [X1 X2]; auto; [rewrite HH; exact F1|lia|].
  rewrite HH in X1, X2. cbn [negb] in X2.
  assert (P1 : moved (mkTy e 0xA0 f a n [] [] out) (r, c, Press) = mkTy e x f a (left_r f a 0) [x] [] out).
  { cbn [PropExact.moved t_set]. fold x. unfold on_press, types. cbn [t_set t_last t_fast t_auto t_left t_keys t_msgs t_out].
    replace (x <=? 0xA0)%N with true by lia. replace (x =? 0xA0)%N with false by lia. destruct f, a; reflexivity. }
  rewrite P1 in X1.
  destruct (holding_any f a l2 (rds ++ l1) H r c e x out X2 M Hr Hc F2 V HX eq_refl) as (k&o&E2&K&O&D2).
  destruct l' as [|rd1 l']; [discriminate|]. pose proof (Forall_inv HF') as G1. apply Forall_inv_tail in HF'.
  destruct (exists_last (l := l')) as [l3 [rd3 ->]]; [destruct l'; [discriminate|congruence]|].
  cbn [length] in HL'. rewrite app_length in HL'. cbn [length] in HL'. apply Forall_app in HF'. destruct HF' as [F3 F4]. apply Forall_inv in F4.
  assert (RD : forall rd, reads R C H rd -> reads R C (set2 H r c false) rd).
  { intros rd HR r' c' Hr' Hc'. rewrite HR by auto. unfold set2.
    destruct (Nat.eqb_spec r' r), (Nat.eqb_spec c' c); cbn [andb]; auto. subst. auto. }
  rewrite <- app_assoc, (scans_app R C kbs), X1, (scans_app R C kbs), E2. cbn [scans]. rewrite (starts_queue kbs quiet) by auto.
  assert (Q : tl k = [] /\ o ++ visible (firstn 1 k) = o ++ k).
  { destruct K as [-> | ->]; cbn [tl firstn visible filter]; auto. replace (x <? 0xA0)%N with true by lia. auto. }
  destruct Q as [-> ->]. rewrite O. set (m := left_r f a (length l2)). set (o1 := out ++ repeat x (S (fires_r f a (length l2)))).
  destruct (scan_one R C kbs _ rd1 H r c _ false (mkTy e x f a m [] [] o1) D2 M Hr Hc (RD _ G1)) as [Y1 Y2]; [split; [cbn; lia|auto]|].
  rewrite Y1. change (db (true, 10%N) false) with (true, 9%N) in Y2. change (target (true, 10%N) false r c) with (@nil (nat * nat * move)).
  cbn [fold_left]. rewrite (scans_app R C kbs).
  destruct (waiting_any l3 _ H r c true 9%N f a e m o1 x Y2 M Hr Hc) as [Z1 Z2]; auto; [|lia|lia|].
  { apply (Forall_impl _ RD F3). }
  rewrite Z1. replace (9 - N.of_nat (length l3))%N with 1%N in Z2 by lia. cbn [scans]. rewrite (starts_queue kbs quiet) by auto.
  cbn [tl firstn visible filter]. rewrite app_nil_r.
  destruct (scan_one R C kbs _ rd3 H r c _ false (mkTy e x f a m [] [] o1) Z2 M Hr Hc (RD _ F4)) as [W1 W2]; [split; [cbn; lia|auto]|].
  rewrite W1. change (db (true, 1%N) false) with (false, 10%N) in W2. change (target (true, 1%N) false r c) with [(r, c, Release)].
  split.
  - cbn [fold_left PropExact.moved t_set]. fold x. unfold on_release. cbn [t_set t_last t_fast t_auto t_left t_keys t_msgs t_out].
    replace (x <=? 0xA0)%N with true by lia. rewrite N.eqb_refl. unfold o1, m.
    assert (LL : length (l1 ++ l2) = 10 + length l2) by (rewrite app_length, L1; reflexivity). rewrite LL.
    replace (10 + length l2 - 10) with (length l2) by lia.
    replace (types_held f a (10 + length l2)) with (S (fires_r f a (length l2))); [reflexivity|]. unfold types_held, fires_r. destruct f; [|destruct a; [|reflexivity]].
    + replace (10 + length l2 - 10) with (length l2) by lia. reflexivity.
    + unfold times, fires. destruct (Nat.ltb_spec (length l2) 525).
      * replace (10 + length l2 <? 535) with true by lia. reflexivity.
      * replace (10 + length l2 <? 535) with false by lia. replace (10 + length l2 - 535) with (length l2 - 525) by lia. reflexivity.
  - intros r' c' Hr' Hc'. pose proof (resting_but_on R C _ _ _ _ _ W2 Hr Hc r' c' Hr' Hc') as X.
    revert X. rewrite <- !app_assoc. cbn [app]. intros ->.
    unfold set2. destruct (Nat.eqb_spec r' r), (Nat.eqb_spec c' c); cbn [andb]; auto. subst. rewrite HH. auto.
Qed.


Lemma plain_moves_any : forall f a e last n o r c b, plain_code (code_in kbs e r c) -> mode_key kbs r c -> kbs (e_kb e) <> None ->
  moved (mkTy e last f a n [] [] o) (r, c, if (b : bool) then Release else Press) =
  mkTy (after_event kbs e (r, c, negb b)) last f a n [] [] o.
Proof.
  intros f a e last n o r c b HP M V. pose proof (M e V) as HX. unfold plain_code in HP.
  destruct b; cbn [PropExact.moved t_set negb after_event]; set (x := code_in kbs e r c) in *.
  - unfold on_release. replace (x <=? 0xA0)%N with false by lia. destruct (decode x) eqn:E; try contradiction; reflexivity.
  - unfold on_press. replace (x <=? 0xA0)%N with false by lia. destruct (decode x) eqn:E; try contradiction; try reflexivity.
Qed.
Lemma modes_set2 : forall H r c b, modes_only R C kbs H -> mode_key kbs r c -> modes_only R C kbs (set2 H r c b).
Proof. intros H r c b M HM r' c' Hr' Hc'. unfold set2. destruct (Nat.eqb_spec r' r), (Nat.eqb_spec c' c); cbn [andb]; auto. subst. auto. Qed.

(** The count at rest. *)
Definition fresh_count (fast auto tired : bool) (n : N) : Prop := fast = false -> auto = true -> (66 <? n)%N = negb tired.
Lemma session_r_scans : (exists cs, kbs 0%N = Some cs) -> forall rds H e fast auto tired out, session_r R C kbs rds H e fast auto tired out ->
  resting R C rds H /\ modes_only R C kbs H /\ kbs (e_kb e) <> None /\
  exists n, scans kbs R C [] rds (starts kbs) = mkTy e 0xA0 fast auto n [] [] out /\ fresh_count fast auto tired n.
Proof.
  intros [cs0 E0] rds H e fast auto tired out HS.
  induction HS as [|rds H e fast auto tired out l HS (D&M&V&n&E&Q) HF
                  |rds H e fast auto tired out l r c HS (D&M&V&n&E&Q) Hr Hc HM HP HF HL
                  |rds H e fast auto tired out l r c HS (D&M&V&n&E&Q) Hr Hc HM HH HP HF HL
                  |rds H e fast auto tired out l r c HS (D&M&V&n&E&Q) Hr Hc HM HH HP HF HL
                  |rds H e fast auto tired out l r c HS (D&M&V&n&E&Q) Hr Hc HM HP HF HL
                  |rds H e fast auto tired out l l' r c HS (D&M&V&n&E&Q) Hr Hc HH HX HF HL HF' HL'].
  - split; [intros r c _ _; reflexivity|]. split; [intros r c _ _ X; discriminate|]. split; [cbn; congruence|].
    exists 525%N. split; [reflexivity|]. intros _ _. reflexivity.
  - destruct (waiting_rest_any l rds H fast auto e n out 0xA0 D M HF V ltac:(lia)) as [X1 X2].
    split; [auto|]. split; [auto|]. split; [auto|]. exists n. rewrite (scans_app R C kbs), E. split; [exact X1|exact Q].
  - destruct (tenth_any l rds H r c fast auto e n out 0xA0 D M Hr Hc HF HL V ltac:(lia)) as [X1 X2].
    split; [apply resting_but_on; auto|]. split; [apply modes_set2; auto|].
    split; [destruct (H r c); cbn [negb after_event]; auto using press_valid, release_valid|].
    exists n. rewrite (scans_app R C kbs), E. cbn [app]. rewrite X1. split; [apply plain_moves_any; auto|exact Q].
  - assert (HF2 : Forall (reads R C (set2 H r c (negb (H r c)))) l) by (rewrite HH; exact HF).
    destruct (tenth_any l rds H r c fast auto e n out 0xA0 D M Hr Hc HF2 HL V ltac:(lia)) as [X1 X2]. rewrite HH in X1, X2. cbn [negb] in X2.
    split; [apply resting_but_on; auto|]. split; [apply modes_set2; auto|]. split; [auto|].
    rewrite (scans_app R C kbs), E. cbn [app]. rewrite X1. cbn [PropExact.moved t_set]. rewrite HP. unfold on_press.
    change (0xA6 <=? 0xA0)%N with false. change (decode 0xA6) with ARepeat. cbn [t_left t_fast t_auto]. cbv iota.
    destruct ((66 <? n)%N || negb (fast || auto)) eqn:B.
    + exists 66%N. unfold beats. cbn [t_set t_last t_keys t_msgs t_out].
      assert (Z : fast || negb (auto && tired) = true).
      { destruct fast; [reflexivity|]. destruct auto; [|reflexivity]. cbn [orb negb andb] in B |- *. rewrite orb_false_r in B. rewrite (Q eq_refl eq_refl) in B. exact B. }
      rewrite Z. split; [reflexivity|]. intros X; discriminate X.
    + exists n. assert (Z : fast || negb (auto && tired) = fast).
      { destruct fast; [reflexivity|]. destruct auto; [|cbn [orb negb andb] in B; rewrite orb_true_r in B; discriminate B]. cbn [orb negb andb] in B |- *. rewrite orb_false_r in B. rewrite (Q eq_refl eq_refl) in B. exact B. }
      rewrite Z. split; [reflexivity|]. exact Q.
  - assert (HF2 : Forall (reads R C (set2 H r c (negb (H r c)))) l) by (rewrite HH; exact HF).
    destruct (tenth_any l rds H r c fast auto e n out 0xA0 D M Hr Hc HF2 HL V ltac:(lia)) as [X1 X2]. rewrite HH in X1, X2. cbn [negb] in X2.
    split; [apply resting_but_on; auto|]. split; [apply modes_set2; auto|]. split; [auto|].
    rewrite (scans_app R C kbs), E. cbn [app]. rewrite X1. cbn [PropExact.moved t_set]. rewrite HP. unfold on_release.
    change (0xA6 <=? 0xA0)%N with false. change (decode 0xA6) with ARepeat. cbn [t_left t_fast t_auto]. cbv iota.
    eexists. split; [reflexivity|]. intros _ ->. reflexivity.
  - destruct (tenth_any l rds H r c fast auto e n out 0xA0 D M Hr Hc HF HL V ltac:(lia)) as [X1 X2].
    split; [apply resting_but_on; auto|]. split; [apply modes_set2; auto|]. split; [auto|].
    rewrite (scans_app R C kbs), E. cbn [app]. rewrite X1.
    destruct (H r c); cbn [PropExact.moved t_set negb]; rewrite HP; unfold on_release, on_press;
      change (0xAC <=? 0xA0)%N with false; change (decode 0xAC) with AAutorepeat; cbn [t_left t_fast t_auto]; cbv iota;
      (eexists; split; [reflexivity|]).
    + intros _ X; discriminate X.
    + intros -> _. reflexivity.
  - destruct (stroke_any fast auto rds H r c e n out l l' D M Hr Hc HH HX HF HL HF' HL' V) as [X1 X2].
    split; [auto|]. split; [auto|]. split; [auto|]. eexists. rewrite (scans_app R C kbs), E. split; [exact X1|].
    intros -> ->. cbn [negb andb left_r]. unfold left_after. destruct (Nat.ltb_spec (length l - 10) 525).
    + destruct (Nat.leb_spec 469 (length l)); cbn [negb]; lia.
    + replace (469 <=? length l) with true by lia. cbn [negb]. clear. generalize ((length l - 10 - 525) mod 66). intros z. lia.
Qed.
End Scan.

(** ** C142 *)
Theorem C142_repeat_key : forall R C kbs rds H e fast auto tired out s, sound_firmware R kbs -> same_size R C kbs -> scan_hook_free kbs ->
  session_r R C kbs rds H e fast auto tired out -> c_run kbs rds = Ok s -> sent s = out.
Proof.
  intros R C kbs rds H e fast auto tired out s HS HZ HQ HE ES. rewrite (C104_exact R C kbs rds s HS HZ ES). unfold output_of.
  destruct (session_r_scans R C kbs HQ (proj1 HS) rds H e fast auto tired out HE) as (_&_&_&n&E&_). rewrite E. reflexivity.
Qed.
Print Assumptions C142_repeat_key.

(** Two letters, REPEAT and the autorepeat key. *)
Definition rboard (i : N) : option (list setup_cmd) :=
  let keys := [97; 98; 0xA6; 0xAC]%N in
  if (i =? 0)%N then Some [SAddMap keys 0 1 4; SAddMap keys 1 1 4; SAddMap keys 2 1 4; SAddMap keys 3 1 4] else None.
Lemma rboard_sound : sound_firmware 1 rboard /\ same_size 1 4 rboard /\ scan_hook_free rboard.
Proof.
  split; [split|split].
  - eexists. reflexivity.
  - intros i cs E1. unfold rboard in E1. cbv zeta in E1. destruct (N.eqb_spec i 0); inv E1. split; [lia|]. apply (sound_b_ok 1 1 4); vm_compute; reflexivity.
  - intros i cs mi E1 Hm. unfold rboard in E1. cbv zeta in E1. destruct (i =? 0)%N; inv E1. do 4 (destruct mi as [|mi]; [eexists; vm_compute; reflexivity|]). lia.
  - intros i cs f E1 I. unfold rboard in E1. cbv zeta in E1. destruct (i =? 0)%N; inv E1. cbn [In] in I. repeat (destruct I as [I|I]; [discriminate I|]). contradiction.
Qed.
Lemma rboard_code : forall e c, rboard (e_kb e) <> None -> c < 4 -> code_in rboard e 0 c = nth c [97; 98; 0xA6; 0xAC]%N 0%N.
Proof.
  intros e c K Hc. unfold code_in, rboard in *. cbv zeta in *. destruct (e_kb e =? 0)%N; [|congruence].
  assert (M : map_in e < 4) by (unfold map_in; destruct (e_ctrl e), (e_shift e || e_lock e), (e_caps e); lia).
  destruct (map_in e) as [|[|[|[|n]]]]; [| | | |lia]; do 4 (destruct c as [|c]; [reflexivity|]); lia.
Qed.
Definition fast_typing (h : nat) : list (nat -> N) :=
  hold h [(0, 0)] ++ hold 10 [] ++ hold 10 [(0, 2)] ++ (hold 200 [(0, 2); (0, 1)] ++ hold 10 [(0, 2)]).
Lemma reads_hold : forall R C H l n, (forall r c, r < R -> c < C -> reading (fun i => nth 0 (map (fun rd : nat -> N => rd i) (hold 1 l)) 0%N) r c = H r c) -> Forall (reads R C H) (hold n l).
Proof.
  intros R C H l n E. induction n as [|n IH]; [constructor|]. cbn [hold repeat]. constructor; [|exact IH]. intros r c Hr Hc. exact (E r c Hr Hc).
Qed.
(** "a" held for [h] scans, then "b" for 200 scans with REPEAT down. *)
Lemma fast_session : forall h, 10 <= h ->
  session_r 1 4 rboard (fast_typing h) (set2 (fun _ _ => false) 0 2 true) (at_start rboard) (negb (469 <=? h)) true (negb (negb (469 <=? h)) && true && (469 <=? 200))
    (([] ++ repeat 97%N (types_held false true h)) ++ repeat 98%N (types_held (negb (469 <=? h)) true 200)).
Proof.
  intros h Hh. assert (K : rboard (e_kb (at_start rboard)) <> None) by (vm_compute; discriminate).
  assert (L : forall n l, length (hold n l) = n) by (intros; apply repeat_length).
  assert (S0 := sr_start 1 4 rboard).
  assert (S1 := sr_stroke 1 4 rboard [] (fun _ _ => false) (at_start rboard) false true false [] (hold h [(0, 0)]) (hold 10 []) 0 0 S0 ltac:(lia) ltac:(lia) eq_refl).
  rewrite (rboard_code (at_start rboard) 0 K ltac:(lia)), !L in S1. cbn [nth app negb andb] in S1.
  specialize (S1 ltac:(lia)).
  assert (A1 : Forall (reads 1 4 (set2 (fun _ _ => false) 0 0 true)) (hold h [(0, 0)])).
  { apply reads_hold. intros r c Hr Hc. assert (r = 0) as -> by lia. do 4 (destruct c as [|c]; [reflexivity|]). lia. }
  assert (A2 : Forall (reads 1 4 (fun _ _ => false)) (hold 10 [])).
  { apply reads_hold. intros r c Hr Hc. assert (r = 0) as -> by lia. do 4 (destruct c as [|c]; [reflexivity|]). lia. }
  specialize (S1 A1 Hh A2 eq_refl).
  assert (S2 := sr_repeat_on 1 4 rboard _ _ _ _ _ _ _ (hold 10 [(0, 2)]) 0 2 S1 ltac:(lia) ltac:(lia)).
  assert (MK : mode_key rboard 0 2) by (intros e Ke; rewrite (rboard_code e 2 Ke ltac:(lia)); cbn [nth]; lia).
  specialize (S2 MK eq_refl (rboard_code (at_start rboard) 2 K ltac:(lia))).
  assert (A3 : Forall (reads 1 4 (set2 (fun _ _ => false) 0 2 true)) (hold 10 [(0, 2)])).
  { apply reads_hold. intros r c Hr Hc. assert (r = 0) as -> by lia. do 4 (destruct c as [|c]; [reflexivity|]). lia. }
  specialize (S2 A3 (L _ _)). cbn [orb andb] in S2.
  assert (S3 := sr_stroke 1 4 rboard _ _ _ _ _ _ _ (hold 200 [(0, 2); (0, 1)]) (hold 10 [(0, 2)]) 0 1 S2 ltac:(lia) ltac:(lia) eq_refl).
  rewrite (rboard_code (at_start rboard) 1 K ltac:(lia)), !L in S3. cbn [nth] in S3. specialize (S3 ltac:(lia)).
  assert (A4 : Forall (reads 1 4 (set2 (set2 (fun _ _ => false) 0 2 true) 0 1 true)) (hold 200 [(0, 2); (0, 1)])).
  { apply reads_hold. intros r c Hr Hc. assert (r = 0) as -> by lia. do 4 (destruct c as [|c]; [reflexivity|]). lia. }
  specialize (S3 A4 ltac:(lia) A3 eq_refl). unfold fast_typing.
  rewrite <- !app_assoc in S3. exact S3.
Qed.
Example C142_example :
  (exists tired, session_r 1 4 rboard (fast_typing 60) (set2 (fun _ _ => false) 0 2 true) (at_start rboard) true true tired [97; 98; 98; 98]%N) /\
  obs sent (c_run rboard (fast_typing 60)) = Some [97; 98; 98; 98]%N.
Proof. split; [|vm_compute; reflexivity]. eexists. exact (fast_session 60 ltac:(lia)). Qed.
(** REPEAT is not always obeyed: after a key was held for 470 scans, not long
    enough to repeat, "b" is typed once in 200 scans with REPEAT down. *)
Theorem C142_repeat_ignored_refuted : exists kbs s, sound_firmware 1 kbs /\ same_size 1 4 kbs /\ scan_hook_free kbs /\
  c_run kbs (fast_typing 470) = Ok s /\ sent s = [97; 98]%N.
Proof.
  exists rboard.
  assert (X : forall (o : outcome kb) (P : kb -> Prop), match o with Ok s => P s | Bad _ => False end -> exists s, o = Ok s /\ P s).
  { intros [s|u] P H; [eauto|contradiction]. }
  destruct (X (c_run rboard (fast_typing 470)) (fun s => sent s = [97; 98]%N)) as [s [E1 E2]]; [vm_compute; reflexivity|].
  exists s. destruct rboard_sound as (A&B&D). auto.
Qed.
Print Assumptions C142_repeat_ignored_refuted.
