(** Bouncing contacts under any keymaps, scan by scan (C111) and in continuous
    time (C112). *)
From Coq Require Import List NArith ZArith Arith Bool Lia.
From Coq Require Import ZifyBool ZifyNat ZifyN.
From Verif Require Import Base Lib Buffer Repeat Devices Modifiers Hook KeymapData Asdf KeySpec Obs PropDebounce
     Custom CustomSpec CustomRef PropCustom PropEvents PropFlow PropExact PropSession.
From Verif Require Import PropModState PropBounce System Timed PropTimed Jitter PropJitter PropHands CustomSystem CustomTime PropAnyTime.
Import ListNotations.

(** ** Specification, scan by scan *)
(** The readings of a key (r, c) whose contact is [bs], the other keys as in [H]. *)
Definition contact (R C : nat) (H : nat -> nat -> bool) (r c : nat) : list bool -> list (nat -> N) -> Prop :=
  Forall2 (fun b rd => reads R C (set2 H r c b) rd).

(** As [session] of PropSession.v with bouncing contacts, strokes shorter than
    the autorepeat delay: keys held and modes before, readings, what is typed,
    keys held and modes after. *)
Inductive chatter (R C : nat) (kbs : N -> option (list setup_cmd)) :
  (nat -> nat -> bool) -> setting -> list (nat -> N) -> list N -> (nat -> nat -> bool) -> setting -> Prop :=
| c_done : forall H e, chatter R C kbs H e [] [] H e
| c_wait : forall H e rd rds out H' e', reads R C H rd ->
    chatter R C kbs H e rds out H' e' -> chatter R C kbs H e (rd :: rds) out H' e'
| c_mode : forall H e r c bs l rds out H' e', r < R -> c < C -> mode_key kbs r c -> plain_code (code_in kbs e r c) ->
    contact R C H r c bs l -> settles (negb (H r c)) bs ->
    chatter R C kbs (set2 H r c (negb (H r c))) (after_event kbs e (r, c, negb (H r c))) rds out H' e' ->
    chatter R C kbs H e (l ++ rds) out H' e'
| c_stroke : forall H e r c bs1 bs2 l1 l2 rds out H' e', r < R -> c < C -> H r c = false -> (code_in kbs e r c < 0xA0)%N ->
    contact R C H r c bs1 l1 -> settles true bs1 -> contact R C H r c bs2 l2 -> settles false bs2 -> times true (bs1 ++ bs2) <= 525 ->
    chatter R C kbs H e rds out H' e' ->
    chatter R C kbs H e (l1 ++ l2 ++ rds) (code_in kbs e r c :: out) H' e'.

Section Scan.
Variable R C : nat.
Variable kbs : N -> option (list setup_cmd).
Hypothesis quiet : scan_hook_free kbs.
Notation moved := (PropExact.moved kbs).
Notation valid := (PropSession.valid kbs).
Notation modes_only := (PropSession.modes_only R C kbs).

(** Accepted states; a counter may be anywhere from 1 to 10 (dstate_range). *)
Definition stands (pre : list (nat -> N)) (H : nat -> nat -> bool) : Prop :=
  forall r c, r < R -> c < C -> fst (dstate (key_readings pre r c)) = H r c.
Definition stands_but (pre : list (nat -> N)) (H : nat -> nat -> bool) (r c : nat) (d : bool * N) : Prop :=
  (forall r' c', r' < R -> c' < C -> (r', c') <> (r, c) -> fst (dstate (key_readings pre r' c')) = H r' c') /\
  dstate (key_readings pre r c) = d.

Lemma db_stays : forall d b, fst d = b -> db d b = d.
Proof. intros [s k] b <-. apply db_same. Qed.
Lemma stand_still : forall pre rd H r c, modes_only H -> r < R -> c < C ->
  fst (dstate (key_readings pre r c)) = H r c -> reading rd r c = H r c ->
  forall t, valid t -> fold_left moved (key_moves pre rd r c) t = t.
Proof.
  intros pre rd H r c M Hr Hc D E t V. rewrite moves_target, E. unfold target. rewrite (db_stays _ _ D), D.
  destruct (H r c) eqn:EH; auto. cbn [fold_left]. apply held_still; auto.
Qed.
Lemma stand_scan : forall pre rd H t, stands pre H -> modes_only H -> reads R C H rd -> valid t ->
  fold_left moved (scan_moves R C pre rd) t = t /\ stands (pre ++ [rd]) H.
Proof.
  intros pre rd H t D M HR V. split.
  - unfold scan_moves. apply fold_none; auto. intros r Hr. apply in_seq in Hr.
    apply fold_none. intros c Hc. apply in_seq in Hc. apply (stand_still pre rd H); auto; try lia.
    + apply D; lia.
    + apply HR; lia.
  - intros r c Hr Hc. rewrite key_snoc, (HR r c Hr Hc), db_stays; apply D; auto.
Qed.
Lemma stand_one : forall pre rd H r c d b t, stands_but pre H r c d -> modes_only H -> r < R -> c < C ->
  reads R C (set2 H r c b) rd -> valid t ->
  fold_left moved (scan_moves R C pre rd) t = fold_left moved (target d b r c) t /\
  stands_but (pre ++ [rd]) H r c (db d b).
Proof.
  intros pre rd H r c d b t [D1 D2] M Hr Hc HR V.
  assert (RT : reading rd r c = b) by (rewrite HR by auto; unfold set2; rewrite !Nat.eqb_refl; auto).
  assert (RO : forall r' c', r' < R -> c' < C -> (r', c') <> (r, c) -> reading rd r' c' = H r' c').
  { intros r' c' Hr' Hc' NE. rewrite HR by auto. unfold set2.
    destruct (Nat.eqb_spec r' r), (Nat.eqb_spec c' c); cbn [andb]; auto. subst. congruence. }
  split.
  - unfold scan_moves. rewrite (fold_one kbs _ _ (seq 0 R) r); auto.
    + rewrite (fold_one kbs _ _ (seq 0 C) c); auto.
      * rewrite moves_target, D2, RT. reflexivity.
      * apply seq_NoDup.
      * apply in_seq. lia.
      * intros c' Hc' NE. apply in_seq in Hc'. apply (stand_still pre rd H); auto; try lia.
        -- apply D1; auto; [lia|congruence].
        -- apply RO; auto; [lia|congruence].
    + apply seq_NoDup.
    + apply in_seq. lia.
    + intros r' Hr' NE. apply in_seq in Hr'. apply fold_none. intros c' Hc'. apply in_seq in Hc'.
      apply (stand_still pre rd H); auto; try lia.
      * apply D1; [lia|lia|congruence].
      * apply RO; [lia|lia|congruence].
  - split.
    + intros r' c' Hr' Hc' NE. rewrite key_snoc, RO by auto. rewrite db_stays; apply D1; auto.
    + rewrite key_snoc, D2, RT. reflexivity.
Qed.

Notation scans := (scans kbs R C).

(** The key (r, c) bounces without being accepted; if it is held it is a mode key. *)
Lemma idle : forall bs l pre H r c s k e n o last, stands_but pre H r c (s, k) -> modes_only H -> r < R -> c < C ->
  (s = true -> mode_key kbs r c) -> contact R C H r c bs l -> (N.of_nat (times (negb s) bs) < k)%N ->
  kbs (e_kb e) <> None -> (last <= 0xA0)%N ->
  scans pre l (mkTy e last false true n [] [] o) = mkTy e last false true n [] [] o /\
  stands_but (pre ++ l) H r c (s, (k - N.of_nat (times (negb s) bs))%N).
Proof.
  induction bs as [|b bs IH]; intros l pre H r c s k e n o last D M Hr Hc HM HC HL V VL; inv HC; cbn [PropExact.scans].
  - rewrite app_nil_r, N.sub_0_r. auto.
  - rewrite (starts_queue kbs quiet) by auto. cbn [tl firstn visible filter]. rewrite app_nil_r. rewrite times_cons in HL |- *.
    destruct (stand_one pre y H r c (s, k) b (mkTy e last false true n [] [] o) D M Hr Hc H2) as [X1 X2]; [split; auto|].
    rewrite X1. rename l' into l. 
    assert (DB : db (s, k) b = (s, (k - N.of_nat (if Bool.eqb (negb s) b then 1 else 0))%N)).
    { unfold db. cbn [fst snd]. destruct (Bool.eqb_spec (negb s) b) as [E|E].
      - subst b. replace (Bool.eqb (negb s) s) with false by (destruct s; auto). replace (k =? 1)%N with false by lia. reflexivity.
      - replace (Bool.eqb b s) with true by (destruct b, s; auto; contradiction E; auto). rewrite N.sub_0_r. reflexivity. }
    assert (TG : fold_left moved (target (s, k) b r c) (mkTy e last false true n [] [] o) = mkTy e last false true n [] [] o).
    { unfold target. rewrite DB. cbn [fst]. destruct s; [|reflexivity]. destruct b; [|reflexivity]. cbn [fold_left]. apply held_still; auto. split; auto. }
    rewrite TG. rewrite DB in X2.
    destruct (IH l (pre ++ [y]) H r c s _ e n o last X2 M Hr Hc HM H4) as [Y1 Y2]; auto; [lia|].
    split; [exact Y1|]. rewrite <- app_assoc in Y2. cbn [app] in Y2.
    replace (k - N.of_nat ((if Bool.eqb (negb s) b then 1 else 0) + times (negb s) bs))%N
      with (k - N.of_nat (if Bool.eqb (negb s) b then 1 else 0) - N.of_nat (times (negb s) bs))%N by lia. exact Y2.
Qed.

(** A character key that is accepted bounces, short of repeating. *)
Lemma kept : forall bs l pre H r c k e n q o x, stands_but pre H r c (true, k) -> modes_only H -> r < R -> c < C ->
  contact R C H r c bs l -> (N.of_nat (times false bs) < k)%N -> (N.of_nat (times true bs) < n)%N ->
  kbs (e_kb e) <> None -> (x < 0xA0)%N -> code_in kbs e r c = x -> q = [] \/ q = [x] ->
  scans pre l (mkTy e x false true n q [] o) =
    mkTy e x false true (n - N.of_nat (times true bs))%N (match bs with [] => q | _ => [] end) [] (match bs with [] => o | _ => o ++ q end) /\
  stands_but (pre ++ l) H r c (true, (k - N.of_nat (times false bs))%N).
Proof.
  induction bs as [|b bs IH]; intros l pre H r c k e n q o x D M Hr Hc HC HL HN V HX EX HQ; inv HC; cbn [PropExact.scans].
  - rewrite app_nil_r, !N.sub_0_r. auto.
  - rename l' into l. set (x := code_in kbs e r c) in *. rewrite (starts_queue kbs quiet) by auto.
    assert (Q : tl q = [] /\ o ++ visible (firstn 1 q) = o ++ q).
    { destruct HQ as [-> | ->]; cbn [tl firstn visible filter]; auto. replace (x <? 0xA0)%N with true by lia. auto. }
    destruct Q as [-> ->]. rewrite !times_cons in *.
    destruct (stand_one pre y H r c (true, k) b (mkTy e x false true n [] [] (o ++ q)) D M Hr Hc H2) as [X1 X2]; [split; [cbn; lia|auto]|].
    rewrite X1.
    assert (S1 : db (true, k) b = (true, (k - N.of_nat (if Bool.eqb false b then 1 else 0))%N) /\
      fold_left moved (target (true, k) b r c) (mkTy e x false true n [] [] (o ++ q)) =
        mkTy e x false true (n - N.of_nat (if Bool.eqb true b then 1 else 0))%N [] [] (o ++ q)).
    { unfold target, db. cbn [fst snd]. destruct b; cbn [Bool.eqb] in *.
      - rewrite N.sub_0_r. split; [reflexivity|]. cbn [fst fold_left PropExact.moved t_set]. fold x. unfold on_held. cbn [t_last t_left].
        rewrite N.eqb_refl. replace (0 <? n)%N with true by lia. cbn [andb]. replace (n =? 1)%N with false by lia. reflexivity.
      - replace (k =? 1)%N with false by lia. cbn [fst fold_left]. rewrite N.sub_0_r. split; reflexivity. }
    destruct S1 as [DB TG]. rewrite TG. rewrite DB in X2.
    destruct (IH l (pre ++ [y]) H r c _ e (n - N.of_nat (if Bool.eqb true b then 1 else 0))%N [] (o ++ q) x X2 M Hr Hc H4) as [Y1 Y2]; auto; [lia|lia|].
    rewrite Y1. rewrite <- app_assoc in Y2. cbn [app] in Y2. split.
    + f_equal; [lia|destruct bs; auto|]. destruct bs; rewrite ?app_nil_r; auto.
    + replace (k - N.of_nat ((if Bool.eqb false b then 1 else 0) + times false bs))%N
        with (k - N.of_nat (if Bool.eqb false b then 1 else 0) - N.of_nat (times false bs))%N by lia. exact Y2.
Qed.

Lemma contact_app : forall H r c a b l, contact R C H r c (a ++ b) l ->
  exists l1 l2, l = l1 ++ l2 /\ contact R C H r c a l1 /\ contact R C H r c b l2.
Proof. intros H r c a b l X. apply Forall2_app_inv_l in X. destruct X as (l1&l2&A&B&E). eauto. Qed.
Lemma stands_at : forall pre H r c, stands pre H -> r < R -> c < C ->
  exists k, (1 <= k <= 10)%N /\ stands_but pre H r c (H r c, k).
Proof.
  intros pre H r c D Hr Hc. pose proof (dstate_range (key_readings pre r c)) as K. pose proof (D r c Hr Hc) as E.
  destruct (dstate (key_readings pre r c)) as [s k] eqn:ED. cbn [fst snd] in *. subst s. exists k. split; [exact K|]. split; auto.
Qed.
Lemma stands_on : forall pre H r c b k, stands_but pre H r c (b, k) -> r < R -> c < C -> stands pre (set2 H r c b).
Proof.
  intros pre H r c b k [D1 D2] Hr Hc r' c' Hr' Hc'. unfold set2.
  destruct (Nat.eqb_spec r' r), (Nat.eqb_spec c' c); cbn [andb]; try (apply D1; auto; congruence). subst. rewrite D2. reflexivity.
Qed.

Lemma mode_bounce : forall pre H r c bs l e n o, stands pre H -> modes_only H -> r < R -> c < C -> mode_key kbs r c ->
  plain_code (code_in kbs e r c) -> contact R C H r c bs l -> settles (negb (H r c)) bs -> kbs (e_kb e) <> None ->
  scans pre l (mkTy e 0xA0 false true n [] [] o) = mkTy (after_event kbs e (r, c, negb (H r c))) 0xA0 false true n [] [] o /\
  stands (pre ++ l) (set2 H r c (negb (H r c))).
Proof.
  intros pre H r c bs l e n o D M Hr Hc HM HP HC [S1 S2] V. destruct (stands_at _ _ _ _ D Hr Hc) as (k&K&D0).
  destruct (times_split (negb (H r c)) (N.to_nat k) bs ltac:(lia) ltac:(lia)) as (u&v&->&TU).
  destruct (contact_app _ _ _ _ _ _ HC) as (l1&l2&->&C1&C2). inv C2. rename l' into l3.
  destruct (idle u l1 pre H r c (H r c) k e n o 0xA0 D0 M Hr Hc (fun _ => HM) C1 ltac:(lia) V ltac:(lia)) as [X1 X2].
  rewrite TU in X2. replace (k - N.of_nat (N.to_nat k - 1))%N with 1%N in X2 by lia.
  rewrite scans_app, X1. cbn [PropExact.scans]. rewrite (starts_queue kbs quiet) by auto. cbn [tl firstn visible filter]. rewrite app_nil_r.
  destruct (stand_one _ y H r c _ _ (mkTy e 0xA0 false true n [] [] o) X2 M Hr Hc H2) as [Y1 Y2]; [split; [cbn; lia|auto]|].
  rewrite Y1. unfold target, db in *. cbn [fst snd] in *.
  replace (Bool.eqb (negb (H r c)) (H r c)) with false in * by (destruct (H r c); auto). cbn [fst N.eqb Pos.eqb] in *.
  replace (fold_left moved _ _) with (mkTy (after_event kbs e (r, c, negb (H r c))) 0xA0 false true n [] [] o).
  2:{ rewrite <- (plain_moves kbs e 0xA0 n o r c (H r c) HP HM V). destruct (H r c); reflexivity. }
  assert (V' : kbs (e_kb (after_event kbs e (r, c, negb (H r c)))) <> None).
  { destruct (H r c); cbn [negb after_event]; auto using press_valid, release_valid. }
  rewrite times_app, times_cons in S2.
  destruct (idle v l3 _ H r c (negb (H r c)) 10%N _ n o 0xA0 Y2 M Hr Hc (fun _ => HM) H4 ltac:(lia) V' ltac:(lia)) as [Z1 Z2].
  split; [exact Z1|]. rewrite <- app_assoc in Z2. rewrite <- app_assoc in Z2. cbn [app] in Z2. eapply stands_on; eauto.
Qed.

Lemma stroke_bounce : forall pre H r c bs1 bs2 l1 l2 e n o, stands pre H -> modes_only H -> r < R -> c < C -> H r c = false ->
  (code_in kbs e r c < 0xA0)%N -> contact R C H r c bs1 l1 -> settles true bs1 -> contact R C H r c bs2 l2 -> settles false bs2 ->
  times true (bs1 ++ bs2) <= 525 -> kbs (e_kb e) <> None ->
  exists n', scans pre (l1 ++ l2) (mkTy e 0xA0 false true n [] [] o) = mkTy e 0xA0 false true n' [] [] (o ++ [code_in kbs e r c]) /\
  stands (pre ++ l1 ++ l2) H.
Proof.
  intros pre H r c bs1 bs2 l1 l2 e n o D M Hr Hc HH HX HC1 [S1 S2] HC2 [S3 S4] HT V. set (x := code_in kbs e r c) in *.
  destruct (stands_at _ _ _ _ D Hr Hc) as (k&K&D0). rewrite HH in D0.
  destruct (times_split true (N.to_nat k) bs1 ltac:(lia) ltac:(lia)) as (u&v&->&TU). cbn [negb] in *.
  rewrite times_app, times_cons in S2. rewrite !times_app, times_cons in HT. cbn [Bool.eqb] in S2, HT.
  destruct (times_split false (10 - times false v) bs2 ltac:(lia) ltac:(lia)) as (u2&v2&->&TU2).
  rewrite !times_app, !times_cons in S4, HT. cbn [Bool.eqb] in S4, HT.
  destruct (contact_app _ _ _ _ _ _ HC1) as (l11&l12&->&C1&C2). inv C2. rename l' into l13, y into rd1, H2 into G1, H4 into G2.
  destruct (contact_app _ _ _ _ _ _ HC2) as (l21&l22&->&C3&C4). inv C4. rename l' into l23, y into rd2, H2 into G3, H4 into G4.
  destruct (idle u l11 pre H r c false k e n o 0xA0 D0 M Hr Hc ltac:(discriminate) C1 ltac:(cbn [negb]; lia) V ltac:(lia)) as [X1 X2].
  cbn [negb] in X2. rewrite TU in X2. replace (k - N.of_nat (N.to_nat k - 1))%N with 1%N in X2 by lia.
  replace ((l11 ++ rd1 :: l13) ++ l21 ++ rd2 :: l23) with (l11 ++ rd1 :: (l13 ++ l21) ++ rd2 :: l23)
    by (rewrite <- !app_assoc; cbn [app]; rewrite <- ?app_assoc; reflexivity).
  rewrite scans_app, X1. cbn [PropExact.scans]. rewrite (starts_queue kbs quiet) by auto. cbn [tl firstn visible filter]. rewrite app_nil_r.
  destruct (stand_one _ rd1 H r c _ _ (mkTy e 0xA0 false true n [] [] o) X2 M Hr Hc G1) as [Y1 Y2]; [split; [cbn; lia|auto]|].
  rewrite Y1. change (db (false, 1%N) true) with (true, 10%N) in Y2. change (target (false, 1%N) true r c) with [(r, c, Press)].
  assert (P1 : fold_left moved [(r, c, Press)] (mkTy e 0xA0 false true n [] [] o) = mkTy e x false true 525 [x] [] o).
  { cbn [fold_left PropExact.moved t_set]. fold x. unfold on_press, types. cbn [t_set t_last t_fast t_auto t_left t_keys t_msgs t_out].
    replace (x <=? 0xA0)%N with true by lia. replace (x =? 0xA0)%N with false by lia. reflexivity. }
  rewrite P1, scans_app.
  assert (CK : contact R C H r c (v ++ u2) (l13 ++ l21)) by (apply Forall2_app; auto).
  destruct (kept (v ++ u2) _ _ H r c 10%N e 525%N [x] o x Y2 M Hr Hc CK) as [Z1 Z2];
    [rewrite times_app; lia|rewrite times_app; lia|exact V|exact HX|reflexivity|auto|].
  rewrite Z1. rewrite !times_app in *. set (n1 := (525 - N.of_nat (times true v + times true u2))%N).
  replace (10 - N.of_nat (times false v + times false u2))%N with 1%N in Z2 by lia.
  cbn [PropExact.scans]. rewrite (starts_queue kbs quiet) by auto.
  assert (Q : tl (match v ++ u2 with [] => [x] | _ => [] end) = [] /\
    (match v ++ u2 with [] => o | _ => o ++ [x] end) ++ visible (firstn 1 (match v ++ u2 with [] => [x] | _ => [] end)) = o ++ [x]).
  { destruct (v ++ u2); cbn [tl firstn visible filter]; [|split; [auto|apply app_nil_r]]. replace (x <? 0xA0)%N with true by lia. auto. }
  destruct Q as [-> ->].
  destruct (stand_one _ rd2 H r c _ _ (mkTy e x false true n1 [] [] (o ++ [x])) Z2 M Hr Hc G3) as [W1 W2]; [split; [cbn; lia|auto]|].
  rewrite W1. change (db (true, 1%N) false) with (false, 10%N) in W2. change (target (true, 1%N) false r c) with [(r, c, Release)].
  assert (P2 : fold_left moved [(r, c, Release)] (mkTy e x false true n1 [] [] (o ++ [x])) = mkTy e 0xA0 false true n1 [] [] (o ++ [x])).
  { cbn [fold_left PropExact.moved t_set]. fold x. unfold on_release. cbn [t_set t_last t_fast t_auto t_left t_keys t_msgs t_out].
    replace (x <=? 0xA0)%N with true by lia. rewrite N.eqb_refl. reflexivity. }
  rewrite P2.
  destruct (idle v2 l23 _ H r c false 10%N e n1 (o ++ [x]) 0xA0 W2 M Hr Hc ltac:(discriminate) G4 ltac:(cbn [negb]; lia) V ltac:(lia)) as [U1 U2].
  exists n1. split; [exact U1|].
  intros r' c' Hr' Hc'. pose proof (stands_on _ _ _ _ _ _ U2 Hr Hc r' c' Hr' Hc') as X.
  repeat (rewrite <- app_assoc in X || rewrite <- app_comm_cons in X). repeat (rewrite <- app_assoc || rewrite <- app_comm_cons). cbn [app] in X. rewrite X.
  unfold set2. destruct (Nat.eqb_spec r' r), (Nat.eqb_spec c' c); cbn [andb]; auto. subst. auto.
Qed.

Lemma chatter_scans : forall H e rds out H' e', chatter R C kbs H e rds out H' e' ->
  forall pre n o, stands pre H -> modes_only H -> kbs (e_kb e) <> None ->
  exists n', scans pre rds (mkTy e 0xA0 false true n [] [] o) = mkTy e' 0xA0 false true n' [] [] (o ++ out) /\
    stands (pre ++ rds) H' /\ modes_only H' /\ kbs (e_kb e') <> None.
Proof.
  intros H e rds out H' e' HS.
  induction HS as [H e|H e rd rds out H' e' HR HS IH|H e r c bs l rds out H' e' Hr Hc HM HP HC HB HS IH
                  |H e r c bs1 bs2 l1 l2 rds out H' e' Hr Hc HH HX HC1 HB1 HC2 HB2 HT HS IH]; intros pre n o D M V.
  - exists n. rewrite !app_nil_r. auto.
  - cbn [PropExact.scans]. rewrite (starts_queue kbs quiet) by auto. cbn [tl firstn visible filter]. rewrite app_nil_r.
    destruct (stand_scan pre rd H (mkTy e 0xA0 false true n [] [] o) D M HR) as [X1 X2]; [split; [cbn; lia|auto]|]. rewrite X1.
    destruct (IH (pre ++ [rd]) n o X2 M V) as (n'&Y1&Y2). exists n'. rewrite <- app_assoc in Y2. auto.
  - destruct (mode_bounce pre H r c bs l e n o D M Hr Hc HM HP HC HB V) as [X1 X2].
    destruct (IH (pre ++ l) n o X2) as (n'&Y1&Y2).
    + intros r' c' Hr' Hc'. unfold set2. destruct (Nat.eqb_spec r' r), (Nat.eqb_spec c' c); cbn [andb]; auto. subst. auto.
    + destruct (H r c); cbn [negb after_event]; auto using press_valid, release_valid.
    + exists n'. rewrite scans_app, X1. rewrite <- app_assoc in Y2. auto.
  - destruct (stroke_bounce pre H r c bs1 bs2 l1 l2 e n o D M Hr Hc HH HX HC1 HB1 HC2 HB2 HT V) as (n1&X1&X2).
    destruct (IH (pre ++ l1 ++ l2) n1 (o ++ [code_in kbs e r c]) X2 M V) as (n'&Y1&Y2). exists n'.
    rewrite (app_assoc l1 l2 rds), scans_app, X1, Y1. rewrite <- app_assoc in Y2 |- *. auto.
Qed.
End Scan.

(** ** C111 *)
Lemma set_is : forall e g s, GRel g s -> is_set e g -> setting_is e s.
Proof.
  intros e g s [RT _] [I1 I2]. unfold setting_is, shift_on, caps_on, ctrl_on.
  rewrite (rt_mod _ _ RT), (rt_cur _ _ RT), I1, I2. cbn. split; [auto|]. unfold shift_val, bitN.
  destruct (e_shift e), (e_lock e), (e_caps e), (e_ctrl e); auto.
Qed.
(** From power-on, whatever the keymaps: what has been sent, and the modes. *)
Theorem C111_bouncing_session : forall R C kbs rds out H e s, sound_firmware R kbs -> same_size R C kbs -> scan_hook_free kbs ->
  chatter R C kbs (fun _ _ => false) (at_start kbs) rds out H e -> c_run kbs rds = Ok s ->
  sent s = out /\ setting_is e s /\ forall r c, r < R -> c < C -> down s r c = H r c.
Proof.
  intros R C kbs rds out H e s HS HZ HQ HE ES. rewrite (C104_exact R C kbs rds s HS HZ ES). unfold output_of.
  destruct (chatter_scans R C kbs HQ _ _ _ _ _ _ HE [] 525%N []) as (n'&X1&X2&X3&X4).
  - intros r c _ _. reflexivity.
  - intros r c _ _ X. discriminate X.
  - destruct (proj1 HS) as [cs E0]. cbn. congruence.
  - cbn [app] in X1, X2. change (mkTy (at_start kbs) 0xA0 false true 525 [] [] []) with (starts kbs) in X1. rewrite X1.
    split; [reflexivity|]. split.
    + destruct (run_ok_g R kbs HS rds) as (g&s'&E1&T1&E2&RL). rewrite ES in E2. inv E2.
      destruct (exact_run kbs R C HS HZ rds) as [g' (E3&[IS _])]. rewrite E1 in E3. inv E3. rewrite X1 in IS. exact (set_is _ _ _ RL IS).
    + intros r c Hr Hc. rewrite <- (X2 r c Hr Hc). apply (run_dbp R kbs HS C (at_least_size kbs R C HS HZ) rds s r c ES Hr Hc).
Qed.
Print Assumptions C111_bouncing_session.

(** ** Specification, in continuous time *)
(** The keys stay as in [H] from time [a] until [z] (excluded). *)
Definition c_rests (R C : nat) (W : nat -> nat -> N) (H : nat -> nat -> bool) (a z : nat) : Prop :=
  a <= z /\ forall t, a <= t < z -> reads R C H (W t).
(** From [a] until [z] the contact (r, c) goes to [b]: it may bounce for 7 ms and
    then keeps still for at least [11 * G] ms; the other keys stay as in [H]. *)
Definition c_moves (R C : nat) (W : nat -> nat -> N) (G : nat) (H : nat -> nat -> bool) (r c : nat) (b : bool) (a z : nat) : Prop :=
  a + 7 + 11 * G <= z /\ forall t, a <= t < z -> exists v, reads R C (set2 H r c v) (W t) /\ (a + 7 <= t -> v = b).

(** Someone types from time [a] to time [z]: waits, mode keys going down and up,
    keystrokes of at most half a second.  Keys held and modes before, end, what
    the host is to receive, keys held and modes afterwards. *)
Inductive c_script (R C : nat) (kbs : N -> option (list setup_cmd)) (W : nat -> nat -> N) (G : nat) :
    nat -> (nat -> nat -> bool) -> setting -> nat -> list N -> (nat -> nat -> bool) -> setting -> Prop :=
| cs_done : forall a H e, c_script R C kbs W G a H e a [] H e
| cs_wait : forall a b z H e out H' e', c_rests R C W H a b ->
    c_script R C kbs W G b H e z out H' e' -> c_script R C kbs W G a H e z out H' e'
| cs_mode : forall a b z H e r c out H' e', r < R -> c < C -> mode_key kbs r c -> plain_code (code_in kbs e r c) ->
    c_moves R C W G H r c (negb (H r c)) a b ->
    c_script R C kbs W G b (set2 H r c (negb (H r c))) (after_event kbs e (r, c, negb (H r c))) z out H' e' ->
    c_script R C kbs W G a H e z out H' e'
| cs_stroke : forall a b d z H e r c out H' e', r < R -> c < C -> H r c = false -> (code_in kbs e r c < 0xA0)%N ->
    c_moves R C W G H r c true a b -> b <= a + 500 -> c_moves R C W G H r c false b d ->
    c_script R C kbs W G d H e z out H' e' ->
    c_script R C kbs W G a H e z (code_in kbs e r c :: out) H' e'.

(** ** Passes over moving keys *)
Section Passes.
Context (R C : nat) (W : nat -> nat -> N) (G n top : nat) (E : nat -> nat) (T : nat -> nat -> nat) (Z : nat).
Hypothesis scan_in : forall i, n <= i < top -> in_order (T i) (E i) (E (S i)).
Hypothesis progress : forall i j, n <= i <= j -> j <= top -> E i + (j - i) <= E j + 1.
Hypothesis step_le : forall i, n <= i < top -> E i < Z -> E (S i) <= E i + G.
Hypothesis steps_up : forall i j, n <= i <= j -> j <= top -> E i <= E j.
Hypothesis enough : Z <= E top.
Let rd (i : nat) : nat -> N := reads_at W (T i).

(** The scans that end in the time from [a] to [z]. *)
Lemma c_next_scan : forall p z, n <= p < top -> E p <= z -> z <= Z ->
  exists q, p <= q < top /\ E q <= z <= E (S q) /\ forall i, p <= i < q -> E (S i) < z.
Proof.
  intros p z Hp Hz HZ. destruct (first_true (fun i => z <=? E (S i)) (top - 1 - p) p) as (q&Q1&Q2&Q3).
  { replace (S (p + (top - 1 - p))) with top by lia. apply Nat.leb_le. lia. }
  exists q. split; [lia|]. split; [|intros i Hi; specialize (Q3 i Hi); cbv beta in Q3; lia].
  cbv beta in Q2. split; [|lia]. destruct (Nat.eq_dec q p) as [-> |NE]; [exact Hz|]. specialize (Q3 (q - 1) ltac:(lia)). cbv beta in Q3.
  replace (S (q - 1)) with q in Q3 by lia. lia.
Qed.

(** Before [a] and not longer ago than a scan takes, only (r, c) may differ from
    [D]. *)
Definition c_nearly (D : nat -> nat -> bool) (r c a : nat) : Prop :=
  forall t, E n <= t < a -> a <= t + G -> exists v, reads R C (set2 D r c v) (W t).
Definition c_settled (D : nat -> nat -> bool) (a : nat) : Prop :=
  forall t, E n <= t < a -> a <= t + G -> reads R C D (W t).
Lemma c_shows_same : forall D r c v rd, D r c = v -> reads R C D rd -> reads R C (set2 D r c v) rd.
Proof.
  intros D r c v rd0 HD HS r' c' Hr Hc. rewrite (HS r' c' Hr Hc). unfold set2. destruct (Nat.eqb_spec r' r); destruct (Nat.eqb_spec c' c); cbn [andb]; congruence.
Qed.
Lemma c_settled_nearly : forall D r c a, c_settled D a -> c_nearly D r c a.
Proof. intros D r c a H t H1 H2. exists (D r c). apply c_shows_same; auto. Qed.

Lemma c_scan_reads : forall D r c i, (forall q, exists v, reads R C (set2 D r c v) (W (T i q))) -> reads R C (set2 D r c (reading (W (T i r)) r c)) (rd i).
Proof.
  intros D r c i H r' c' Hr Hc. unfold rd, reads_at. change (reading (fun r0 => W (T i r0) r0) r' c') with (reading (W (T i r')) r' c').
  unfold set2. destruct (Nat.eqb_spec r' r) as [-> |N1]; [destruct (Nat.eqb_spec c' c) as [-> |N2]; [reflexivity|]|]; cbn [andb].
  - destruct (H r) as [v Hv]. rewrite (Hv r c' Hr Hc). apply set2_other. (clear -N2; lia).
  - destruct (H r') as [v Hv]. rewrite (Hv r' c' Hr Hc). apply set2_other. (clear -N1; lia).
Qed.

(** A contact change, as scanned. *)
Lemma c_segment : forall D r c b a z p, r < R -> c < C -> c_moves R C W G D r c b a z -> c_nearly D r c a -> z <= Z ->
  n <= p < top -> E p <= a <= E (S p) ->
  exists q bs, p <= q < top /\ E q <= z <= E (S q) /\ contact R C D r c bs (map rd (seq p (q - p))) /\ settles b bs /\
    length bs <= z - a + 2 /\ c_settled (set2 D r c b) z.
Proof.
  intros D r c b a z p Hr Hc [LEN HM] HN HZ Hp [Ea Eb].
  destruct (c_next_scan p z Hp ltac:(lia) HZ) as (q&Q1&Q2&Q3).
  exists q, (map (fun i => reading (W (T i r)) r c) (seq p (q - p))).
  (* every scan in the c_segment reads between [E p] and [z] *)
  assert (RNG : forall i w, p <= i < q -> E i <= T i w /\ T i w < z /\ a <= T i w + G /\ E n <= T i w).
  { intros i w Hi. destruct (scan_in i ltac:(lia)) as [S1 _]. specialize (S1 w). specialize (Q3 i Hi).
    pose proof (steps_up p i ltac:(lia) ltac:(lia)). pose proof (steps_up n p ltac:(lia) ltac:(lia)).
    pose proof (step_le p ltac:(lia) ltac:(lia)). lia. }
  assert (SOME : forall i w, p <= i < q -> exists v, reads R C (set2 D r c v) (W (T i w))).
  { intros i w Hi. destruct (RNG i w Hi) as (R1&R2&R3&R4). destruct (Nat.le_gt_cases a (T i w)) as [L|L].
    - destruct (HM (T i w) ltac:(lia)) as [v [Hv _]]. eauto.
    - apply HN; lia. }
  assert (GOOD : forall i, p <= i < q -> a + 7 <= E i -> reading (W (T i r)) r c = b).
  { intros i Hi HE. destruct (RNG i r Hi) as (R1&R2&_). destruct (HM (T i r) ltac:(lia)) as [v [Hv HB]].
    rewrite (Hv r c Hr Hc), set2_same. apply HB. lia. }
  split; [lia|]. split; [lia|]. split; [|split; [split|split]].
  - unfold contact. clear LEN HM HN HZ Hp Ea Eb Q1 Q2 Q3 RNG GOOD. remember (q - p) as k eqn:EK. assert (K : forall i, In i (seq p k) -> p <= i < q).
    { intros i IN. apply in_seq in IN. lia. }
    clear EK. induction (seq p k) as [|i l IH]; [constructor|]. cbn [map]. constructor.
    + apply c_scan_reads. intros w. apply SOME. apply K. left. reflexivity.
    + apply IH. intros j Hj. apply K. right. exact Hj.
  - (* ten readings of the new state *)
    destruct (first_true (fun i => a + 7 <=? E i) (q - p) p) as (g&G1&G2&G3).
    { replace (p + (q - p)) with q by lia. apply Nat.leb_le. pose proof (step_le q ltac:(lia)). lia. }
    cbv beta in G2. apply Nat.leb_le in G2.
    assert (EG : E g <= a + 6 + G).
    { destruct (Nat.eq_dec g p) as [-> |NE]; [lia|]. specialize (G3 (g - 1) ltac:(lia)). cbv beta in G3.
      pose proof (step_le (g - 1) ltac:(lia) ltac:(lia)) as SL. replace (S (g - 1)) with g in SL by lia. lia. }
    assert (TEN : forall j, j <= 10 -> g + j <= q /\ E (g + j) <= a + 6 + G + j * G).
    { induction j as [|j IH]; intros Hj; [rewrite Nat.add_0_r; lia|]. destruct (IH ltac:(lia)) as [I1 I2].
      assert (NQ : g + j <> q). { intros EQ. rewrite EQ in I2. assert (j * G <= 9 * G) by (apply Nat.mul_le_mono_r; lia). pose proof (step_le q ltac:(lia) ltac:(lia)). lia. }
      assert (J : j * G <= 9 * G) by (apply Nat.mul_le_mono_r; lia).
      split; [lia|]. pose proof (step_le (g + j) ltac:(lia) ltac:(lia)) as SL. replace (g + S j) with (S (g + j)) by lia.
      replace (S j * G) with (j * G + G) by (cbn [Nat.mul]; lia). lia. }
    destruct (TEN 10 ltac:(lia)) as [TQ _].
    replace (q - p) with ((g - p) + (10 + (q - g - 10))) by lia. rewrite !map_seq_split, !times_app.
    rewrite (times_all b (map _ (seq (p + (g - p)) 10))); [rewrite map_length, seq_length; lia|].
    intros v IN. apply in_map_iff in IN. destruct IN as [i [<- IN]]. apply in_seq in IN. apply GOOD; [lia|].
    pose proof (steps_up g i ltac:(lia) ltac:(lia)). lia.
  - (* at most nine of the old one *)
    destruct (Nat.le_gt_cases (q - p) 9) as [L|L].
    { etransitivity; [apply times_le|]. rewrite map_length, seq_length. exact L. }
    replace (q - p) with (9 + (q - p - 9)) by lia. rewrite map_seq_split, times_app.
    rewrite (times_none (negb b) (map _ (seq (p + 9) _))).
    + pose proof (times_le (negb b) (map (fun i => reading (W (T i r)) r c) (seq p 9))) as TL. rewrite map_length, seq_length in TL. lia.
    + intros v IN. apply in_map_iff in IN. destruct IN as [i [<- IN]]. apply in_seq in IN. rewrite negb_involutive. apply GOOD; [lia|].
      pose proof (progress (S p) i ltac:(lia) ltac:(lia)). lia.
  - rewrite map_length, seq_length. destruct (Nat.eq_dec q p) as [-> |NE]; [lia|].
    pose proof (progress (S p) q ltac:(lia) ltac:(lia)). lia.
  - intros t H1 H2. destruct (Nat.eq_dec G 0) as [-> |NG]; [lia|]. destruct (HM t ltac:(nia)) as [v [Hv HB]].
    rewrite <- (HB ltac:(nia)). exact Hv.
Qed.

Lemma c_shows_back : forall D r c v rd0, D r c = v -> reads R C (set2 D r c v) rd0 -> reads R C D rd0.
Proof.
  intros D r c v rd0 HD HS r' c' Hr Hc. rewrite (HS r' c' Hr Hc). unfold set2. destruct (Nat.eqb_spec r' r); destruct (Nat.eqb_spec c' c); cbn [andb]; congruence.
Qed.
Lemma c_settled_back : forall D r c v a, D r c = v -> c_settled (set2 D r c v) a -> c_settled D a.
Proof. intros D r c v a HD H t H1 H2. apply (c_shows_back D r c v); auto. Qed.
Lemma c_settled_any : forall D r c v a, c_settled (set2 D r c v) a -> c_nearly D r c a.
Proof. intros D r c v a H t H1 H2. exists v. auto. Qed.

Lemma c_wait_scans : forall kbs H e p q out H' e' rest, p <= q ->
  (forall i, p <= i < q -> reads R C H (rd i)) -> chatter R C kbs H e rest out H' e' ->
  chatter R C kbs H e (map rd (seq p (q - p)) ++ rest) out H' e'.
Proof.
  intros kbs H e p q out H' e' rest Hpq HS HB. remember (q - p) as l eqn:EL. revert p EL Hpq HS.
  induction l as [|l IH]; intros p EL Hpq HS; [exact HB|]. cbn [seq map app]. constructor; [apply HS; lia|].
  apply IH; [lia|lia|]. intros i Hi. apply HS. lia.
Qed.
Lemma c_rd_split : forall p q u, p <= q <= u -> map rd (seq p (u - p)) = map rd (seq p (q - p)) ++ map rd (seq q (u - q)).
Proof. intros p q u H. replace (u - p) with ((q - p) + (u - q)) by lia. rewrite map_seq_split. repeat f_equal. lia. Qed.

Lemma c_script_scans : forall kbs a H e z out H' e', c_script R C kbs W G a H e z out H' e' ->
  a <= z /\ forall p, n <= p < top -> E p <= a <= E (S p) -> c_settled H a -> z <= Z ->
  exists q, p <= q < top /\ E q <= z <= E (S q) /\ chatter R C kbs H e (map rd (seq p (q - p))) out H' e'.
Proof.
  intros kbs a H e z out H' e' HS. induction HS as
    [a H e|a b z H e out H' e' [HL HR] HS [IL IH]
    |a b z H e r c out H' e' Hr Hc HM HP M1 HS [IL IH]
    |a b d z H e r c out H' e' Hr Hc HD HK M1 HB M2 HS [IL IH]].
  - split; [lia|]. intros p Hp HE _ _. exists p. rewrite Nat.sub_diag. split; [lia|]. split; [exact HE|]. constructor.
  - split; [lia|]. intros p Hp HE HT HZ. destruct (c_next_scan p b Hp ltac:(lia) ltac:(lia)) as (q&Q1&Q2&Q3).
    assert (ST : c_settled H b).
    { intros t H1 H2. destruct (Nat.le_gt_cases a t); [apply HR; lia|apply HT; lia]. }
    destruct (IH q ltac:(lia) Q2 ST HZ) as (u&U1&U2&U3). exists u. split; [lia|]. split; [exact U2|].
    rewrite (c_rd_split p q u) by lia. apply c_wait_scans; [lia| |exact U3].
    intros i Hi r c Hr Hc. destruct (scan_in i ltac:(lia)) as [S1 _]. specialize (S1 r). specialize (Q3 i Hi).
    pose proof (steps_up p i ltac:(lia) ltac:(lia)). pose proof (steps_up n p ltac:(lia) ltac:(lia)).
    pose proof (step_le p ltac:(lia) ltac:(lia)).
    change (reading (rd i) r c) with (reading (W (T i r)) r c).
    destruct (Nat.le_gt_cases a (T i r)); [apply HR; auto; lia|apply HT; auto; lia].
  - pose proof M1 as [L1 _]. split; [lia|]. intros p Hp HE HT HZ.
    destruct (c_segment H r c _ a b p Hr Hc M1 (c_settled_nearly _ _ _ _ HT) ltac:(lia) Hp HE) as (q&bs1&Q1&Q2&R1&S1&B1&T1).
    destruct (IH q ltac:(lia) Q2 T1 HZ) as (v&V1&V2&V3).
    exists v. split; [lia|]. split; [exact V2|]. rewrite (c_rd_split p q v) by lia. apply (c_mode R C kbs H e r c bs1); auto.
  - pose proof M1 as [L1 _]. pose proof M2 as [L2 _]. split; [lia|]. intros p Hp HE HT HZ.
    destruct (c_segment H r c true a b p Hr Hc M1 (c_settled_nearly _ _ _ _ HT) ltac:(lia) Hp HE) as (q&bs1&Q1&Q2&R1&S1&B1&T1).
    destruct (c_segment H r c false b d q Hr Hc M2 (c_settled_any _ _ _ _ _ T1) ltac:(lia) ltac:(lia) Q2) as (u&bs2&U1&U2&R2&S2&B2&T2).
    destruct (IH u ltac:(lia) U2 (c_settled_back _ _ _ _ _ HD T2) HZ) as (v&V1&V2&V3).
    exists v. split; [lia|]. split; [exact V2|]. rewrite (c_rd_split p q v), (c_rd_split q u v) by lia.
    apply (c_stroke R C kbs H e r c bs1 bs2); auto. rewrite times_app. destruct S2 as [_ S2]. cbn [negb] in S2.
    pose proof (times_le true bs1). lia.
Qed.
End Passes.

(** ** C112 *)
Lemma c_script_le : forall R C kbs W G a H e z out H' e', c_script R C kbs W G a H e z out H' e' -> a <= z.
Proof. intros R C kbs W G a H e z out H' e' HS. induction HS; unfold c_rests, c_moves in *; lia. Qed.

(** From power-on; times run from the end of the initialisation. *)
Theorem C112_any_keymaps_in_continuous_time : forall R C kbs P W G Z out H e,
  sound_firmware R kbs -> same_size R C kbs -> scan_hook_free kbs ->
  (forall i, c_ended kbs P W i < Z -> c_ended kbs P W (S i) <= c_ended kbs P W i + G) ->
  c_script R C kbs W G (c_ended kbs P W 0) (fun _ _ => false) (at_start kbs) Z out H e ->
  exists N s c, c_clock kbs P W N = Ok (s, c) /\ c_ended kbs P W N <= Z <= c_ended kbs P W (S N) /\
    sent s = out /\ map snd (rev (stamps (jc c))) = out /\ setting_is e s /\ forall r c, r < R -> c < C -> down s r c = H r c.
Proof.
  intros R C kbs P W G Z out H e HS HZ HQ HG HE. assert (K0 : kbs 0%N <> None) by (destruct (proj1 HS); congruence).
  assert (TOT : forall n, exists s x, c_clock kbs P W n = Ok (s, x)).
  { intros n. pose proof (c_trace kbs P W K0 n) as X. destruct (c_clock kbs P W n) as [[s x]|u]; [eauto|].
    destruct X as [T X]. destruct (C98_any_keymaps_safe R kbs (readings_of W T n) HS) as [s E]. congruence. }
  pose proof (c_script_le _ _ _ _ _ _ _ _ _ _ _ _ HE) as AZ.
  set (E := c_ended kbs P W) in *. set (top := (Z - E 0) + 1).
  destruct (TOT top) as (st&xt&ET). pose proof (c_trace kbs P W K0 top) as X. rewrite ET in X. destruct X as (T&g&RT&_&F1&F2&_&_).
  assert (PR : forall i j, i <= j -> E i + (j - i) <= E j + 1).
  { clear -TOT K0. intros i j Hij. destruct (TOT i) as (si&xi&Ei). destruct (TOT j) as (sj&xj&Ej). unfold E.
    rewrite (c_ended_ok _ _ _ _ _ _ Ei), (c_ended_ok _ _ _ _ _ _ Ej). replace j with (i + (j - i)) in Ej by lia.
    pose proof (c_ended_ge kbs P W K0 _ _ _ _ _ _ Ei Ej) as PD. unfold paid, jt in PD. destruct (flag (jc xj)); lia. }
  destruct (c_script_scans R C W G 0 top E T Z) with (kbs := kbs) (a := E 0) (H := fun _ _ : nat => false) (e := at_start kbs) (z := Z)
    (out := out) (H' := H) (e' := e) as [_ Y].
  - intros i Hi. apply F1. (clear -Hi; lia).
  - intros i j Hij _. apply PR. (clear -Hij; lia).
  - intros i Hi HZ'. apply HG. exact HZ'.
  - intros i j Hij Hj. apply (c_ended_mono kbs P W K0 top st xt); [exact ET|(clear -Hij Hj; lia)].
  - specialize (PR 0 top). unfold top in *. clear -PR AZ. lia.
  - exact HE.
  - destruct (Y 0) as (q&Q1&Q2&QB).
    + unfold top. clear. lia.
    + split; [(clear; lia)|]. apply (c_ended_mono kbs P W K0 top st xt); [exact ET|unfold top; clear; lia].
    + intros t Ht. (clear -Ht; lia).
    + (clear; lia).
    + destruct (F2 q) as (s'&c'&Eq&Rq); [(clear -Q1; lia)|]. rewrite Nat.sub_0_r in QB.
      destruct (C111_bouncing_session R C kbs _ out H e s' HS HZ HQ QB Rq) as (A1&A2&A3).
      exists q, s', c'. split; [exact Eq|]. split; [exact Q2|]. split; [exact A1|]. split; [|split; [exact A2|exact A3]].
      pose proof (c_trace kbs P W K0 q) as X. rewrite Eq in X. destruct X as (_&_&_&_&_&_&ST&_).
      rewrite map_rev, ST, rev_involutive. exact A1.
Qed.
Print Assumptions C112_any_keymaps_in_continuous_time.

(** ** Examples: the keyboard of C104 *)
Definition presses (with_keys without : list (nat * nat)) (bs : list bool) : list (nat -> N) :=
  map (fun b : bool => matrix (if b then with_keys else without)) bs.
Definition row_b (H : nat -> nat -> bool) (L : list (nat * nat)) : bool :=
  forallb (fun c => Bool.eqb (reading (matrix L) 0 c) (H 0 c)) (seq 0 8).
Lemma row_b_ok : forall H L, row_b H L = true -> reads 1 8 H (matrix L).
Proof.
  intros H L HB r c Hr Hc. assert (r = 0) as -> by lia. unfold row_b in HB. rewrite forallb_forall in HB.
  apply Bool.eqb_prop. apply HB. apply in_seq. lia.
Qed.
Lemma contact_presses : forall H c w wo bs, row_b (set2 H 0 c true) w = true -> row_b (set2 H 0 c false) wo = true ->
  contact 1 8 H 0 c bs (presses w wo bs).
Proof. intros H c w wo bs A B. induction bs as [|[] bs IH]; constructor; auto using row_b_ok. Qed.
Lemma shift_mode : mode_key desk 0 2.
Proof.
  intros [i sh lk cp ct] V. cbn [e_kb] in V. unfold code_in. cbn [e_kb]. unfold desk in *.
  destruct (N.eqb_spec i 0); [|destruct (N.eqb_spec i 1); [|congruence]]; destruct ct, sh, lk, cp; vm_compute; reflexivity.
Qed.

(** SHIFT and "b", every contact bouncing. *)
Definition going (b : bool) : list bool := [b; negb b; b; b; negb b; negb b; b; negb b; b] ++ repeat b 9.
Definition chattering : list (nat -> N) :=
  hold 3 [] ++ presses [(0, 2)] [] (going true) ++ presses [(0, 2); (0, 1)] [(0, 2)] (going true) ++
  presses [(0, 2); (0, 1)] [(0, 2)] (going false) ++ presses [(0, 2)] [] (going false) ++ hold 1 [].
Example C111_example : (exists H e, chatter 1 8 desk (fun _ _ => false) (at_start desk) chattering [66]%N H e) /\
  obs (fun s => (sent s, shift_on s, down s 0 1)) (c_run desk chattering) = Some ([66]%N, false, false).
Proof.
  split; [|vm_compute; reflexivity].
  assert (ST : forall b, settles b (going b)) by (intros []; split; vm_compute; lia).
  unfold chattering, hold. cbn [repeat app]. do 2 eexists. do 3 (apply c_wait; [apply row_b_ok; reflexivity|]).
  eapply (c_mode 1 8 desk _ _ 0 2 (going true)); [lia|lia|exact shift_mode|exact I|apply contact_presses; reflexivity|apply ST|].
  match goal with |- chatter _ _ _ _ ?e _ _ _ _ => change [66%N] with [code_in desk e 0 1] end.
  eapply (c_stroke 1 8 desk _ _ 0 1 (going true) (going false)); [lia|lia|reflexivity|reflexivity|apply contact_presses; reflexivity|apply ST|
    apply contact_presses; reflexivity|apply ST|vm_compute; lia|].
  eapply (c_mode 1 8 desk _ _ 0 2 (going false)); [lia|lia|exact shift_mode|exact I|apply contact_presses; reflexivity|apply (ST false)|].
  apply c_wait; [apply row_b_ok; reflexivity|]. apply c_done.
Qed.

(** In continuous time: SHIFT from 20 ms, "b" from 70 to 140 ms, with bounces;
    every fifth piece of computing is interrupted. *)
Definition desk_keys (t : nat) : list (nat * nat) :=
  (if existsb (Nat.eqb t) [20; 22; 23; 26] || (27 <=? t) then [(0, 2)] else []) ++
  (if existsb (Nat.eqb t) [70; 72; 74; 142; 145] || ((76 <=? t) && (t <? 140)) then [(0, 1)] else []).
Definition desk_world (t : nat) : nat -> N := matrix (desk_keys t).
Lemma c_rests_check : forall H a z, a <= z -> forallb (fun t => row_b H (desk_keys t)) (seq a (z - a)) = true -> c_rests 1 8 desk_world H a z.
Proof.
  intros H a z L HF. split; [exact L|]. intros t Ht. apply row_b_ok. rewrite forallb_forall in HF. apply HF. apply in_seq. lia.
Qed.
Lemma c_moves_check : forall G H c b a z, a + 7 + 11 * G <= z ->
  forallb (fun t => row_b (set2 H 0 c b) (desk_keys t) || (t <? a + 7) && row_b (set2 H 0 c (negb b)) (desk_keys t)) (seq a (z - a)) = true ->
  c_moves 1 8 desk_world G H 0 c b a z.
Proof.
  intros G H c b a z L HF. split; [exact L|]. intros t Ht. rewrite forallb_forall in HF. specialize (HF t).
  apply orb_true_iff in HF; [|apply in_seq; lia]. destruct HF as [HF|HF].
  - exists b. split; [apply row_b_ok; exact HF|reflexivity].
  - apply andb_true_iff in HF. destruct HF as [H1 H2]. exists (negb b). split; [apply row_b_ok; exact H2|]. intros H3. lia.
Qed.
Example C112_example :
  c_ended desk slow desk_world 0 = 1 /\
  (forall i, c_ended desk slow desk_world i < 190 -> c_ended desk slow desk_world (S i) <= c_ended desk slow desk_world i + 3) /\
  (exists H e, c_script 1 8 desk desk_world 3 1 (fun _ _ => false) (at_start desk) 190 [66]%N H e) /\
  bind (c_clock desk slow desk_world 157) (fun p => Ok (now (jc (snd p)), stamps (jc (snd p)))) = Ok (190, [(83, 66%N)]).
Proof.
  split; [vm_compute; reflexivity|]. split; [|split; [|vm_compute; reflexivity]].
  - intros i Hz. destruct (Nat.le_gt_cases i 200) as [L|L].
    + assert (F : forallb (fun i => c_ended desk slow desk_world (S i) <=? c_ended desk slow desk_world i + 3) (seq 0 201) = true) by (vm_compute; reflexivity).
      rewrite forallb_forall in F. apply Nat.leb_le. apply F. apply in_seq. (clear -L; lia).
    + exfalso. assert (K0 : desk 0%N <> None) by discriminate.
      assert (TOT : exists s x, c_clock desk slow desk_world i = Ok (s, x)).
      { destruct (C110_whole_board_in_real_time 1 8 desk slow desk_world i (proj1 desk_sound) (proj1 (proj2 desk_sound))) as (s&c&T&E&_). eauto. }
      destruct TOT as (s&x&E).
      pose proof (c_ended_mono desk slow desk_world K0 i s x 200 i E ltac:(clear -L; lia)) as M.
      assert (K : (190 <=? c_ended desk slow desk_world 200) = true) by (vm_compute; reflexivity). apply Nat.leb_le in K. (clear -M K Hz; lia).
  - do 2 eexists. apply (cs_wait 1 8 desk desk_world 3 1 20); [apply c_rests_check; [lia|vm_compute; reflexivity]|].
    apply (cs_mode 1 8 desk desk_world 3 20 70 190 _ _ 0 2); [lia|lia|exact shift_mode|exact I|apply c_moves_check; [lia|vm_compute; reflexivity]|].
    match goal with |- c_script _ _ _ _ _ _ _ ?e _ _ _ _ => change [66%N] with [code_in desk e 0 1] end.
    apply (cs_stroke 1 8 desk desk_world 3 70 140 190 190 _ _ 0 1 []); [lia|lia|reflexivity|reflexivity|apply c_moves_check; [lia|vm_compute; reflexivity]|lia|
      apply c_moves_check; [lia|vm_compute; reflexivity]|].
    apply cs_done.
Qed.
