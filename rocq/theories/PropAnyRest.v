(** Rest and recovery under any keymaps (C116). *)
From Coq Require Import List NArith ZArith Arith Bool Lia.
From Coq Require Import ZifyBool ZifyNat ZifyN.
From Verif Require Import Base Lib Buffer Repeat Devices Modifiers Hook KeymapData Asdf KeySpec Obs PropDebounce
     Custom CustomSpec CustomRef PropCustom PropEvents PropFlow PropExact PropSession.
From Verif Require Import PropModState PropBounce PropAnyHands.
Import ListNotations.

(** ** Specification *)
(** Keys held, modes, whether autorepeat is on, and the character that is
    remembered as the one to repeat (0xA0: none). *)
Record stance := mkSt { st_held : nat -> nat -> bool; st_modes : setting; st_auto : bool; st_last : N }.

(** The text a key with code [x] tells, if it is one of the keys that tell. *)
Definition text_at (kbs : N -> option (list setup_cmd)) (e : setting) (id : nat) : list N :=
  match kbs (e_kb e) with Some cs => new_lines (shown (message_of cs id)) | None => [] end.
Definition tells (kbs : N -> option (list setup_cmd)) (e : setting) (x : N) : option (list N) :=
  match decode x with
  | AHereIs => Some (text_at kbs e 5)
  | AFn n => if n <=? 10 then Some (text_at kbs e (4 + n)) else None
  | _ => None
  end.
(** A move that changes modes only. *)
Definition modal (b : bool) (x : N) : Prop :=
  match decode x with ARepeat | AAutorepeat => False | AHereIs => b = false | AFn n => b = false \/ 10 < n | _ => True end.
(** A keystroke too short to repeat. *)
Definition brief (fast auto : bool) (n : nat) : Prop :=
  first_delay fast auto = 0%N \/ (N.of_nat n <= first_delay fast auto)%N.

(** Someone uses the keyboard, one key after the other, contacts bouncing: mode
    keys, the autorepeat switch, keys that tell a text, and keystrokes.  A
    keystroke is not of the remembered character. *)
Inductive works (R C : nat) (kbs : N -> option (list setup_cmd)) (fast : bool) :
  stance -> list (nat -> N) -> list N -> stance -> Prop :=
| w_done : forall w, works R C kbs fast w [] [] w
| w_wait : forall H e a x rd rds out w, reads R C H rd ->
    works R C kbs fast (mkSt H e a x) rds out w -> works R C kbs fast (mkSt H e a x) (rd :: rds) out w
| w_mode : forall H e a x r c bs l rds out w, r < R -> c < C -> mode_key kbs r c -> modal (negb (H r c)) (code_in kbs e r c) ->
    contact R C H r c bs l -> settles (negb (H r c)) bs ->
    works R C kbs fast (mkSt (set2 H r c (negb (H r c))) (after_event kbs e (r, c, negb (H r c))) a x) rds out w ->
    works R C kbs fast (mkSt H e a x) (l ++ rds) out w
| w_auto : forall H e a x r c bs l rds out w, r < R -> c < C -> mode_key kbs r c -> decode (code_in kbs e r c) = AAutorepeat ->
    contact R C H r c bs l -> settles (negb (H r c)) bs ->
    works R C kbs fast (mkSt (set2 H r c (negb (H r c))) e (negb (H r c)) x) rds out w ->
    works R C kbs fast (mkSt H e a x) (l ++ rds) out w
| w_tell : forall H e a x r c bs l l' m rds out w, r < R -> c < C -> mode_key kbs r c -> H r c = false ->
    tells kbs e (code_in kbs e r c) = Some m -> length m <= 128 ->
    contact R C H r c bs l -> settles true bs -> Forall (reads R C (set2 H r c true)) l' -> length m <= length l' ->
    works R C kbs fast (mkSt (set2 H r c true) e a x) rds out w ->
    works R C kbs fast (mkSt H e a x) (l ++ l' ++ rds) (visible m ++ out) w
| w_stroke : forall H e a x r c bs1 bs2 l1 l2 rds out w, r < R -> c < C -> H r c = false ->
    (code_in kbs e r c < 0xA0)%N -> code_in kbs e r c <> x ->
    contact R C H r c bs1 l1 -> settles true bs1 -> contact R C H r c bs2 l2 -> settles false bs2 ->
    brief fast a (times true (bs1 ++ bs2)) ->
    works R C kbs fast (mkSt H e a 0xA0) rds out w ->
    works R C kbs fast (mkSt H e a x) (l1 ++ l2 ++ rds) (code_in kbs e r c :: out) w.

(** ** Proofs *)
Lemma enter_all : forall cap m q, length q + length m <= cap -> enter cap m q = q ++ m.
Proof.
  intros cap. induction m as [|x m IH]; intros q H; cbn [enter]; [symmetry; apply app_nil_r|]. cbn [length] in H.
  replace (length q <? cap) with true by (symmetry; apply Nat.ltb_lt; lia). rewrite IH; [rewrite <- app_assoc; reflexivity|].
  rewrite app_length. cbn [length]. lia.
Qed.
Lemma visible_app : forall a b, visible (a ++ b) = visible a ++ visible b.
Proof. intros. apply filter_app. Qed.
Lemma skipn_S : forall (l : list N) n, skipn (S n) l = skipn n (tl l).
Proof. destruct l; intros; cbn [skipn tl]; [destruct n; reflexivity|reflexivity]. Qed.
Lemma firstn_S : forall (l : list N) n, firstn (S n) l = firstn 1 l ++ firstn n (tl l).
Proof. destruct l; intros; cbn [firstn tl app]; [destruct n; reflexivity|reflexivity]. Qed.

Section Scan.
Variable R C : nat.
Variable kbs : N -> option (list setup_cmd).
Hypothesis quiet : scan_hook_free kbs.
Notation moved := (PropExact.moved kbs).
Notation valid := (PropSession.valid kbs).
Notation modes_only := (PropSession.modes_only R C kbs).
Notation scans := (scans kbs R C).
Notation stands := (PropAnyHands.stands R C).
Notation stands_but := (PropAnyHands.stands_but R C).

Lemma starts_text : forall e l f a n m o, kbs (e_kb e) <> None ->
  scan_starts kbs (mkTy e l f a n [] m o) = mkTy e l f a n [] (tl m) (o ++ visible (firstn 1 m)).
Proof.
  intros e l f a n m o V. unfold scan_starts, sends_one, prints. cbn [t_msgs t_keys hd tl t_set].
  destruct (kbs (e_kb e)) as [cs|] eqn:E; [|congruence].
  destruct (N.eqb_spec (hd 0xA0%N m) 0xA0) as [X|X]; cbn [t_set]; rewrite E, (no_scan_message kbs quiet cs) by eauto;
    cbn [PropExact.shown new_lines flat_map enter t_set t_last t_fast t_auto t_left t_keys t_msgs t_out];
    destruct m as [|y m]; cbn [hd tl firstn visible filter] in *; try congruence.
  - reflexivity.
  - subst y. reflexivity.
Qed.

Lemma wait_text : forall l pre H e last f a n m o, stands pre H -> modes_only H -> Forall (reads R C H) l ->
  kbs (e_kb e) <> None -> (last <= 0xA0)%N ->
  scans pre l (mkTy e last f a n [] m o) = mkTy e last f a n [] (skipn (length l) m) (o ++ visible (firstn (length l) m)) /\
  stands (pre ++ l) H.
Proof.
  induction l as [|rd l IH]; intros pre H e last f a n m o D M HF V VL; cbn [PropExact.scans length].
  - cbn [skipn firstn visible filter]. rewrite !app_nil_r. auto.
  - inv HF. rewrite starts_text by auto.
    destruct (stand_scan R C kbs pre rd H (mkTy e last f a n [] (tl m) (o ++ visible (firstn 1 m))) D M H2) as [X1 X2]; [split; auto|].
    rewrite X1. destruct (IH (pre ++ [rd]) H e last f a n (tl m) (o ++ visible (firstn 1 m)) X2 M H3 V VL) as [Y1 Y2].
    rewrite Y1, skipn_S, (firstn_S m (length l)), visible_app, app_assoc. split; [reflexivity|]. rewrite <- app_assoc in Y2. exact Y2.
Qed.

Lemma idle_text : forall bs l pre H r c s k e last f a n m o, stands_but pre H r c (s, k) -> modes_only H -> r < R -> c < C ->
  (s = true -> mode_key kbs r c) -> contact R C H r c bs l -> (N.of_nat (times (negb s) bs) < k)%N ->
  kbs (e_kb e) <> None -> (last <= 0xA0)%N ->
  scans pre l (mkTy e last f a n [] m o) = mkTy e last f a n [] (skipn (length l) m) (o ++ visible (firstn (length l) m)) /\
  stands_but (pre ++ l) H r c (s, (k - N.of_nat (times (negb s) bs))%N).
Proof.
  induction bs as [|b bs IH]; intros l pre H r c s k e last f a n m o D M Hr Hc HM HC HL V VL; inv HC; cbn [PropExact.scans length].
  - cbn [skipn firstn visible filter]. rewrite !app_nil_r, N.sub_0_r. auto.
  - rename l' into l. rewrite starts_text by auto. rewrite times_cons in HL |- *.
    set (o1 := o ++ visible (firstn 1 m)).
    destruct (stand_one R C kbs pre y H r c (s, k) b (mkTy e last f a n [] (tl m) o1) D M Hr Hc H2) as [X1 X2]; [split; auto|].
    rewrite X1.
    assert (DB : db (s, k) b = (s, (k - N.of_nat (if Bool.eqb (negb s) b then 1 else 0))%N)).
    { unfold db. cbn [fst snd]. destruct (Bool.eqb_spec (negb s) b) as [E|E].
      - subst b. replace (Bool.eqb (negb s) s) with false by (destruct s; auto). replace (k =? 1)%N with false by lia. reflexivity.
      - replace (Bool.eqb b s) with true by (destruct b, s; auto; contradiction E; auto). rewrite N.sub_0_r. reflexivity. }
    assert (TG : fold_left moved (target (s, k) b r c) (mkTy e last f a n [] (tl m) o1) = mkTy e last f a n [] (tl m) o1).
    { unfold target. rewrite DB. cbn [fst]. destruct s; [|reflexivity]. destruct b; [|reflexivity]. cbn [fold_left]. apply held_still; auto. split; auto. }
    rewrite TG. rewrite DB in X2.
    destruct (IH l (pre ++ [y]) H r c s _ e last f a n (tl m) o1 X2 M Hr Hc HM H4) as [Y1 Y2]; auto; [lia|].
    rewrite Y1, skipn_S, (firstn_S m (length l)), visible_app, app_assoc. split; [reflexivity|]. rewrite <- app_assoc in Y2. cbn [app] in Y2.
    replace (k - N.of_nat ((if Bool.eqb (negb s) b then 1 else 0) + times (negb s) bs))%N
      with (k - N.of_nat (if Bool.eqb (negb s) b then 1 else 0) - N.of_nat (times (negb s) bs))%N by lia. exact Y2.
Qed.

(** A character key that is accepted bounces, short of repeating. *)
Lemma kept_text : forall bs l pre H r c k e f a n q o x, stands_but pre H r c (true, k) -> modes_only H -> r < R -> c < C ->
  contact R C H r c bs l -> (N.of_nat (times false bs) < k)%N -> (n = 0 \/ N.of_nat (times true bs) < n)%N ->
  kbs (e_kb e) <> None -> (x < 0xA0)%N -> code_in kbs e r c = x -> q = [] \/ q = [x] ->
  scans pre l (mkTy e x f a n q [] o) =
    mkTy e x f a (n - N.of_nat (times true bs))%N (match bs with [] => q | _ => [] end) [] (match bs with [] => o | _ => o ++ q end) /\
  stands_but (pre ++ l) H r c (true, (k - N.of_nat (times false bs))%N).
Proof.
  induction bs as [|b bs IH]; intros l pre H r c k e f a n q o x D M Hr Hc HC HL HN V HX EX HQ; inv HC; cbn [PropExact.scans].
  - rewrite app_nil_r, !N.sub_0_r. auto.
  - rename l' into l. set (x := code_in kbs e r c) in *. rewrite (starts_queue kbs quiet) by auto.
    assert (Q : tl q = [] /\ o ++ visible (firstn 1 q) = o ++ q).
    { destruct HQ as [-> | ->]; cbn [tl firstn visible filter]; auto. replace (x <? 0xA0)%N with true by lia. auto. }
    destruct Q as [-> ->]. rewrite !times_cons in *.
    destruct (stand_one R C kbs pre y H r c (true, k) b (mkTy e x f a n [] [] (o ++ q)) D M Hr Hc H2) as [X1 X2]; [split; [cbn; lia|auto]|].
    rewrite X1.
    assert (S1 : db (true, k) b = (true, (k - N.of_nat (if Bool.eqb false b then 1 else 0))%N) /\
      fold_left moved (target (true, k) b r c) (mkTy e x f a n [] [] (o ++ q)) =
        mkTy e x f a (n - N.of_nat (if Bool.eqb true b then 1 else 0))%N [] [] (o ++ q)).
    { unfold target, db. cbn [fst snd]. destruct b; cbn [Bool.eqb] in *.
      - rewrite N.sub_0_r. split; [reflexivity|]. cbn [fst fold_left PropExact.moved t_set]. fold x. unfold on_held. cbn [t_last t_left].
        rewrite N.eqb_refl. destruct (N.eqb_spec n 0) as [->|N0]; [reflexivity|].
        replace (0 <? n)%N with true by lia. cbn [andb]. replace (n =? 1)%N with false by lia. reflexivity.
      - replace (k =? 1)%N with false by lia. cbn [fst fold_left]. rewrite N.sub_0_r. split; reflexivity. }
    destruct S1 as [DB TG]. rewrite TG. rewrite DB in X2.
    destruct (IH l (pre ++ [y]) H r c _ e f a (n - N.of_nat (if Bool.eqb true b then 1 else 0))%N [] (o ++ q) x X2 M Hr Hc H4) as [Y1 Y2]; auto; [lia|lia|].
    rewrite Y1. rewrite <- app_assoc in Y2. cbn [app] in Y2. split.
    + f_equal; [lia|destruct bs; auto|]. destruct bs; rewrite ?app_nil_r; auto.
    + replace (k - N.of_nat ((if Bool.eqb false b then 1 else 0) + times false bs))%N
        with (k - N.of_nat (if Bool.eqb false b then 1 else 0) - N.of_nat (times false bs))%N by lia. exact Y2.
Qed.

(** A mode key moves; what its move does is given. *)
Lemma mode_moves : forall pre H r c bs l e last f a n o e1 a1 n1 m, stands pre H -> modes_only H -> r < R -> c < C -> mode_key kbs r c ->
  contact R C H r c bs l -> settles (negb (H r c)) bs -> kbs (e_kb e) <> None -> (last <= 0xA0)%N ->
  moved (mkTy e last f a n [] [] o) (r, c, if H r c then Release else Press) = mkTy e1 last f a1 n1 [] m o -> kbs (e_kb e1) <> None ->
  exists j, scans pre l (mkTy e last f a n [] [] o) = mkTy e1 last f a1 n1 [] (skipn j m) (o ++ visible (firstn j m)) /\
    stands (pre ++ l) (set2 H r c (negb (H r c))).
Proof.
  intros pre H r c bs l e last f a n o e1 a1 n1 m D M Hr Hc HM HC [S1 S2] V VL HT V1. destruct (stands_at _ _ _ _ _ _ D Hr Hc) as (k&K&D0).
  destruct (times_split (negb (H r c)) (N.to_nat k) bs ltac:(lia) ltac:(lia)) as (u&v&->&TU).
  destruct (contact_app _ _ _ _ _ _ _ _ HC) as (l1&l2&->&C1&C2). inv C2. rename l' into l3.
  destruct (idle_text u l1 pre H r c (H r c) k e last f a n [] o D0 M Hr Hc (fun _ => HM) C1 ltac:(lia) V VL) as [X1 X2].
  rewrite skipn_nil, firstn_nil in X1. cbn [visible filter] in X1. rewrite app_nil_r in X1.
  rewrite TU in X2. replace (k - N.of_nat (N.to_nat k - 1))%N with 1%N in X2 by lia.
  rewrite scans_app, X1. cbn [PropExact.scans]. rewrite starts_text by auto. cbn [tl firstn visible filter]. rewrite app_nil_r.
  destruct (stand_one R C kbs _ y H r c _ _ (mkTy e last f a n [] [] o) X2 M Hr Hc H2) as [Y1 Y2]; [split; auto|].
  rewrite Y1. unfold target, db in *. cbn [fst snd] in *.
  replace (Bool.eqb (negb (H r c)) (H r c)) with false in * by (destruct (H r c); auto). cbn [fst N.eqb Pos.eqb] in *.
  replace (fold_left moved _ _) with (mkTy e1 last f a1 n1 [] m o) by (rewrite <- HT; destruct (H r c); reflexivity).
  rewrite times_app, times_cons in S2.
  destruct (idle_text v l3 _ H r c (negb (H r c)) 10%N e1 last f a1 n1 m o Y2 M Hr Hc (fun _ => HM) H4 ltac:(lia) V1 VL) as [Z1 Z2].
  exists (length l3). split; [exact Z1|]. rewrite <- app_assoc in Z2. rewrite <- app_assoc in Z2. cbn [app] in Z2. eapply stands_on; eauto.
Qed.

Lemma stroke_text : forall pre H r c bs1 bs2 l1 l2 e last f a n o, stands pre H -> modes_only H -> r < R -> c < C -> H r c = false ->
  (code_in kbs e r c < 0xA0)%N -> code_in kbs e r c <> last -> contact R C H r c bs1 l1 -> settles true bs1 ->
  contact R C H r c bs2 l2 -> settles false bs2 ->
  brief f a (times true (bs1 ++ bs2)) -> kbs (e_kb e) <> None -> (last <= 0xA0)%N ->
  exists n', scans pre (l1 ++ l2) (mkTy e last f a n [] [] o) = mkTy e 0xA0 f a n' [] [] (o ++ [code_in kbs e r c]) /\
  stands (pre ++ l1 ++ l2) H.
Proof.
  intros pre H r c bs1 bs2 l1 l2 e last f a n o D M Hr Hc HH HX HXL HC1 [S1 S2] HC2 [S3 S4] HT V VL. set (x := code_in kbs e r c) in *.
  destruct (stands_at _ _ _ _ _ _ D Hr Hc) as (k&K&D0). rewrite HH in D0.
  destruct (times_split true (N.to_nat k) bs1 ltac:(lia) ltac:(lia)) as (u&v&->&TU). cbn [negb] in *.
  rewrite times_app, times_cons in S2. unfold brief in HT. rewrite !times_app, times_cons in HT. cbn [Bool.eqb] in S2, HT.
  destruct (times_split false (10 - times false v) bs2 ltac:(lia) ltac:(lia)) as (u2&v2&->&TU2).
  rewrite !times_app, !times_cons in S4, HT. cbn [Bool.eqb] in S4, HT.
  destruct (contact_app _ _ _ _ _ _ _ _ HC1) as (l11&l12&->&C1&C2). inv C2. rename l' into l13, y into rd1, H2 into G1, H4 into G2.
  destruct (contact_app _ _ _ _ _ _ _ _ HC2) as (l21&l22&->&C3&C4). inv C4. rename l' into l23, y into rd2, H2 into G3, H4 into G4.
  destruct (idle_text u l11 pre H r c false k e last f a n [] o D0 M Hr Hc ltac:(discriminate) C1 ltac:(cbn [negb]; lia) V VL) as [X1 X2].
  rewrite skipn_nil, firstn_nil in X1. cbn [visible filter] in X1. rewrite app_nil_r in X1.
  cbn [negb] in X2. rewrite TU in X2. replace (k - N.of_nat (N.to_nat k - 1))%N with 1%N in X2 by lia.
  replace ((l11 ++ rd1 :: l13) ++ l21 ++ rd2 :: l23) with (l11 ++ rd1 :: (l13 ++ l21) ++ rd2 :: l23)
    by (rewrite <- !app_assoc; cbn [app]; rewrite <- ?app_assoc; reflexivity).
  rewrite scans_app, X1. cbn [PropExact.scans]. rewrite starts_text by auto. cbn [tl firstn visible filter]. rewrite app_nil_r.
  destruct (stand_one R C kbs _ rd1 H r c _ _ (mkTy e last f a n [] [] o) X2 M Hr Hc G1) as [Y1 Y2]; [split; auto|].
  rewrite Y1. change (db (false, 1%N) true) with (true, 10%N) in Y2. change (target (false, 1%N) true r c) with [(r, c, Press)].
  set (d0 := first_delay f a) in *.
  assert (P1 : fold_left moved [(r, c, Press)] (mkTy e last f a n [] [] o) = mkTy e x f a d0 [x] [] o).
  { cbn [fold_left PropExact.moved t_set]. fold x. unfold on_press, types. cbn [t_set t_last t_fast t_auto t_left t_keys t_msgs t_out].
    replace (x <=? 0xA0)%N with true by lia. replace (x =? last)%N with false by lia. reflexivity. }
  rewrite P1, scans_app.
  assert (CK : contact R C H r c (v ++ u2) (l13 ++ l21)) by (apply Forall2_app; auto).
  destruct (kept_text (v ++ u2) _ _ H r c 10%N e f a d0 [x] o x Y2 M Hr Hc CK) as [Z1 Z2];
    [rewrite times_app; lia|rewrite times_app; lia|exact V|exact HX|reflexivity|auto|].
  rewrite Z1. rewrite !times_app in *. set (n1 := (d0 - N.of_nat (times true v + times true u2))%N).
  replace (10 - N.of_nat (times false v + times false u2))%N with 1%N in Z2 by lia.
  cbn [PropExact.scans]. rewrite (starts_queue kbs quiet) by auto.
  assert (Q : tl (match v ++ u2 with [] => [x] | _ => [] end) = [] /\
    (match v ++ u2 with [] => o | _ => o ++ [x] end) ++ visible (firstn 1 (match v ++ u2 with [] => [x] | _ => [] end)) = o ++ [x]).
  { destruct (v ++ u2); cbn [tl firstn visible filter]; [|split; [auto|apply app_nil_r]]. replace (x <? 0xA0)%N with true by lia. auto. }
  destruct Q as [-> ->].
  destruct (stand_one R C kbs _ rd2 H r c _ _ (mkTy e x f a n1 [] [] (o ++ [x])) Z2 M Hr Hc G3) as [W1 W2]; [split; [cbn; lia|auto]|].
  rewrite W1. change (db (true, 1%N) false) with (false, 10%N) in W2. change (target (true, 1%N) false r c) with [(r, c, Release)].
  assert (P2 : fold_left moved [(r, c, Release)] (mkTy e x f a n1 [] [] (o ++ [x])) = mkTy e 0xA0 f a n1 [] [] (o ++ [x])).
  { cbn [fold_left PropExact.moved t_set]. fold x. unfold on_release. cbn [t_set t_last t_fast t_auto t_left t_keys t_msgs t_out].
    replace (x <=? 0xA0)%N with true by lia. rewrite N.eqb_refl. reflexivity. }
  rewrite P2.
  destruct (idle_text v2 l23 _ H r c false 10%N e 0xA0 f a n1 [] (o ++ [x]) W2 M Hr Hc ltac:(discriminate) G4 ltac:(cbn [negb]; lia) V ltac:(lia)) as [U1 U2].
  rewrite skipn_nil, firstn_nil in U1. cbn [visible filter] in U1. rewrite app_nil_r in U1.
  exists n1. split; [exact U1|].
  intros r' c' Hr' Hc'. pose proof (stands_on _ _ _ _ _ _ _ _ U2 Hr Hc r' c' Hr' Hc') as X.
  repeat (rewrite <- app_assoc in X || rewrite <- app_comm_cons in X). repeat (rewrite <- app_assoc || rewrite <- app_comm_cons). cbn [app] in X. rewrite X.
  unfold set2. destruct (Nat.eqb_spec r' r), (Nat.eqb_spec c' c); cbn [andb]; auto. subst. auto.
Qed.

Lemma modes_set : forall H r c b, modes_only H -> mode_key kbs r c -> modes_only (set2 H r c b).
Proof.
  intros H r c b M HM r' c' Hr' Hc'. unfold set2. destruct (Nat.eqb_spec r' r), (Nat.eqb_spec c' c); cbn [andb]; auto. subst. auto.
Qed.
Lemma modal_moves : forall e last f a n o r c b, modal b (code_in kbs e r c) -> mode_key kbs r c -> kbs (e_kb e) <> None ->
  moved (mkTy e last f a n [] [] o) (r, c, if (b : bool) then Press else Release) = mkTy (after_event kbs e (r, c, b)) last f a n [] [] o.
Proof.
  intros e last f a n o r c b HP M V. pose proof (M e V) as HX. unfold modal in HP.
  destruct b; cbn [PropExact.moved t_set after_event]; set (x := code_in kbs e r c) in *.
  - unfold on_press. replace (x <=? 0xA0)%N with false by lia. unfold after_press. destruct (decode x) as [| | | | | | | |i| | |i|i|i|] eqn:E; try contradiction; try reflexivity;
      [discriminate|]. destruct HP as [HP|HP]; [discriminate|]. replace (i <=? 10) with false by (symmetry; apply Nat.leb_gt; exact HP). reflexivity.
  - unfold on_release. replace (x <=? 0xA0)%N with false by lia. destruct (decode x) eqn:E; try contradiction; reflexivity.
Qed.
Lemma auto_moves : forall e last f a n o r c b, decode (code_in kbs e r c) = AAutorepeat -> mode_key kbs r c -> kbs (e_kb e) <> None ->
  exists n1, moved (mkTy e last f a n [] [] o) (r, c, if (b : bool) then Press else Release) = mkTy e last f b n1 [] [] o.
Proof.
  intros e last f a n o r c b HD M V. pose proof (M e V) as HX.
  destruct b; cbn [PropExact.moved t_set]; set (x := code_in kbs e r c) in *.
  - unfold on_press. replace (x <=? 0xA0)%N with false by lia. rewrite HD. eexists. reflexivity.
  - unfold on_release. replace (x <=? 0xA0)%N with false by lia. rewrite HD. eexists. reflexivity.
Qed.
Lemma tell_moves : forall e last f a n o r c m, tells kbs e (code_in kbs e r c) = Some m -> length m <= 128 -> mode_key kbs r c -> kbs (e_kb e) <> None ->
  moved (mkTy e last f a n [] [] o) (r, c, Press) = mkTy e last f a n [] m o.
Proof.
  intros e last f a n o r c m HD HL M V. pose proof (M e V) as HX. cbn [PropExact.moved t_set]. set (x := code_in kbs e r c) in *.
  assert (PR : forall id, text_at kbs e id = m -> prints kbs id (mkTy e last f a n [] [] o) = mkTy e last f a n [] m o).
  { intros id E. unfold text_at in E. unfold prints. cbn [t_set]. destruct (kbs (e_kb e)); [|congruence].
    cbn [t_last t_fast t_auto t_left t_keys t_msgs t_out]. rewrite E. f_equal. apply (enter_all 128 m []). exact HL. }
  unfold on_press. replace (x <=? 0xA0)%N with false by lia. unfold tells in HD.
  destruct (decode x) as [| | | | | | | |i| | |i|i|i|]; try discriminate.
  - apply PR. congruence.
  - destruct (i <=? 10); [|discriminate]. apply PR. congruence.
Qed.

Lemma works_scans : forall fast w rds out w', works R C kbs fast w rds out w' ->
  forall pre n o, stands pre (st_held w) -> modes_only (st_held w) -> kbs (e_kb (st_modes w)) <> None -> (st_last w <= 0xA0)%N ->
  exists n', scans pre rds (mkTy (st_modes w) (st_last w) fast (st_auto w) n [] [] o) =
      mkTy (st_modes w') (st_last w') fast (st_auto w') n' [] [] (o ++ out) /\
    stands (pre ++ rds) (st_held w') /\ modes_only (st_held w') /\ kbs (e_kb (st_modes w')) <> None /\ (st_last w' <= 0xA0)%N.
Proof.
  intros fast w rds out w' HW.
  induction HW as [w|H e a x rd rds out w HR HW IH|H e a x r c bs l rds out w Hr Hc HM HP HC HB HW IH
    |H e a x r c bs l rds out w Hr Hc HM HP HC HB HW IH|H e a x r c bs l l' m rds out w Hr Hc HM HH HT HL HC HB HF HL' HW IH
    |H e a x r c bs1 bs2 l1 l2 rds out w Hr Hc HH HX HN HC1 HB1 HC2 HB2 HT HW IH]; intros pre n o D M V VL; cbn [st_held st_modes st_auto st_last] in *.
  - exists n. rewrite !app_nil_r. auto.
  - destruct (wait_text [rd] pre H e x fast a n [] o D M ltac:(auto) V VL) as [X1 X2].
    rewrite skipn_nil, firstn_nil in X1. cbn [visible filter] in X1. rewrite app_nil_r in X1.
    destruct (IH (pre ++ [rd]) n o X2 M V VL) as (n'&Y1&Y2). exists n'. rewrite <- app_assoc in Y2. split; [|exact Y2].
    change (rd :: rds) with ([rd] ++ rds). rewrite scans_app, X1. exact Y1.
  - assert (V1 : kbs (e_kb (after_event kbs e (r, c, negb (H r c)))) <> None)
      by (destruct (H r c); cbn [negb after_event]; auto using press_valid, release_valid).
    destruct (mode_moves pre H r c bs l e x fast a n o (after_event kbs e (r, c, negb (H r c))) a n [] D M Hr Hc HM HC HB V VL) as (j&X1&X2).
    + rewrite <- (modal_moves e x fast a n o r c (negb (H r c)) HP HM V). destruct (H r c); reflexivity.
    + exact V1.
    + rewrite skipn_nil, firstn_nil in X1. cbn [visible filter] in X1. rewrite app_nil_r in X1.
      destruct (IH (pre ++ l) n o X2 (modes_set _ _ _ _ M HM) V1 VL) as (n'&Y1&Y2). exists n'. rewrite <- app_assoc in Y2.
      split; [|exact Y2]. rewrite scans_app, X1. exact Y1.
  - destruct (auto_moves e x fast a n o r c (negb (H r c)) HP HM V) as [n1 EM].
    destruct (mode_moves pre H r c bs l e x fast a n o e (negb (H r c)) n1 [] D M Hr Hc HM HC HB V VL) as (j&X1&X2).
    + rewrite <- EM. destruct (H r c); reflexivity.
    + exact V.
    + rewrite skipn_nil, firstn_nil in X1. cbn [visible filter] in X1. rewrite app_nil_r in X1.
      destruct (IH (pre ++ l) n1 o X2 (modes_set _ _ _ _ M HM) V VL) as (n'&Y1&Y2). exists n'. rewrite <- app_assoc in Y2.
      split; [|exact Y2]. rewrite scans_app, X1. exact Y1.
  - destruct (mode_moves pre H r c bs l e x fast a n o e a n m D M Hr Hc HM HC) as (j&X1&X2); try assumption.
    + rewrite HH. exact HB.
    + rewrite HH. apply tell_moves; auto.
    + rewrite HH in X2. cbn [negb] in X2.
      destruct (wait_text l' (pre ++ l) _ e x fast a n (skipn j m) (o ++ visible (firstn j m)) X2 (modes_set _ _ _ true M HM) HF V VL) as [Z1 Z2].
      replace (skipn (length l') (skipn j m)) with (@nil N) in Z1 by (symmetry; apply skipn_all2; rewrite skipn_length; lia).
      replace (firstn (length l') (skipn j m)) with (skipn j m) in Z1 by (symmetry; apply firstn_all2; rewrite skipn_length; lia).
      rewrite <- app_assoc, <- visible_app, firstn_skipn in Z1.
      destruct (IH ((pre ++ l) ++ l') n (o ++ visible m) Z2 (modes_set _ _ _ true M HM) V VL) as (n'&Y1&Y2). exists n'.
      rewrite <- !app_assoc in Y2. split; [|exact Y2]. rewrite scans_app, X1, scans_app, Z1. rewrite Y1, <- app_assoc. reflexivity.
  - destruct (stroke_text pre H r c bs1 bs2 l1 l2 e x fast a n o D M Hr Hc HH HX HN HC1 HB1 HC2 HB2 HT V VL) as (n1&X1&X2).
    destruct (IH (pre ++ l1 ++ l2) n1 (o ++ [code_in kbs e r c]) X2 M V ltac:(lia)) as (n'&Y1&Y2). exists n'.
    rewrite (app_assoc l1 l2 rds), scans_app, X1, Y1. rewrite <- app_assoc in Y2 |- *. auto.
Qed.

(** ** Coming to rest *)
Lemma settle : forall l pre H r c, Forall (reads R C H) l -> r < R -> c < C ->
  (fst (dstate (key_readings pre r c)) = H r c \/ (snd (dstate (key_readings pre r c)) <= N.of_nat (length l))%N) ->
  fst (dstate (key_readings (pre ++ l) r c)) = H r c.
Proof.
  induction l as [|rd l IH]; intros pre H r c HF Hr Hc HD.
  - rewrite app_nil_r. destruct HD as [HD|HD]; auto. pose proof (dstate_range (key_readings pre r c)). cbn [length] in HD. lia.
  - inv HF. change (rd :: l) with ([rd] ++ l). rewrite app_assoc. apply IH; auto. rewrite key_snoc, (H2 r c Hr Hc).
    pose proof (dstate_range (key_readings pre r c)) as K. destruct (dstate (key_readings pre r c)) as [s k]. cbn [fst snd length] in *.
    unfold db. cbn [fst snd]. destruct (Bool.eqb_spec (H r c) s) as [E|E]; [left; auto|]. destruct HD as [HD|HD]; [congruence|].
    destruct (N.eqb_spec k 1); cbn [fst snd]; [auto|right; lia].
Qed.
Lemma settled : forall l pre H, Forall (reads R C H) l -> 10 <= length l -> stands (pre ++ l) H.
Proof.
  intros l pre H HF HL r c Hr Hc. apply settle; auto. right. pose proof (dstate_range (key_readings pre r c)). lia.
Qed.
Lemma starts_valid : forall t, valid t -> valid (scan_starts kbs t).
Proof.
  intros t V. unfold scan_starts. apply prints_valid. unfold sends_one. cbv zeta. destruct (hd 0xA0%N (t_msgs t) =? 0xA0)%N; exact V.
Qed.
Lemma scans_valid : forall l pre t, valid t -> valid (scans pre l t).
Proof. induction l as [|rd l IH]; intros pre t V; cbn [PropExact.scans]; auto. apply IH. apply fold_valid. apply starts_valid. exact V. Qed.

Lemma starts_less : forall e l f a n k m o, kbs (e_kb e) <> None -> exists k' m' o',
  scan_starts kbs (mkTy e l f a n k m o) = mkTy e l f a n k' m' o' /\ length k' + length m' <= length k + length m - 1.
Proof.
  intros e l f a n k m o V. unfold scan_starts, sends_one, prints. cbn [t_msgs t_keys t_set].
  destruct (kbs (e_kb e)) as [cs|] eqn:E; [|congruence].
  destruct (N.eqb_spec (hd 0xA0%N m) 0xA0) as [X|X]; cbn [t_set]; rewrite E, (no_scan_message kbs quiet cs) by eauto;
    cbn [PropExact.shown new_lines flat_map enter t_set t_last t_fast t_auto t_left t_keys t_msgs t_out];
    eexists _, _, _; (split; [reflexivity|]); destruct m as [|y m], k as [|z k]; cbn [hd tl length] in *; try lia; congruence.
Qed.
Lemma drain : forall l pre H t, stands pre H -> modes_only H -> Forall (reads R C H) l -> valid t ->
  exists k m o, scans pre l t = mkTy (t_set t) (t_last t) (t_fast t) (t_auto t) (t_left t) k m o /\
    length k + length m <= length (t_keys t) + length (t_msgs t) - length l.
Proof.
  induction l as [|rd l IH]; intros pre H t D M HF V; cbn [PropExact.scans length].
  - exists (t_keys t), (t_msgs t), (t_out t). split; [destruct t; reflexivity|lia].
  - inv HF. pose proof (starts_valid t V) as V1. destruct t as [e last f a n k m o]. destruct V as [V0 V2]. cbn [t_set t_last] in *.
    destruct (starts_less e last f a n k m o V2) as (k1&m1&o1&E1&L1). rewrite E1 in *.
    destruct (stand_scan R C kbs pre rd H (mkTy e last f a n k1 m1 o1) D M H2 V1) as [X1 X2]. rewrite X1.
    destruct (IH (pre ++ [rd]) H _ X2 M H3 V1) as (k'&m'&o'&Y1&Y2). exists k', m', o'. split; [exact Y1|]. cbn [t_keys t_msgs] in *. lia.
Qed.
End Scan.

Lemma set_unique : forall e e' g, is_set e g -> is_set e' g -> e = e'.
Proof.
  intros [i a b c d] [i' a' b' c' d'] g [H1 H2] [H3 H4]. rewrite H1 in H3. rewrite H2 in H4. unfold shift_val, bitN in H4. cbn in H3, H4.
  destruct a, b, a', b', c, c', d, d'; cbn in H4; congruence.
Qed.

(** The modes that follow from the accepted moves of the keys (C100). *)
Definition modes_after (R C : nat) (kbs : N -> option (list setup_cmd)) (rds : list (nat -> N)) : setting :=
  fold_left (after_event kbs) (transitions R C [] rds) (at_start kbs).

Lemma scans_modes : forall R C kbs rds, sound_firmware R kbs -> same_size R C kbs ->
  t_set (scans kbs R C [] rds (starts kbs)) = modes_after R C kbs rds.
Proof.
  intros R C kbs rds HS HZ. destruct (exact_run kbs R C HS HZ rds) as (g&E1&[I1 _]).
  destruct (run_ok_g R kbs HS rds) as (g'&s&E2&T&ES&RL). rewrite E1 in E2. inv E2.
  destruct (run_events kbs R C HS HZ rds s ES) as [g2 (RL2&_&X)].
  pose proof (fold_set kbs R C HS HZ _ _ _ (fun r c b => transitions_in R C rds [] r c b) (tab_boot R kbs HS) (start_set kbs R HS)) as [I2 I3].
  apply (set_unique _ _ g' I1). unfold modes_after. destruct RL as [RT _], RL2 as [RT2 _]. ee X. split.
  - rewrite <- (rt_cur _ _ RT), (rt_cur _ _ RT2). congruence.
  - rewrite <- (rt_mod _ _ RT), (rt_mod _ _ RT2). congruence.
Qed.

(** ** C116 *)
(** Whatever happened before: when the keys have stayed as in [H] for 154 scans,
    and the keys of [H] are no character keys, *)
Definition at_rest (R C : nat) (kbs : N -> option (list setup_cmd)) (H : nat -> nat -> bool) (quiet : list (nat -> N)) : Prop :=
  (forall r c, r < R -> c < C -> H r c = true -> mode_key kbs r c) /\ Forall (reads R C H) quiet /\ 154 <= length quiet.

Definition repeat_mode (fast auto : bool) (s : kb) : Prop :=
  r_state (k_rep s) = (if fast then ROn else if auto then RAuto else ROff) /\ r_base (k_rep s) = (if auto then RAuto else ROff).

Lemma rested : forall R C kbs pre quiet H, sound_firmware R kbs -> same_size R C kbs -> scan_hook_free kbs ->
  at_rest R C kbs H quiet -> exists last f a n o,
  scans kbs R C [] (pre ++ quiet) (starts kbs) = mkTy (modes_after R C kbs (pre ++ quiet)) last f a n [] [] o /\
  (last <= 0xA0)%N /\ kbs (e_kb (modes_after R C kbs (pre ++ quiet))) <> None /\ stands R C (pre ++ quiet) H.
Proof.
  intros R C kbs pre quiet H HS HZ HQ (HM&HF&HL).
  assert (V0 : valid kbs (starts kbs)) by (split; [cbn; lia|destruct (proj1 HS) as [cs E0]; cbn; congruence]).
  rewrite <- (scans_modes R C kbs (pre ++ quiet) HS HZ).
  assert (EQ : quiet = firstn 10 quiet ++ skipn 10 quiet) by (symmetry; apply firstn_skipn).
  pose proof (firstn_length_le quiet (n := 10) ltac:(lia)) as L1. pose proof (skipn_length 10 quiet) as L2.
  rewrite EQ in HF. apply Forall_app in HF. destruct HF as [F1 F2].
  set (q1 := firstn 10 quiet) in *. set (q2 := skipn 10 quiet) in *. clearbody q1 q2. subst quiet.
  rewrite app_length in *. rewrite app_assoc, scans_app.
  pose proof (settled R C q1 pre H F1 ltac:(lia)) as D1.
  pose proof (scans_valid R C kbs (pre ++ q1) [] (starts kbs) V0) as V1.
  destruct (exact_run kbs R C HS HZ (pre ++ q1)) as (g&E1&[_ I1]).
  destruct (run_ok_g R kbs HS (pre ++ q1)) as (g'&s&E2&_&_&RL). rewrite E1 in E2. inv E2.
  destruct (g_bound g' s RL) as [B1 B2]. apply core_is in I1. destruct I1 as (_&_&Q1&Q2&_). rewrite Q1 in B1. rewrite Q2 in B2.
  cbn [app]. set (t := scans kbs R C [] (pre ++ q1) (starts kbs)) in *. clearbody t.
  destruct (drain R C kbs HQ q2 (pre ++ q1) H t D1 HM F2 V1) as (k&m&o&X1&X2). rewrite X1. cbn [t_set].
  assert (k = [] /\ m = []) as [-> ->] by (destruct k, m; cbn [length] in X2; auto; lia).
  exists (t_last t), (t_fast t), (t_auto t), (t_left t), o. split; [reflexivity|]. split; [apply V1|]. split; [apply V1|].
  rewrite <- app_assoc. apply settled; [apply Forall_app; auto|rewrite app_length; lia].
Qed.

Lemma scans_state : forall R C kbs rds s e last f a n k m o, sound_firmware R kbs -> same_size R C kbs -> c_run kbs rds = Ok s ->
  scans kbs R C [] rds (starts kbs) = mkTy e last f a n k m o ->
  sent s = o /\ k_last s = last /\ repeat_mode f a s /\ setting_is e s.
Proof.
  intros R C kbs rds s e last f a n k m o HS HZ ES ET.
  destruct (exact_run kbs R C HS HZ rds) as (g&E1&[I0 I1]). destruct (run_ok_g R kbs HS rds) as (g'&s'&E2&_&ES'&RL).
  rewrite ES in ES'. inv ES'. rewrite E1 in E2. inv E2. rewrite ET in I0, I1. apply core_is in I1. destruct I1 as (Q1&Q2&_&_&Q5).
  cbn [t_set t_last t_out] in *. pose proof RL as [RT RS]. split; [unfold sent, events; rewrite (rt_log _ _ RT); exact Q5|].
  split; [rewrite (rs_last _ _ RS); exact Q1|]. split; [|exact (set_is _ _ _ RL I0)].
  unfold repeat_mode. rewrite (rs_rep _ _ RS), Q2. unfold rep_of, base_of. cbn. auto.
Qed.

(** ... the keys are accepted as they are, nothing is sent any more, *)
Theorem C116_falls_silent : forall R C kbs pre quiet H more s, sound_firmware R kbs -> same_size R C kbs -> scan_hook_free kbs ->
  at_rest R C kbs H quiet -> Forall (reads R C H) more -> c_run kbs (pre ++ quiet) = Ok s ->
  exists s', c_run kbs (pre ++ quiet ++ more) = Ok s' /\ sent s' = sent s /\
    k_last s' = k_last s /\ k_mod s' = k_mod s /\ k_cur s' = k_cur s /\ k_rep s' = k_rep s /\
    forall r c, r < R -> c < C -> down s' r c = H r c.
Proof.
  intros R C kbs pre quiet H more s HS HZ HQ HR HF ES.
  destruct (rested R C kbs pre quiet H HS HZ HQ HR) as (last&f&a&n&o&X1&VL&V&D).
  set (e := modes_after R C kbs (pre ++ quiet)) in *. clearbody e. set (p := pre ++ quiet) in *. rewrite app_assoc. fold p. clearbody p.
  destruct (wait_text R C kbs HQ more p H e last f a n [] o D (proj1 HR) HF V VL) as [Y1 Y2].
  rewrite skipn_nil, firstn_nil in Y1. cbn [visible filter] in Y1. rewrite app_nil_r in Y1.
  destruct (C98_any_keymaps_safe R kbs (p ++ more) HS) as [s' ES']. exists s'. split; [exact ES'|].
  assert (X2 : scans kbs R C [] (p ++ more) (starts kbs) = mkTy e last f a n [] [] o) by (rewrite scans_app, X1; exact Y1).
  destruct (exact_run kbs R C HS HZ p) as (g&E1&[[I0 I0'] I1]). destruct (run_ok_g R kbs HS p) as (g0&s0&E2&_&ES0&[RT RS]).
  rewrite ES in ES0. inv ES0. rewrite E1 in E2. inv E2.
  destruct (exact_run kbs R C HS HZ (p ++ more)) as (g&E3&[[J0 J0'] J1]). destruct (run_ok_g R kbs HS (p ++ more)) as (g1&s1&E4&_&ES1&[RT' RS']).
  rewrite ES' in ES1. inv ES1. rewrite E3 in E4. inv E4. rewrite X1 in I0, I0', I1. rewrite X2 in J0, J0', J1.
  apply core_is in I1. apply core_is in J1. destruct I1 as (Q1&Q2&_&_&Q5). destruct J1 as (P1&P2&_&_&P5).
  unfold gsent in *. split; [unfold sent, events; rewrite (rt_log _ _ RT), (rt_log _ _ RT'); congruence|].
  split; [rewrite (rs_last _ _ RS), (rs_last _ _ RS'); congruence|]. split; [rewrite (rt_mod _ _ RT), (rt_mod _ _ RT'); congruence|].
  split; [rewrite (rt_cur _ _ RT), (rt_cur _ _ RT'); congruence|]. split; [rewrite (rs_rep _ _ RS), (rs_rep _ _ RS'); congruence|].
  intros r c Hr Hc. rewrite <- (Y2 r c Hr Hc). apply (run_dbp R kbs HS C (at_least_size kbs R C HS HZ) _ s1 r c ES' Hr Hc).
Qed.
Print Assumptions C116_falls_silent.

(** ... and whoever uses the keyboard from then on gets exactly what they type. *)
Theorem C116_recovers : forall R C kbs pre quiet H s, sound_firmware R kbs -> same_size R C kbs -> scan_hook_free kbs ->
  at_rest R C kbs H quiet -> c_run kbs (pre ++ quiet) = Ok s ->
  setting_is (modes_after R C kbs (pre ++ quiet)) s /\ exists fast auto, repeat_mode fast auto s /\
  forall rds out w, works R C kbs fast (mkSt H (modes_after R C kbs (pre ++ quiet)) auto (k_last s)) rds out w ->
  exists s', c_run kbs (pre ++ quiet ++ rds) = Ok s' /\ sent s' = sent s ++ out /\
    setting_is (st_modes w) s' /\ k_last s' = st_last w /\ repeat_mode fast (st_auto w) s' /\
    forall r c, r < R -> c < C -> down s' r c = st_held w r c.
Proof.
  intros R C kbs pre quiet H s HS HZ HQ HR ES.
  destruct (rested R C kbs pre quiet H HS HZ HQ HR) as (last&f&a&n&o&X1&VL&V&D).
  destruct (scans_state R C kbs _ s _ _ _ _ _ _ _ _ HS HZ ES X1) as (S1&S2&S3&S4). split; [exact S4|].
  exists f, a. split; [exact S3|]. intros rds out w HW. rewrite S2 in HW.
  set (e := modes_after R C kbs (pre ++ quiet)) in *. clearbody e. set (p := pre ++ quiet) in *. rewrite app_assoc. fold p. clearbody p.
  destruct (works_scans R C kbs HQ f _ _ _ _ HW p n o) as (n'&Y1&Y2&_); cbn [st_held st_modes st_auto st_last] in *; auto; [exact (proj1 HR)|].
  destruct (C98_any_keymaps_safe R kbs (p ++ rds) HS) as [s' ES']. exists s'. split; [exact ES'|].
  rewrite <- X1 in Y1. change p with ([] ++ p) in Y1 at 1. rewrite <- scans_app in Y1.
  destruct (scans_state R C kbs _ s' _ _ _ _ _ _ _ _ HS HZ ES' Y1) as (T1&T2&T3&T4). rewrite S1.
  split; [exact T1|]. split; [exact T4|]. split; [exact T2|]. split; [exact T3|].
  intros r c Hr Hc. rewrite <- (Y2 r c Hr Hc). apply (run_dbp R kbs HS C (at_least_size kbs R C HS HZ) _ s' r c ES' Hr Hc).
Qed.
Print Assumptions C116_recovers.

(** The keyboard of C104: REPEAT and "a", MAPSEL and the autorepeat switch in a
    heap, then hands off for 160 scans.  The second keyboard has left CAPS LOCK
    on, and "1" is still remembered as the character to repeat.  Then HERE IS is struck, the
    autorepeat switch is turned on, and "b" is typed, contacts bouncing. *)
Definition heap : list (nat -> N) :=
  hold 12 [(0, 4)] ++ hold 80 [(0, 4); (0, 0)] ++ hold 12 [(0, 6); (0, 7)] ++ hold 12 [(0, 6); (0, 7); (0, 1)] ++ hold 12 [(0, 1)] ++
  hold 4 [(0, 0); (0, 5); (0, 2)].
Definition after_rest : list (nat -> N) :=
  presses [(0, 5)] [] (going true) ++ hold 4 [(0, 5)] ++ presses [(0, 5)] [] (going false) ++
  presses [(0, 7)] [] (going true) ++ presses [(0, 7); (0, 1)] [(0, 7)] (going true) ++
  presses [(0, 7); (0, 1)] [(0, 7)] (going false) ++ hold 1 [(0, 7)].
Lemma low_modes : forall c, c < 8 -> 2 <= c -> mode_key desk 0 c.
Proof.
  intros c L1 L2 [i sh lk cp ct] V. cbn [e_kb] in V. unfold code_in. cbn [e_kb]. unfold desk in *.
  do 2 (destruct c as [|c]; [lia|]).
  do 6 (destruct c as [|c]; [destruct (N.eqb_spec i 0); [|destruct (N.eqb_spec i 1); [|congruence]]; destruct ct, sh, lk, cp; vm_compute; reflexivity|]).
  lia.
Qed.
Example C116_example :
  at_rest 1 8 desk (fun _ _ => false) (hold 160 []) /\
  obs (fun s => (k_last s, sent s, r_state (k_rep s), r_base (k_rep s))) (c_run desk (heap ++ hold 160 [])) = Some (49, [97; 97; 49], ROff, ROff)%N /\
  (exists w, works 1 8 desk false (mkSt (fun _ _ => false) (modes_after 1 8 desk (heap ++ hold 160 [])) false 49) after_rest [72; 13; 10; 66]%N w) /\
  obs (fun s => (sent s, down s 0 7, r_state (k_rep s))) (c_run desk (heap ++ hold 160 [] ++ after_rest)) = Some ([97; 97; 49; 72; 13; 10; 66]%N, true, RAuto).
Proof.
  split; [|split; [vm_compute; reflexivity|split; [|vm_compute; reflexivity]]].
  - split; [intros; discriminate|]. split; [|vm_compute; lia]. apply Forall_forall. intros rd HI. apply repeat_spec in HI. subst rd. apply row_b_ok. reflexivity.
  - assert (ST : forall b, settles b (going b)) by (intros []; split; vm_compute; lia).
    replace (modes_after 1 8 desk (heap ++ hold 160 [])) with (mkSetting 0 false false true false) by (vm_compute; reflexivity).
    eexists. unfold after_rest. change [72; 13; 10; 66]%N with (visible [72; 13; 10] ++ [66])%N.
    eapply (w_tell 1 8 desk false _ _ _ _ 0 5 (going true)); [lia|lia|apply low_modes; lia|reflexivity|vm_compute; reflexivity|cbn; lia|
      apply contact_presses; reflexivity|apply (ST true)|unfold hold; cbn [repeat]; repeat (constructor; [apply row_b_ok; reflexivity|]); constructor|cbn; lia|].
    eapply (w_mode 1 8 desk false _ _ _ _ 0 5 (going false)); [lia|lia|apply low_modes; lia|vm_compute; reflexivity|apply contact_presses; reflexivity|apply (ST false)|].
    eapply (w_auto 1 8 desk false _ _ _ _ 0 7 (going true)); [lia|lia|apply low_modes; lia|vm_compute; reflexivity|apply contact_presses; reflexivity|apply (ST true)|].
    match goal with |- works _ _ _ _ (mkSt _ ?e _ _) _ _ _ => change [66%N] with [code_in desk e 0 1] end.
    eapply (w_stroke 1 8 desk false _ _ _ _ 0 1 (going true) (going false)); [lia|lia|reflexivity|reflexivity|vm_compute; discriminate|
      apply contact_presses; reflexivity|apply (ST true)|apply contact_presses; reflexivity|apply (ST false)|right; vm_compute; discriminate|].
    apply w_wait; [apply row_b_ok; reflexivity|]. apply w_done.
Qed.
