(** Sessions with message keys: HERE IS and the function keys among typing, mode
    keys and held keys, with bouncing contacts, under any keymaps (C130). *)
From Coq Require Import List NArith ZArith Arith Bool Lia.
From Coq Require Import ZifyBool ZifyNat ZifyN.
From Verif Require Import Base Lib Buffer Repeat Devices Modifiers Hook KeymapData Asdf KeySpec Obs PropDebounce
     Custom CustomSpec CustomRef PropCustom PropEvents PropFlow PropExact PropSession.
From Verif Require Import PropModState PropBounce System Timed PropTimed Jitter PropJitter PropHands CustomSystem CustomTime PropAnyTime.
From Verif Require Import PropAnyHands PropRollTime PropHolds PropAnyPace.
Import ListNotations.

(** ** Specification *)
(** The codes of HERE IS and of the function keys. *)
Definition message_code (x : N) : Prop := match decode x with AHereIs | AFn _ => True | _ => False end.
(** The message such a code stands for in the keymap in use, at most 128 characters. *)
Definition message_for (kbs : N -> option (list setup_cmd)) (e : setting) (x : N) : list N :=
  match kbs (e_kb e) with
  | Some cs =>
      let text id := firstn 128 (new_lines (shown (message_of cs id))) in
      match decode x with AHereIs => text 5 | AFn n => if n <=? 10 then text (4 + n) else [] | _ => [] end
  | None => []
  end.

(** Sessions of [plays] with no key down but modes between them; and a message
    key is pressed with no typing key down, its contacts settle, and nothing moves
    for as many scans as its message has characters; later it is released. *)
Inductive speaks (R C : nat) (kbs : N -> option (list setup_cmd)) :
  (nat -> nat -> bool) -> setting -> list (nat -> N) -> list (N * nat * nat) -> (nat -> nat -> bool) -> setting -> Prop :=
| sk_last : forall H e rds out H' e', plays R C kbs H e None rds out H' e' -> speaks R C kbs H e rds out H' e'
| sk_play : forall H e l rds out1 out H1 e1 H' e', plays R C kbs H e None l out1 H1 e1 -> ~ typing R C kbs e1 H1 ->
    speaks R C kbs H1 e1 rds out H' e' -> speaks R C kbs H e (l ++ rds) (out1 ++ out) H' e'
| sk_say : forall H e r c bs l mid rds out H' e', r < R -> c < C -> H r c = false -> mode_key kbs r c ->
    message_code (code_in kbs e r c) -> contact R C H r c bs l -> settles true bs ->
    Forall (reads R C (set2 H r c true)) mid -> length (message_for kbs e (code_in kbs e r c)) <= length mid ->
    speaks R C kbs (set2 H r c true) e rds out H' e' ->
    speaks R C kbs H e (l ++ mid ++ rds) (map (fun x => (x, 1, 1)) (visible (message_for kbs e (code_in kbs e r c))) ++ out) H' e'
| sk_hush : forall H e r c bs l rds out H' e', r < R -> c < C -> H r c = true -> mode_key kbs r c ->
    message_code (code_in kbs e r c) -> contact R C H r c bs l -> settles false bs ->
    speaks R C kbs (set2 H r c false) e rds out H' e' -> speaks R C kbs H e (l ++ rds) out H' e'.

(** ** Proofs *)
Lemma spells_app : forall a s b t, spells a s -> spells b t -> spells (a ++ b) (s ++ t).
Proof.
  intros a s b t HA HB. induction HA as [|x lo hi k out l HK HA IH]; [exact HB|]. cbn [app]. rewrite <- app_assoc. constructor; auto.
Qed.
Lemma spells_once : forall l, spells (map (fun x => (x, 1, 1)) l) l.
Proof. induction l as [|x l IH]; [constructor|]. change (x :: l) with (repeat x 1 ++ l). constructor; [lia|exact IH]. Qed.
Lemma enter_nil : forall cap l q, enter cap l q = q ++ firstn (cap - length q) l.
Proof.
  intros cap l. induction l as [|x l IH]; intros q; cbn [enter]; [rewrite firstn_nil, app_nil_r; reflexivity|].
  rewrite IH. destruct (Nat.ltb_spec (length q) cap) as [L|L].
  - rewrite app_length. cbn [length]. replace (cap - length q) with (S (cap - (length q + 1))) by lia. cbn [firstn]. rewrite <- app_assoc. reflexivity.
  - replace (cap - length q) with 0 by lia. reflexivity.
Qed.

Section Scan.
Variable R C : nat.
Variable kbs : N -> option (list setup_cmd).
Hypothesis quiet : scan_hook_free kbs.
Notation moved := (PropExact.moved kbs).
Notation scans := (scans kbs R C).
Notation stands := (PropAnyHands.stands R C).
Notation stands_but := (PropAnyHands.stands_but R C).
Notation modes_only := (modes_only R C kbs).

Lemma starts_saying : forall e l f a n ms o, kbs (e_kb e) <> None ->
  scan_starts kbs (mkTy e l f a n [] ms o) = mkTy e l f a n [] (tl ms) (o ++ visible (firstn 1 ms)).
Proof.
  intros e l f a n ms o V. unfold scan_starts.
  assert (S1 : sends_one (mkTy e l f a n [] ms o) = mkTy e l f a n [] (tl ms) (o ++ visible (firstn 1 ms))).
  { unfold sends_one. cbn [t_set t_last t_fast t_auto t_left t_keys t_msgs t_out]. destruct ms as [|m ms]; cbn [hd tl firstn visible filter].
    - reflexivity.
    - destruct (N.eqb_spec m 0xA0) as [-> |NE]; [reflexivity|]. destruct (m <? 0xA0)%N; reflexivity. }
  rewrite S1. unfold prints. cbn [t_set]. destruct (kbs (e_kb e)) as [cs|] eqn:E; [|congruence].
  rewrite (no_scan_message kbs quiet cs) by eauto. reflexivity.
Qed.

(** A mode key's contact while a message is going out. *)
Lemma saying : forall bs l pre H r c s k e n ms o, stands_but pre H r c (s, k) -> modes_only H -> r < R -> c < C ->
  (s = true -> mode_key kbs r c) -> contact R C H r c bs l -> (N.of_nat (times (negb s) bs) < k)%N -> kbs (e_kb e) <> None ->
  scans pre l (mkTy e 0xA0 false true n [] ms o) =
    mkTy e 0xA0 false true n [] (skipn (length l) ms) (o ++ visible (firstn (length l) ms)) /\
  stands_but (pre ++ l) H r c (s, (k - N.of_nat (times (negb s) bs))%N).
Proof.
  induction bs as [|b bs IH]; intros l pre H r c s k e n ms o D M Hr Hc HM HC HL V; inv HC; cbn [PropExact.scans length].
  - cbn [skipn firstn visible filter]. rewrite !app_nil_r, N.sub_0_r. auto.
  - rewrite starts_saying by auto. rewrite times_cons in HL |- *.
    set (t0 := mkTy e 0xA0%N false true n [] (tl ms) (o ++ visible (firstn 1 ms))).
    destruct (stand_one R C kbs pre y H r c (s, k) b t0 D M Hr Hc H2) as [X1 X2]; [split; [cbn; lia|exact V]|].
    rewrite X1. rename l' into l.
    assert (DB : db (s, k) b = (s, (k - N.of_nat (if Bool.eqb (negb s) b then 1 else 0))%N)).
    { unfold db. cbn [fst snd]. destruct (Bool.eqb_spec (negb s) b) as [E|E].
      - subst b. replace (Bool.eqb (negb s) s) with false by (destruct s; auto). replace (k =? 1)%N with false by lia. reflexivity.
      - replace (Bool.eqb b s) with true by (destruct b, s; auto; contradiction E; auto). rewrite N.sub_0_r. reflexivity. }
    assert (TG : fold_left moved (target (s, k) b r c) t0 = t0).
    { unfold target. rewrite DB. cbn [fst]. destruct s; [|reflexivity]. destruct b; [|reflexivity]. cbn [fold_left]. apply held_still; auto. split; [cbn; lia|exact V]. }
    rewrite TG. rewrite DB in X2. unfold t0.
    destruct (IH l (pre ++ [y]) H r c s _ e n (tl ms) (o ++ visible (firstn 1 ms)) X2 M Hr Hc HM H4) as [Y1 Y2]; auto; [lia|].
    split.
    + rewrite Y1. rewrite <- app_assoc. f_equal.
      * destruct ms; [rewrite skipn_nil|]; reflexivity.
      * f_equal. unfold visible. rewrite <- filter_app. f_equal. destruct ms; cbn [tl firstn app]; [rewrite firstn_nil|]; reflexivity.
    + rewrite <- app_assoc in Y2. cbn [app] in Y2.
      replace (k - N.of_nat ((if Bool.eqb (negb s) b then 1 else 0) + times (negb s) bs))%N
        with (k - N.of_nat (if Bool.eqb (negb s) b then 1 else 0) - N.of_nat (times (negb s) bs))%N by lia. exact Y2.
Qed.

Lemma prints_for : forall e n o r c, mode_key kbs r c -> message_code (code_in kbs e r c) -> kbs (e_kb e) <> None ->
  moved (mkTy e 0xA0 false true n [] [] o) (r, c, Press) =
  mkTy e 0xA0 false true n [] (message_for kbs e (code_in kbs e r c)) o.
Proof.
  intros e n o r c HM HX V. pose proof (HM e V) as L. cbn [PropExact.moved t_set]. set (x := code_in kbs e r c) in *.
  unfold message_code in HX. unfold on_press, message_for. replace (x <=? 0xA0)%N with false by lia.
  destruct (kbs (e_kb e)) as [cs|] eqn:E; [|congruence].
  assert (P : forall id, prints kbs id (mkTy e 0xA0 false true n [] [] o) =
     mkTy e 0xA0 false true n [] (firstn 128 (new_lines (shown (message_of cs id)))) o).
  { intros id. unfold prints. cbn [t_set t_last t_fast t_auto t_left t_keys t_msgs t_out]. rewrite E, enter_nil. reflexivity. }
  destruct (decode x); try contradiction; try apply P.
  all: match goal with |- context [if ?b then _ else _] => destruct b end; [apply P|reflexivity].
Qed.
Lemma quiet_release : forall e n o r c, mode_key kbs r c -> message_code (code_in kbs e r c) -> kbs (e_kb e) <> None ->
  moved (mkTy e 0xA0 false true n [] [] o) (r, c, Release) = mkTy e 0xA0 false true n [] [] o.
Proof.
  intros e n o r c HM HX V. pose proof (HM e V) as L. cbn [PropExact.moved t_set]. set (x := code_in kbs e r c) in *.
  unfold message_code in HX. unfold on_release. replace (x <=? 0xA0)%N with false by lia.
  unfold after_release. destruct (decode x); try contradiction; reflexivity.
Qed.

Lemma say_bounce : forall pre H r c bs l mid e n o, stands pre H -> modes_only H -> r < R -> c < C -> H r c = false -> mode_key kbs r c ->
  message_code (code_in kbs e r c) -> contact R C H r c bs l -> settles true bs ->
  Forall (reads R C (set2 H r c true)) mid -> length (message_for kbs e (code_in kbs e r c)) <= length mid -> kbs (e_kb e) <> None ->
  scans pre (l ++ mid) (mkTy e 0xA0 false true n [] [] o) =
    mkTy e 0xA0 false true n [] [] (o ++ visible (message_for kbs e (code_in kbs e r c))) /\
  stands (pre ++ l ++ mid) (set2 H r c true).
Proof.
  intros pre H r c bs l mid e n o D M Hr Hc HH HM HX HC [S1 S2] HF HL V. destruct (stands_at R C _ _ _ _ D Hr Hc) as (k&K&D0).
  rewrite HH in D0. destruct (times_split true (N.to_nat k) bs ltac:(lia) ltac:(lia)) as (u&v&->&TU).
  destruct (contact_app R C _ _ _ _ _ _ HC) as (l1&l2&->&C1&C2). inv C2. rename l' into l3.
  destruct (idle R C kbs quiet u l1 pre H r c false k e n o 0xA0%N D0 M Hr Hc (fun _ => HM) C1 ltac:(cbn [negb]; lia) V ltac:(lia)) as [X1 X2].
  cbn [negb] in X2. rewrite TU in X2. replace (k - N.of_nat (N.to_nat k - 1))%N with 1%N in X2 by lia.
  rewrite <- app_assoc. cbn [app].
  rewrite scans_app, X1. cbn [PropExact.scans]. rewrite (starts_queue kbs quiet) by auto. cbn [tl firstn visible filter]. rewrite app_nil_r.
  destruct (stand_one R C kbs _ y H r c _ _ (mkTy e 0xA0 false true n [] [] o) X2 M Hr Hc H2) as [Y1 Y2]; [split; [cbn; lia|auto]|].
  rewrite Y1. change (db (false, 1%N) true) with (true, 10%N) in Y2. change (target (false, 1%N) true r c) with [(r, c, Press)].
  cbn [fold_left]. rewrite prints_for by auto. set (ms := message_for kbs e (code_in kbs e r c)) in *.
  rewrite times_app, times_cons in S2.
  destruct (saying (v ++ repeat true (length mid)) (l3 ++ mid) _ H r c true 10%N e n ms o Y2 M Hr Hc (fun _ => HM)) as [Z1 Z2].
  { apply Forall2_app; [exact H4|]. clear -HF. induction HF as [|rd mid HR HF IH]; cbn [length repeat]; constructor; auto. }
  { cbn [negb]. rewrite times_app, steady_times. cbn [Bool.eqb negb] in S2. (clear -S2; lia). }
  { exact V. }
  rewrite Z1. rewrite app_length. rewrite skipn_all2, firstn_all2 by lia. split; [reflexivity|].
  rewrite <- !app_assoc in Z2. cbn [app] in Z2. exact (stands_on R C _ _ _ _ _ _ Z2 Hr Hc).
Qed.
Lemma hush_bounce : forall pre H r c bs l e n o, stands pre H -> modes_only H -> r < R -> c < C -> H r c = true -> mode_key kbs r c ->
  message_code (code_in kbs e r c) -> contact R C H r c bs l -> settles false bs -> kbs (e_kb e) <> None ->
  scans pre l (mkTy e 0xA0 false true n [] [] o) = mkTy e 0xA0 false true n [] [] o /\ stands (pre ++ l) (set2 H r c false).
Proof.
  intros pre H r c bs l e n o D M Hr Hc HH HM HX HC [S1 S2] V. destruct (stands_at R C _ _ _ _ D Hr Hc) as (k&K&D0).
  rewrite HH in D0. destruct (times_split false (N.to_nat k) bs ltac:(lia) ltac:(lia)) as (u&v&->&TU).
  destruct (contact_app R C _ _ _ _ _ _ HC) as (l1&l2&->&C1&C2). inv C2. rename l' into l3.
  destruct (idle R C kbs quiet u l1 pre H r c true k e n o 0xA0%N D0 M Hr Hc (fun _ => HM) C1 ltac:(cbn [negb]; lia) V ltac:(lia)) as [X1 X2].
  cbn [negb] in X2. rewrite TU in X2. replace (k - N.of_nat (N.to_nat k - 1))%N with 1%N in X2 by lia.
  rewrite scans_app, X1. cbn [PropExact.scans]. rewrite (starts_queue kbs quiet) by auto. cbn [tl firstn visible filter]. rewrite app_nil_r.
  destruct (stand_one R C kbs _ y H r c _ _ (mkTy e 0xA0 false true n [] [] o) X2 M Hr Hc H2) as [Y1 Y2]; [split; [cbn; lia|auto]|].
  rewrite Y1. change (db (true, 1%N) false) with (false, 10%N) in Y2. change (target (true, 1%N) false r c) with [(r, c, Release)].
  cbn [fold_left]. rewrite quiet_release by auto. rewrite times_app, times_cons in S2. cbn [Bool.eqb negb] in S2.
  destruct (idle R C kbs quiet v l3 _ H r c false 10%N e n o 0xA0%N Y2 M Hr Hc (fun _ => HM) H4 ltac:(cbn [negb]; lia) V ltac:(lia)) as [Z1 Z2].
  split; [exact Z1|]. rewrite <- !app_assoc in Z2. cbn [app] in Z2. exact (stands_on R C _ _ _ _ _ _ Z2 Hr Hc).
Qed.

Lemma modes_rest : forall pre H e n, stands pre H -> modes_only H -> kbs (e_kb e) <> None -> (n <= 525)%N -> rest R C kbs pre H e None 0xA0 n [].
Proof.
  intros pre H e n D M V HN. split; [|auto]. split; [exact D|]. split; [intros r c Hr Hc X; left; apply M; auto|].
  split; [|split; [exact V|left; auto]]. intros r1 c1 r2 c2 Hr1 Hc1 Z1 Hr2 Hc2 Z2 L _. specialize (M r1 c1 Hr1 Hc1 Z1 _ V). lia.
Qed.
Lemma modes_set : forall H r c b, modes_only H -> mode_key kbs r c -> modes_only (set2 H r c b).
Proof.
  intros H r c b M HM r' c' Hr' Hc'. unfold set2. destruct (Nat.eqb_spec r' r), (Nat.eqb_spec c' c); cbn [andb]; auto. intros _. subst. exact HM.
Qed.

Lemma speaks_scans : forall H e rds out H' e', speaks R C kbs H e rds out H' e' ->
  forall pre n o, stands pre H -> modes_only H -> kbs (e_kb e) <> None -> (n <= 525)%N ->
  exists last' n' q' o' text, scans pre rds (mkTy e 0xA0 false true n [] [] o) = mkTy e' last' false true n' q' [] o' /\
    spells out text /\ o' ++ q' = o ++ text /\ stands (pre ++ rds) H' /\ kbs (e_kb e') <> None /\ short last' q'.
Proof.
  intros H e rds out H' e' HS.
  induction HS as [H e rds out H' e' HP|H e l rds out1 out H1 e1 H' e' HP HT HS IH
                  |H e r c bs l mid rds out H' e' Hr Hc HH HM HX HC HB HF HL HS IH
                  |H e r c bs l rds out H' e' Hr Hc HH HM HX HC HB HS IH]; intros pre n o D M V HN.
  - destruct (plays_scans R C kbs quiet _ _ _ _ _ _ _ HP pre 0xA0%N n [] o (modes_rest _ _ _ _ D M V HN)) as (last'&n'&q'&o'&text&X1&X2&X3&X4&X5&X6&_).
    exists last', n', q', o', text. auto 10.
  - destruct (plays_scans R C kbs quiet _ _ _ _ _ _ _ HP pre 0xA0%N n [] o (modes_rest _ _ _ _ D M V HN)) as (last1&n1&q1&o1&text1&X1&X2&X3&X4&X5&X6&X7).
    destruct (X7 HT) as ((_&HG&_)&N1&->&->).
    assert (M1 : modes_only H1).
    { intros r' c' Hr' Hc' X. destruct (HG r' c' Hr' Hc' X) as [Y|Y]; [exact Y|]. contradiction HT. exists r', c'. auto. }
    destruct (IH (pre ++ l) n1 o1 X4 M1 X5 N1) as (last'&n'&q'&o'&text&Y1&Y2&Y3&Y4&Y5).
    exists last', n', q', o', (text1 ++ text). rewrite scans_app, X1. split; [exact Y1|]. split; [apply spells_app; auto|].
    rewrite <- app_assoc in Y4. rewrite app_nil_r in X3. split; [|exact (conj Y4 Y5)]. rewrite Y3, X3. cbn [app]. rewrite <- app_assoc. reflexivity.
  - destruct (say_bounce pre H r c bs l mid e n o D M Hr Hc HH HM HX HC HB HF HL V) as [X1 X2].
    set (ms := message_for kbs e (code_in kbs e r c)) in *.
    destruct (IH (pre ++ l ++ mid) n (o ++ visible ms) X2 (modes_set _ _ _ _ M HM) V HN) as (last'&n'&q'&o'&text&Y1&Y2&Y3&Y4&Y5).
    exists last', n', q', o', (visible ms ++ text). rewrite (app_assoc l mid rds), scans_app, X1. split; [exact Y1|].
    split; [apply spells_app; [apply spells_once|exact Y2]|]. rewrite <- !app_assoc in *. exact (conj Y3 (conj Y4 Y5)).
  - destruct (hush_bounce pre H r c bs l e n o D M Hr Hc HH HM HX HC HB V) as [X1 X2].
    destruct (IH (pre ++ l) n o X2 (modes_set _ _ _ _ M HM) V HN) as (last'&n'&q'&o'&text&Y1&Y2&Y3&Y4&Y5).
    exists last', n', q', o', text. rewrite scans_app, X1. rewrite <- app_assoc in Y4. exact (conj Y1 (conj Y2 (conj Y3 (conj Y4 Y5)))).
Qed.
End Scan.

(** ** C130 *)
(** From power-on, whatever the keymaps. *)
Theorem C130_message_keys : forall R C kbs rds out H e, sound_firmware R kbs -> same_size R C kbs -> scan_hook_free kbs ->
  speaks R C kbs (fun _ _ => false) (at_start kbs) rds out H e ->
  exists text, spells out text /\
  (forall s, c_run kbs rds = Ok s ->
     (exists late, text = sent s ++ late /\ length late <= 1) /\ setting_is e s /\ forall r c, r < R -> c < C -> down s r c = H r c) /\
  (forall rd s, c_run kbs (rds ++ [rd]) = Ok s -> sent s = text).
Proof.
  intros R C kbs rds out H e HS HZ HQ HE.
  destruct (speaks_scans R C kbs HQ _ _ _ _ _ _ HE [] 525%N []) as (last&n&q&o&text&X1&XT&X2&X3&X4&SH).
  { intros r c _ _. reflexivity. }
  { intros r c _ _ X. discriminate X. }
  { destruct (proj1 HS) as [cs E0]. cbn. congruence. }
  { lia. }
  cbn [app] in X2, X3. change (mkTy (at_start kbs) 0xA0 false true 525 [] [] []) with (starts kbs) in X1.
  exists text. split; [exact XT|]. split.
  - intros s ES. rewrite (C104_exact R C kbs rds s HS HZ ES). unfold output_of. rewrite X1. cbn [t_out]. split; [|split].
    + exists q. split; [symmetry; exact X2|]. destruct SH as [-> |[-> _]]; cbn; lia.
    + destruct (run_ok_g R kbs HS rds) as (g&s'&E1&T1&E2&RL). rewrite ES in E2. inv E2.
      destruct (exact_run kbs R C HS HZ rds) as [g' (E3&[IS _])]. rewrite E1 in E3. inv E3. rewrite X1 in IS. exact (set_is _ _ _ RL IS).
    + intros r c Hr Hc. rewrite <- (X3 r c Hr Hc). apply (run_dbp R kbs HS C (at_least_size kbs R C HS HZ) rds s r c ES Hr Hc).
  - intros rd s ES. rewrite (C104_exact R C kbs _ s HS HZ ES). unfold output_of. rewrite scans_app, X1. cbn [PropExact.scans].
    rewrite folded_out, (starts_short kbs HQ e last n q o X4 SH). exact X2.
Qed.
Print Assumptions C130_message_keys.

(** ** Specification, in continuous time *)
(** The passes, ending at [E 0], [E 1], ..., that are under way between [a] and [z]
    take at most [G] ms. *)
Definition pace (E : nat -> nat) (a z G : nat) : Prop := forall i, a <= E (S i) -> E i < z -> E (S i) <= E i + G.

(** As [speaks], from time [a] to time [z]; the passes may be slow while a message
    goes out and fast while keys are struck. *)
Inductive c_speaks (R C : nat) (kbs : N -> option (list setup_cmd)) (W : nat -> nat -> N) (E : nat -> nat) :
    nat -> (nat -> nat -> bool) -> setting -> nat -> list (N * nat * nat) -> (nat -> nat -> bool) -> setting -> Prop :=
| ck_last : forall G a z H e out H' e', pace E a z G -> c_plays R C kbs W G a H e None z out H' e' ->
    c_speaks R C kbs W E a H e z out H' e'
| ck_play : forall G a d z H e out1 out H1 e1 H' e', pace E a d G -> c_plays R C kbs W G a H e None d out1 H1 e1 ->
    ~ typing R C kbs e1 H1 -> c_speaks R C kbs W E d H1 e1 z out H' e' ->
    c_speaks R C kbs W E a H e z (out1 ++ out) H' e'
| ck_say : forall G a d m z H e r c out H' e', r < R -> c < C -> H r c = false -> mode_key kbs r c ->
    message_code (code_in kbs e r c) -> pace E a m G -> c_moves R C W G H r c true a d -> c_rests R C W (set2 H r c true) d m ->
    length (message_for kbs e (code_in kbs e r c)) <= (m - d) / G - 1 ->
    c_speaks R C kbs W E m (set2 H r c true) e z out H' e' ->
    c_speaks R C kbs W E a H e z (map (fun x => (x, 1, 1)) (visible (message_for kbs e (code_in kbs e r c))) ++ out) H' e'
| ck_hush : forall G a d z H e r c out H' e', r < R -> c < C -> H r c = true -> mode_key kbs r c ->
    message_code (code_in kbs e r c) -> pace E a d G -> c_moves R C W G H r c false a d ->
    c_speaks R C kbs W E d (set2 H r c false) e z out H' e' ->
    c_speaks R C kbs W E a H e z out H' e'.

(** ** Proofs *)
Lemma moves_settled : forall R C W G n E H r c b a z, c_moves R C W G H r c b a z -> c_settled R C W G n E (set2 H r c b) z.
Proof.
  intros R C W G n E H r c b a z [HL HM] t H1 H2. destruct (HM t ltac:(lia)) as (v&HV&HB). rewrite HB in HV by lia. exact HV.
Qed.
Lemma rests_settled : forall R C W G n E H a d, c_rests R C W H a d -> c_settled R C W G n E H a -> c_settled R C W G n E H d.
Proof. intros R C W G n E H a d [HL HR] HN t H1 H2. destruct (Nat.le_gt_cases a t); [apply HR; lia|apply HN; lia]. Qed.
Lemma plays_settled : forall R C kbs W G n E a H e w z out H' e', c_plays R C kbs W G a H e w z out H' e' ->
  c_settled R C W G n E H a -> c_settled R C W G n E H' z.
Proof.
  intros R C kbs W G n E a H e w z out H' e' HS. induction HS; intros HN; auto;
    try (apply IHHS; first [eapply rests_settled; eassumption | eapply moves_settled; eassumption]).
  eapply rests_settled; eassumption.
Qed.
Lemma looser_refl : forall l, looser l l.
Proof. induction l as [|[[x lo] hi] l IH]; constructor; auto. Qed.
Lemma looser_app : forall a a' b b', looser a a' -> looser b b' -> looser (a ++ b) (a' ++ b').
Proof. intros a a' b b'. apply Forall2_app. Qed.

Section Passes.
Context (R C : nat) (W : nat -> nat -> N) (top : nat) (E : nat -> nat) (T : nat -> nat -> nat) (Z : nat).
Hypothesis scan_in : forall i, i < top -> in_order (T i) (E i) (E (S i)).
Hypothesis progress : forall i j, i <= j -> j <= top -> E i + (j - i) <= E j + 1.
Hypothesis steps_up : forall i j, i <= j -> j <= top -> E i <= E j.
Hypothesis enough : Z <= E top.
Let rd (i : nat) : nat -> N := reads_at W (T i).

Lemma pace_steps : forall a z G p, pace E a z G -> p < top -> a <= E (S p) ->
  forall i, p <= i < top -> E i < z -> E (S i) <= E i + G.
Proof.
  intros a z G p HP Hp Ha i Hi Hz. apply HP; [|exact Hz]. pose proof (steps_up (S p) (S i) ltac:(lia) ltac:(lia)). lia.
Qed.
(** What was read since the pass began. *)
Lemma settled_now : forall G p q z H, pace E z z G \/ (E q < z -> E (S q) <= E q + G) -> p <= q < top -> E q <= z <= E (S q) ->
  c_settled R C W G p E H z -> forall t, E q <= t < z -> reads R C H (W t).
Proof.
  intros G p q z H HP Hq Hz HN t Ht. pose proof (steps_up p q ltac:(lia) ltac:(lia)).
  assert (E (S q) <= E q + G) by (destruct HP as [HP|HP]; [apply HP|apply HP]; lia). apply HN; lia.
Qed.

Lemma c_speaks_scans : forall kbs a H e z out H' e', c_speaks R C kbs W E a H e z out H' e' ->
  a <= z /\ forall p, p < top -> E p <= a <= E (S p) -> (forall t, E p <= t < a -> reads R C H (W t)) -> z <= Z ->
  exists q out', p <= q < top /\ E q <= z <= E (S q) /\ looser out' out /\ speaks R C kbs H e (map rd (seq p (q - p))) out' H' e'.
Proof.
  intros kbs a H e z out H' e' HS. induction HS as
    [G a z H e out H' e' HG HP|G a d z H e out1 out H1 e1 H' e' HG HP HT HS [IL IH]
    |G a d m z H e r c out H' e' Hr Hc HH HM HX HG M1 HR HL HS [IL IH]
    |G a d z H e r c out H' e' Hr Hc HH HM HX HG M1 HS [IL IH]].
  - split; [exact (c_plays_le _ _ _ _ _ _ _ _ _ _ _ _ _ HP)|]. intros p Hp HE HN HZ.
    destruct (c_plays_scans R C W G p top E T z ltac:(intros; apply scan_in; lia) ltac:(intros; apply progress; lia)
      (pace_steps a z G p HG Hp ltac:(lia)) ltac:(intros; apply steps_up; lia) ltac:(lia) kbs _ _ _ _ _ _ _ _ HP) as [_ Y].
    destruct (Y p None ltac:(lia) I HE) as (q&out'&Q1&Q2&Q3&Q4); [intros t H1 H2; apply HN; lia|lia|].
    exists q, out'. split; [lia|]. split; [exact Q2|]. split; [exact Q3|]. apply sk_last. exact Q4.
  - pose proof (c_plays_le _ _ _ _ _ _ _ _ _ _ _ _ _ HP) as AD. split; [lia|]. intros p Hp HE HN HZ.
    destruct (c_plays_scans R C W G p top E T d ltac:(intros; apply scan_in; lia) ltac:(intros; apply progress; lia)
      (pace_steps a d G p HG Hp ltac:(lia)) ltac:(intros; apply steps_up; lia) ltac:(lia) kbs _ _ _ _ _ _ _ _ HP) as [_ Y].
    destruct (Y p None ltac:(lia) I HE) as (q&out1'&Q1&Q2&Q3&Q4); [intros t T1 T2; apply HN; lia|lia|].
    destruct (IH q ltac:(lia) Q2) as (v&out'&V1&V2&V3&V4); [|exact HZ|].
    { apply (settled_now G p q d); auto; [right; intros L; apply HG; lia|]. apply (plays_settled R C kbs W G p E _ _ _ _ _ _ _ _ HP).
      intros t T1 T2. apply HN. lia. }
    exists v, (out1' ++ out'). split; [lia|]. split; [exact V2|]. split; [apply looser_app; auto|].
    replace (v - p) with ((q - p) + (v - q)) by lia. rewrite seq_app, map_app. replace (p + (q - p)) with q by lia.
    apply (sk_play R C kbs _ _ _ _ _ _ H1 e1); auto.
  - pose proof HR as [DM _]. pose proof M1 as [AD _]. split; [lia|]. intros p Hp HE HN HZ.
    pose proof (pace_steps a m G p HG Hp ltac:(lia)) as ST.
    assert (SI : forall i, p <= i < top -> in_order (T i) (E i) (E (S i))) by (intros; apply scan_in; lia).
    assert (PR : forall i j, p <= i <= j -> j <= top -> E i + (j - i) <= E j + 1) by (intros; apply progress; lia).
    assert (SU : forall i j, p <= i <= j -> j <= top -> E i <= E j) by (intros; apply steps_up; lia).
    assert (EN : m <= E top) by lia.
    assert (HS0 : c_settled R C W G p E H a) by (intros t T1 T2; apply HN; lia).
    destruct (c_segment R C W G p top E T m SI PR ST SU EN H r c _ a d p Hr Hc M1 (c_settled_nearly _ _ _ _ _ _ _ _ _ _ HS0) ltac:(lia) ltac:(lia) HE)
      as (q&bs&Q1&Q2&R1&S1&B1&T1).
    destruct (c_next_scan W G p top E T m SI PR ST SU EN q m ltac:(lia) ltac:(lia) ltac:(lia)) as (q'&Q1'&Q2'&Q3').
    pose proof (rests_settled _ _ _ _ _ _ _ _ _ HR T1) as T2.
    destruct (IH q' ltac:(lia) Q2') as (v&out'&V1&V2&V3&V4); [|exact HZ|].
    { apply (settled_now G p q' m); auto; [right; intros L; apply ST; lia|lia]. }
    exists v, (map (fun x => (x, 1, 1)) (visible (message_for kbs e (code_in kbs e r c))) ++ out'). split; [lia|]. split; [exact V2|].
    split; [apply looser_app; [apply looser_refl|exact V3]|].
    replace (v - p) with ((q - p) + ((q' - q) + (v - q'))) by lia. rewrite !seq_app, !map_app.
    replace (p + (q - p)) with q by lia. replace (q + (q' - q)) with q' by lia.
    apply (sk_say R C kbs H e r c bs); auto.
    + apply Forall_map, Forall_forall. intros i Hi. apply in_seq in Hi.
      apply (rest_reads R C W G p top E T m SI PR ST SU EN (set2 H r c true) d m q q'); auto; lia.
    + rewrite map_length, seq_length. pose proof (many_scans W G p top E T m SI PR ST SU EN d m q q' ltac:(lia) ltac:(lia) ltac:(lia) ltac:(lia) ltac:(lia)).
      (clear -HL H0; lia).
  - pose proof M1 as [AD _]. split; [lia|]. intros p Hp HE HN HZ.
    pose proof (pace_steps a d G p HG Hp ltac:(lia)) as ST.
    assert (SI : forall i, p <= i < top -> in_order (T i) (E i) (E (S i))) by (intros; apply scan_in; lia).
    assert (PR : forall i j, p <= i <= j -> j <= top -> E i + (j - i) <= E j + 1) by (intros; apply progress; lia).
    assert (SU : forall i j, p <= i <= j -> j <= top -> E i <= E j) by (intros; apply steps_up; lia).
    assert (EN : d <= E top) by lia.
    assert (HS0 : c_settled R C W G p E H a) by (intros t T1 T2; apply HN; lia).
    destruct (c_segment R C W G p top E T d SI PR ST SU EN H r c _ a d p Hr Hc M1 (c_settled_nearly _ _ _ _ _ _ _ _ _ _ HS0) ltac:(lia) ltac:(lia) HE)
      as (q&bs&Q1&Q2&R1&S1&B1&T1).
    destruct (IH q ltac:(lia) Q2) as (v&out'&V1&V2&V3&V4); [|exact HZ|].
    { apply (settled_now G p q d); auto. }
    exists v, out'. split; [lia|]. split; [exact V2|]. split; [exact V3|].
    replace (v - p) with ((q - p) + (v - q)) by lia. rewrite seq_app, map_app. replace (p + (q - p)) with q by lia.
    apply (sk_hush R C kbs H e r c bs); auto.
Qed.
End Passes.

(** ** C131 *)
Lemma c_speaks_le : forall R C kbs W E a H e z out H' e', c_speaks R C kbs W E a H e z out H' e' -> a <= z.
Proof.
  intros R C kbs W E a H e z out H' e' HS. induction HS; unfold c_rests, c_moves in *; try lia; try (exact (c_plays_le _ _ _ _ _ _ _ _ _ _ _ _ _ H1)).
  pose proof (c_plays_le _ _ _ _ _ _ _ _ _ _ _ _ _ H2). lia.
Qed.

(** From power-on; times run from the end of the initialisation. *)
Theorem C131_message_keys_in_continuous_time : forall R C kbs P W Z out H e,
  sound_firmware R kbs -> same_size R C kbs -> scan_hook_free kbs ->
  c_speaks R C kbs W (c_ended kbs P W) (c_ended kbs P W 0) (fun _ _ => false) (at_start kbs) Z out H e ->
  exists N s c s' c' text, c_clock kbs P W N = Ok (s, c) /\ c_clock kbs P W (S N) = Ok (s', c') /\
    c_ended kbs P W N <= Z <= c_ended kbs P W (S N) /\ spells out text /\
    (exists late, text = sent s ++ late /\ length late <= 1) /\ sent s' = text /\ map snd (rev (stamps (jc c'))) = text /\
    setting_is e s /\ forall r c, r < R -> c < C -> down s r c = H r c.
Proof.
  intros R C kbs P W Z out H e HS HZ HQ HE. assert (K0 : kbs 0%N <> None) by (destruct (proj1 HS); congruence).
  assert (TOT : forall n, exists s x, c_clock kbs P W n = Ok (s, x)).
  { intros n. pose proof (c_trace kbs P W K0 n) as X. destruct (c_clock kbs P W n) as [[s x]|u]; [eauto|].
    destruct X as [T X]. destruct (C98_any_keymaps_safe R kbs (readings_of W T n) HS) as [s E]. congruence. }
  pose proof (c_speaks_le _ _ _ _ _ _ _ _ _ _ _ _ HE) as AZ.
  set (E := c_ended kbs P W) in *. set (top := (Z - E 0) + 1).
  destruct (TOT top) as (st&xt&ET). pose proof (c_trace kbs P W K0 top) as X. rewrite ET in X. destruct X as (T&g&RT&_&F1&F2&_&_).
  assert (PR : forall i j, i <= j -> E i + (j - i) <= E j + 1).
  { clear -TOT K0. intros i j Hij. destruct (TOT i) as (si&xi&Ei). destruct (TOT j) as (sj&xj&Ej). unfold E.
    rewrite (c_ended_ok _ _ _ _ _ _ Ei), (c_ended_ok _ _ _ _ _ _ Ej). replace j with (i + (j - i)) in Ej by lia.
    pose proof (c_ended_ge kbs P W K0 _ _ _ _ _ _ Ei Ej) as PD. unfold paid, jt in PD. destruct (flag (jc xj)); lia. }
  assert (SU : forall i j, i <= j -> j <= top -> E i <= E j).
  { intros i j Hij Hj. apply (c_ended_mono kbs P W K0 top st xt); [exact ET|(clear -Hij Hj; lia)]. }
  destruct (c_speaks_scans R C W top E T Z (fun i Hi => proj1 (F1 i Hi)) (fun i j Hij _ => PR i j Hij) SU) with (kbs := kbs) (a := E 0) (H := fun _ _ : nat => false)
    (e := at_start kbs) (z := Z) (out := out) (H' := H) (e' := e) as [_ Y].
  - specialize (PR 0 top). unfold top in *. clear -PR AZ. lia.
  - exact HE.
  - assert (E01 : E 0 <= E 1) by (apply SU; unfold top; clear; lia).
    destruct (Y 0) as (q&out'&Q1&Q2&QL&QB).
    + unfold top. (clear; lia).
    + split; [(clear; lia)|exact E01].
    + intros t Ht. (clear -Ht; lia).
    + (clear; lia).
    + destruct (F2 q) as (s&c&Eq&Rq); [(clear -Q1; lia)|]. destruct (F2 (S q)) as (s'&c'&Eq'&Rq'); [(clear -Q1; lia)|]. rewrite Nat.sub_0_r in QB.
      destruct (C130_message_keys R C kbs _ out' H e HS HZ HQ QB) as (text&TX&A&B). destruct (A s Rq) as (A1&A2&A3).
      assert (A4 : sent s' = text).
      { apply (B (reads_at W (T q))). rewrite <- Rq'. f_equal. unfold readings_of. rewrite seq_S, map_app. reflexivity. }
      exists q, s, c, s', c', text. split; [exact Eq|]. split; [exact Eq'|]. split; [exact Q2|]. split; [exact (spells_looser _ _ _ QL TX)|].
      split; [exact A1|]. split; [exact A4|]. split; [|split; [exact A2|exact A3]].
      pose proof (c_trace kbs P W K0 (S q)) as X. rewrite Eq' in X. destruct X as (_&_&_&_&_&_&ST&_).
      rewrite map_rev, ST, rev_involutive. exact A4.
Qed.
Print Assumptions C131_message_keys_in_continuous_time.

(** ** Examples: the keyboard of C104, with "H" and a new line under HERE IS *)
Lemma here_mode : mode_key desk 0 5.
Proof.
  intros [i sh lk cp ct] V. cbn [e_kb] in V. unfold code_in. cbn [e_kb]. unfold desk in *.
  destruct (i =? 0)%N; [|destruct (i =? 1)%N; [|congruence]]; destruct sh, lk, cp, ct; vm_compute; reflexivity.
Qed.
(** SHIFT and "b"; HERE IS pressed and released; "b" again. *)
Definition announcing : list (nat -> N) :=
  (presses [(0, 2)] [] (going true) ++ presses [(0, 2); (0, 1)] [(0, 2)] (going true) ++ presses [(0, 2); (0, 1)] [(0, 2)] (going false) ++ []) ++
  presses [(0, 2); (0, 5)] [(0, 2)] (going true) ++ hold 3 [(0, 2); (0, 5)] ++
  presses [(0, 2); (0, 5)] [(0, 2)] (going false) ++ presses [(0, 2); (0, 1)] [(0, 2)] (going true) ++ [].
Example C130_example :
  (exists H e, speaks 1 8 desk (fun _ _ => false) (at_start desk) announcing
     [(66%N, 1, 1); (72%N, 1, 1); (13%N, 1, 1); (10%N, 1, 1); (66%N, 1, 1)] H e) /\
  obs (fun s => (sent s, down s 0 1, shift_on s)) (c_run desk announcing) = Some ([66; 72; 13; 10; 66]%N, true, true).
Proof.
  split; [|vm_compute; reflexivity].
  assert (ST : forall b, settles b (going b)) by (intros []; split; vm_compute; lia).
  assert (NW : forall l, within l None) by (intros l u p X; discriminate X).
  unfold announcing. do 2 eexists.
  set (e1 := after_event desk (at_start desk) (0, 2, true)).
  change [(66%N, 1, 1); (72%N, 1, 1); (13%N, 1, 1); (10%N, 1, 1); (66%N, 1, 1)] with
      ([(code_in desk e1 0 1, 1, 1)] ++ map (fun x => (x, 1, 1)) (visible (message_for desk e1 (code_in desk e1 0 5))) ++ [(code_in desk e1 0 1, 1, 1)]).
  eapply (sk_play 1 8 desk).
  - eapply (pl_mode 1 8 desk _ _ _ 0 2 (going true)); [lia|lia|exact shift_mode|exact I|apply none_typing; each_key|apply contact_presses; reflexivity|apply ST|].
    eapply (pl_press 1 8 desk _ _ _ 0 1 (going true)); [lia|lia|reflexivity|reflexivity| |apply contact_presses; reflexivity|apply ST|apply NW|vm_compute; lia|].
    { intros r c Hr. assert (r = 0) as -> by lia. revert c. each_key. }
    eapply (pl_lift 1 8 desk _ _ _ 0 1 (going false)); [lia|lia|reflexivity|reflexivity|apply contact_presses; reflexivity|apply (ST false)| |vm_compute; lia|].
    { intros u p X. inv X. vm_compute. lia. }
    apply pl_done.
  - apply none_typing. each_key.
  - change (after_event desk (at_start desk) (0, 2, negb ((fun _ _ => false) 0 2))) with e1.
    eapply (sk_say 1 8 desk _ _ 0 5 (going true)); [lia|lia|reflexivity|exact here_mode|exact I|apply contact_presses; reflexivity|apply ST|apply steady_hold; reflexivity|vm_compute; lia|].
    eapply (sk_hush 1 8 desk _ _ 0 5 (going false)); [lia|lia|reflexivity|exact here_mode|exact I|apply contact_presses; reflexivity|apply (ST false)|].
    apply sk_last. eapply (pl_press 1 8 desk _ _ _ 0 1 (going true)); [lia|lia|reflexivity|reflexivity| |apply contact_presses; reflexivity|apply ST|apply NW|vm_compute; lia|].
    { intros r c Hr. assert (r = 0) as -> by lia. revert c. each_key. }
    apply pl_done.
Qed.

(** In continuous time, on the keyboard of C115, whose message characters take
    25 ms each: HERE IS from 20 to 450 ms, "a" from 480 to 510 ms, with bounces. *)
Definition say_keys (t : nat) : list (nat * nat) :=
  (if existsb (Nat.eqb t) [20; 22; 23; 452] || ((26 <=? t) && (t <? 450)) then [(0, 1)] else []) ++
  (if existsb (Nat.eqb t) [480; 481; 513] || ((485 <=? t) && (t <? 510)) then [(0, 0)] else []).
Definition say_world (t : nat) : nat -> N := matrix (say_keys t).
Fixpoint paced_in (a z G : nat) (l : list nat) : bool :=
  match l with x :: (y :: _) as l' => ((y <? a) || (z <=? x) || (y <=? x + G)) && paced_in a z G l' | _ => true end.
Lemma paced_in_all : forall a z G l i, paced_in a z G l = true -> S i < length l -> a <= nth (S i) l 0 -> nth i l 0 < z -> nth (S i) l 0 <= nth i l 0 + G.
Proof.
  intros a z G l. induction l as [|x l IH]; intros i HP HL; [cbn in HL; lia|]. destruct l as [|y l]; [cbn in HL; lia|].
  cbn [paced_in] in HP. apply andb_true_iff in HP. destruct HP as [H1 H2]. destruct i as [|i]; [cbn [nth]; lia|].
  change (nth (S (S i)) (x :: y :: l) 0) with (nth (S i) (y :: l) 0). change (nth (S i) (x :: y :: l) 0) with (nth i (y :: l) 0).
  apply IH; [exact H2|cbn [length] in *; lia].
Qed.
Lemma say_pace : forall a z G, z <= 540 ->
  paced_in a z G (ends teller prompt say_world 450 (c_clock teller prompt say_world 0)) = true -> pace (c_ended teller prompt say_world) a z G.
Proof.
  intros a z G HZ HP i HA Hz. destruct (Nat.le_gt_cases i 449) as [L|L].
  - pose proof (paced_in_all a z G _ i HP) as F. rewrite ends_length, !ends_all in F by (clear -L; lia). apply F; [(clear -L; lia)|exact HA|exact Hz].
  - exfalso. assert (K0 : teller 0%N <> None) by discriminate.
    assert (SD : sound_firmware 1 teller /\ same_size 1 2 teller) by (split; apply C115_example).
    destruct (C110_whole_board_in_real_time 1 2 teller prompt say_world i (proj1 SD) (proj2 SD)) as (s&c&T&E&_).
    pose proof (c_ended_mono teller prompt say_world K0 i s c 449 i E ltac:(clear -L; lia)) as M.
    assert (K : (540 <=? c_ended teller prompt say_world 449) = true) by (vm_compute; reflexivity). apply Nat.leb_le in K. (clear -M K Hz HZ; lia).
Qed.
Lemma say_reads : forall H ks, row_b H ks = true -> reads 1 2 H (matrix ks).
Proof. intros H ks HB r c Hr Hc. apply (row_b_ok H ks HB); lia. Qed.
Lemma s_rests_check : forall H a z, a <= z -> forallb (fun t => row_b H (say_keys t)) (seq a (z - a)) = true -> c_rests 1 2 say_world H a z.
Proof.
  intros H a z L HF. split; [exact L|]. intros t Ht. apply say_reads. rewrite forallb_forall in HF. apply HF. apply in_seq. lia.
Qed.
Lemma s_moves_check : forall G H c b a z, a + 7 + 11 * G <= z ->
  forallb (fun t => row_b (set2 H 0 c b) (say_keys t) || (t <? a + 7) && row_b (set2 H 0 c (negb b)) (say_keys t)) (seq a (z - a)) = true ->
  c_moves 1 2 say_world G H 0 c b a z.
Proof.
  intros G H c b a z L HF. split; [exact L|]. intros t Ht. rewrite forallb_forall in HF. specialize (HF t).
  apply orb_true_iff in HF; [|apply in_seq; lia]. destruct HF as [HF|HF].
  - exists b. split; [apply say_reads; exact HF|reflexivity].
  - apply andb_true_iff in HF. destruct HF as [H1 H2]. exists (negb b). split; [apply say_reads; exact H2|]. intros H3. lia.
Qed.
Lemma tell_mode : mode_key teller 0 1.
Proof.
  intros [i sh lk cp ct] V. cbn [e_kb] in V. unfold code_in. cbn [e_kb]. unfold teller in *.
  destruct (i =? 0)%N; [|congruence]. destruct sh, lk, cp, ct; vm_compute; reflexivity.
Qed.
Lemma teller_quiet : scan_hook_free teller.
Proof. intros i cs f E1 HI. unfold teller in E1. destruct (i =? 0)%N; inv E1. cbn in HI. intuition discriminate. Qed.
Example C131_example : sound_firmware 1 teller /\ same_size 1 2 teller /\ scan_hook_free teller /\
  (exists H e, c_speaks 1 2 teller say_world (c_ended teller prompt say_world) (c_ended teller prompt say_world 0) (fun _ _ => false) (at_start teller) 530
     [(79%N, 1, 1); (75%N, 1, 1); (13%N, 1, 1); (10%N, 1, 1); (97%N, 1, 1)] H e) /\
  bind (c_clock teller prompt say_world 435) (fun p => Ok (now (jc (snd p)), rev (stamps (jc (snd p))))) =
    Ok (531, [(58, 79%N); (83, 75%N); (108, 13%N); (133, 10%N); (493, 97%N)]).
Proof.
  split; [apply C115_example|]. split; [apply C115_example|]. split; [exact teller_quiet|]. split; [|vm_compute; reflexivity].
  assert (NW : forall l, c_within l None) by (intros l u p X; discriminate X).
  assert (KN : forall e H, (forall c, c < 2 -> H 0 c = true -> (0xA0 <= code_in teller e 0 c)%N) -> ~ typing 1 2 teller e H).
  { intros e H X (r&c&Hr&Hc&HD&L). assert (r = 0) as -> by lia. specialize (X c Hc HD). lia. }
  do 2 eexists. change (c_ended teller prompt say_world 0) with 0. set (e := at_start teller).
  change [(79%N, 1, 1); (75%N, 1, 1); (13%N, 1, 1); (10%N, 1, 1); (97%N, 1, 1)] with
    ([] ++ map (fun x => (x, 1, 1)) (visible (message_for teller e (code_in teller e 0 1))) ++ [(code_in teller e 0 0, 1, 1)]).
  eapply (ck_play 1 2 teller say_world _ 1 0 20); [apply say_pace; [lia|vm_compute; reflexivity]| | |].
  { eapply (cp_wait 1 2 teller say_world 1 0 20); [apply s_rests_check; [lia|vm_compute; reflexivity]|apply NW|]. apply cp_done. }
  { apply KN. intros c _ X. discriminate X. }
  eapply (ck_say 1 2 teller say_world _ 26 20 313 443 530 _ _ 0 1); [lia|lia|reflexivity|exact tell_mode|exact I|apply say_pace; [lia|vm_compute; reflexivity]
    |apply s_moves_check; [lia|vm_compute; reflexivity]|apply s_rests_check; [lia|vm_compute; reflexivity]|vm_compute; lia|].
  eapply (ck_play 1 2 teller say_world _ 1 443 450 530 _ _ []); [apply say_pace; [lia|vm_compute; reflexivity]| | |].
  { eapply (cp_wait 1 2 teller say_world 1 443 450); [apply s_rests_check; [lia|vm_compute; reflexivity]|apply NW|]. apply cp_done. }
  { apply KN. intros c Hc. do 2 (destruct c as [|c]; [vm_compute; (discriminate || intros; discriminate)|]); lia. }
  eapply (ck_hush 1 2 teller say_world _ 1 450 470 530 _ _ 0 1); [lia|lia|reflexivity|exact tell_mode|exact I|apply say_pace; [lia|vm_compute; reflexivity]
    |apply s_moves_check; [lia|vm_compute; reflexivity]|].
  eapply (ck_last 1 2 teller say_world _ 1 470 530); [apply say_pace; [lia|vm_compute; reflexivity]|].
  eapply (cp_wait 1 2 teller say_world 1 470 480); [apply s_rests_check; [lia|vm_compute; reflexivity]|apply NW|].
  eapply (cp_press 1 2 teller say_world 1 480 500 530 _ _ _ 0 0); [lia|lia|reflexivity|reflexivity| |apply s_moves_check; [lia|vm_compute; reflexivity]|apply NW|lia|].
  { intros r c Hr Hc. assert (r = 0) as -> by lia. revert Hc. do 2 (destruct c as [|c]; [vm_compute; (discriminate || intros; discriminate)|]); lia. }
  eapply (cp_wait 1 2 teller say_world 1 500 510); [apply s_rests_check; [lia|vm_compute; reflexivity]|intros u p X; inv X; lia|].
  eapply (cp_lift 1 2 teller say_world 1 510 530 530 _ _ _ 0 0); [lia|lia|reflexivity|reflexivity|apply s_moves_check; [lia|vm_compute; reflexivity]|intros u p X; inv X; lia|lia|].
  apply cp_done.
Qed.
