(** Keys held for any length of time, with other keys down and bouncing contacts,
    scan by scan and in continuous time, under any keymaps (C128, C129). *)
From Coq Require Import List NArith ZArith Arith Bool Lia.
From Coq Require Import ZifyBool ZifyNat ZifyN.
From Verif Require Import Base Lib Buffer Repeat Devices Modifiers Hook KeymapData Asdf KeySpec Obs PropDebounce
     Custom CustomSpec CustomRef PropCustom PropEvents PropFlow PropExact PropSession.
From Verif Require Import PropModState PropBounce System Timed PropTimed Jitter PropJitter PropHands CustomSystem CustomTime PropAnyTime.
From Verif Require Import PropAnyHands PropRollTime.
Import ListNotations.

(** ** Specification, scan by scan *)
(** A key held for [j] readings after it was accepted has been repeated so often. *)
Definition repeats (j : nat) : nat := if j <? 525 then 0 else S ((j - 525) / 66).

(** The key struck last and the scans since its stroke began; [None] once it is up. *)
Definition lively : Type := option (nat * (nat * nat)).
Definition aged (l : nat) (w : lively) : lively := match w with Some (u, p) => Some (u + l, p) | None => None end.
Definition within (l : nat) (w : lively) : Prop := forall u p, w = Some (u, p) -> u + l <= 525.
Definition lifted (r c l : nat) (w : lively) : lively :=
  match w with Some (u, (r', c')) => if (r' =? r) && (c' =? c) then None else Some (u + l, (r', c')) | None => None end.

(** As [rolls]; besides, the key struck last may be held for any number of scans
    until it is lifted, and once it is up the others may stay down for any number
    of scans.  Each entry of the output is a character with the least and the
    greatest number of times it is typed. *)
Inductive plays (R C : nat) (kbs : N -> option (list setup_cmd)) :
  (nat -> nat -> bool) -> setting -> lively -> list (nat -> N) -> list (N * nat * nat) -> (nat -> nat -> bool) -> setting -> Prop :=
| pl_done : forall H e w, plays R C kbs H e w [] [] H e
| pl_wait : forall H e w rd rds out H' e', reads R C H rd -> within 1 w ->
    plays R C kbs H e (aged 1 w) rds out H' e' -> plays R C kbs H e w (rd :: rds) out H' e'
| pl_mode : forall H e w r c bs l rds out H' e', r < R -> c < C -> mode_key kbs r c -> plain_code (code_in kbs e r c) ->
    ~ typing R C kbs e H -> contact R C H r c bs l -> settles (negb (H r c)) bs ->
    plays R C kbs (set2 H r c (negb (H r c))) (after_event kbs e (r, c, negb (H r c))) None rds out H' e' ->
    plays R C kbs H e w (l ++ rds) out H' e'
| pl_press : forall H e w r c bs l rds out H' e', r < R -> c < C -> H r c = false -> (code_in kbs e r c < 0xA0)%N ->
    (forall r' c', r' < R -> c' < C -> H r' c' = true -> code_in kbs e r' c' <> code_in kbs e r c) ->
    contact R C H r c bs l -> settles true bs -> within (length l) w -> length l <= 525 ->
    plays R C kbs (set2 H r c true) e (Some (length l, (r, c))) rds out H' e' ->
    plays R C kbs H e w (l ++ rds) ((code_in kbs e r c, 1, 1) :: out) H' e'
| pl_lift : forall H e w r c bs l rds out H' e', r < R -> c < C -> H r c = true -> (code_in kbs e r c < 0xA0)%N ->
    contact R C H r c bs l -> settles false bs -> within (length l) w -> length l <= 525 ->
    plays R C kbs (set2 H r c false) e (lifted r c (length l) w) rds out H' e' ->
    plays R C kbs H e w (l ++ rds) out H' e'
| pl_hold : forall H e u r c mid bs l rds out H' e', Forall (reads R C H) mid -> contact R C H r c bs l -> settles false bs ->
    plays R C kbs (set2 H r c false) e None rds out H' e' ->
    plays R C kbs H e (Some (u, (r, c))) (mid ++ l ++ rds)
      ((code_in kbs e r c, repeats (length mid), repeats (u + length mid + length l)) :: out) H' e'
| pl_holding : forall H e u r c mid, Forall (reads R C H) mid ->
    plays R C kbs H e (Some (u, (r, c))) mid [(code_in kbs e r c, repeats (length mid), repeats (u + length mid))] H e.

(** A text that keeps to these numbers. *)
Inductive spells : list (N * nat * nat) -> list N -> Prop :=
| sp_nil : spells [] []
| sp_cons : forall x lo hi k out l, lo <= k <= hi -> spells out l -> spells ((x, lo, hi) :: out) (repeat x k ++ l).

(** ** Proofs *)
(** Repeats after [j] readings when the counter stands at [n]. *)
Definition reps (n j : nat) : nat := if j <? n then 0 else S ((j - n) / 66).
Lemma reps_525 : forall j, reps 525 j = repeats j.
Proof. reflexivity. Qed.
Lemma reps_0 : forall n, 1 <= n -> reps n 0 = 0.
Proof. intros n Hn. unfold reps. destruct (Nat.ltb_spec 0 n); [reflexivity|lia]. Qed.
Lemma reps_last : forall j, reps 1 (S j) = S (reps 66 j).
Proof.
  intros j. unfold reps. destruct (Nat.ltb_spec (S j) 1); [lia|]. f_equal. replace (S j - 1) with j by lia.
  destruct (Nat.ltb_spec j 66) as [L|L]; [apply Nat.div_small; exact L|].
  replace j with (j - 66 + 1 * 66) at 1 by lia. rewrite Nat.div_add by lia. lia.
Qed.
Lemma reps_step : forall n j, 2 <= n -> reps n (S j) = reps (n - 1) j.
Proof.
  intros n j Hn. unfold reps. destruct (Nat.ltb_spec (S j) n), (Nat.ltb_spec j (n - 1)); lia.
Qed.
Lemma reps_le : forall n j n' j', j + n' <= j' + n -> reps n j <= reps n' j'.
Proof.
  intros n j n' j' H1. unfold reps. destruct (Nat.ltb_spec j n) as [|L]; [lia|]. destruct (Nat.ltb_spec j' n') as [L'|L']; [lia|].
  apply le_n_S. apply Nat.div_le_mono; lia.
Qed.

Lemma moved_left : forall kbs t v, (t_left t <= 525)%N -> (t_left (PropExact.moved kbs t v) <= 525)%N.
Proof.
  intros kbs t [[r c] m] HL. cbn [PropExact.moved]. generalize (code_in kbs (t_set t) r c). intros x.
  assert (P : forall id t, t_left (prints kbs id t) = t_left t) by (intros id t0; unfold prints; destruct (kbs _); reflexivity).
  assert (FD : forall f a, (first_delay f a <= 525)%N) by (intros [] []; cbn; lia).
  assert (Y : forall x t, (t_left t <= 525)%N -> (t_left (types x t) <= 525)%N).
  { intros x0 t0 L. unfold types. destruct (_ =? _)%N; cbn [t_left]; auto. }
  destruct m.
  - unfold on_press. destruct (x <=? 0xA0)%N; [apply Y; exact HL|]. destruct (decode x); cbn [moves_to t_left]; try exact HL; try (rewrite P; exact HL).
    + destruct (_ || _); cbn [beats t_left]; lia.
    + cbn [beats t_left]. destruct (t_fast t); lia.
    + match goal with |- context [if ?b then _ else _] => destruct b end; [rewrite P|]; exact HL.
  - unfold on_release. destruct (x <=? 0xA0)%N; [destruct (x =? _)%N; exact HL|]. destruct (decode x); cbn [moves_to t_left]; try exact HL.
    + cbn [beats t_left]. apply FD.
    + cbn [beats t_left]. destruct (t_fast t); lia.
  - unfold on_held. destruct (_ && _); [|exact HL]. destruct (_ =? 1)%N; [apply Y|]; cbn [beats t_left]; lia.
Qed.
Lemma folded_left : forall kbs l t, (t_left t <= 525)%N -> (t_left (fold_left (PropExact.moved kbs) l t) <= 525)%N.
Proof. intros kbs l. induction l as [|v l IH]; intros t HL; [exact HL|]. cbn [fold_left]. apply IH. apply moved_left. exact HL. Qed.
Lemma starts_left : forall kbs t, t_left (scan_starts kbs t) = t_left t.
Proof.
  intros kbs t. unfold scan_starts, prints, sends_one. repeat match goal with |- context [match ?b with _ => _ end] => destruct b; cbn [t_left] end; reflexivity.
Qed.
Lemma scans_left : forall kbs R C l pre t, (t_left t <= 525)%N -> (t_left (scans kbs R C pre l t) <= 525)%N.
Proof.
  intros kbs R C l. induction l as [|rd l IH]; intros pre t HL; [exact HL|]. cbn [scans]. apply IH. apply folded_left. rewrite starts_left. exact HL.
Qed.

Section Scan.
Variable R C : nat.
Variable kbs : N -> option (list setup_cmd).
Hypothesis quiet : scan_hook_free kbs.
Notation moved := (PropExact.moved kbs).
Notation scans := (scans kbs R C).
Notation stands := (PropAnyHands.stands R C).
Notation stands_but := (PropAnyHands.stands_but R C).
Notation good := (good R C kbs).
Notation apart := (apart R C kbs).

Lemma else_fold : forall e last (f : nat * nat -> list (nat * nat * move)) ks,
  (forall p, In p ks -> still kbs e last (f p) \/ f p = [(fst p, snd p, Held)] /\ code_in kbs e (fst p) (snd p) <> last) ->
  still kbs e last (flat_map f ks).
Proof.
  intros e last f ks HF. induction ks as [|p ks IH]; intros n q o; cbn [flat_map]; [reflexivity|]. rewrite fold_left_app.
  replace (fold_left moved (f p) (mkTy e last false true n q [] o)) with (mkTy e last false true n q [] o).
  - apply IH. intros p' I. apply HF. right. exact I.
  - destruct (HF p (or_introl eq_refl)) as [HS|[-> NE]]; [symmetry; apply HS|]. cbn [fold_left PropExact.moved t_set]. unfold on_held. cbn [t_last].
    replace (code_in kbs e (fst p) (snd p) =? last)%N with false by lia. reflexivity.
Qed.

(** The keys besides (r, c) do nothing if none of them carries the code [last]. *)
Lemma else_still : forall pre rd H r c d b e last ks, stands_but pre H r c d -> reads R C (set2 H r c b) rd ->
  (forall r' c', r' < R -> c' < C -> (r', c') <> (r, c) -> H r' c' = true -> code_in kbs e r' c' <> last) ->
  (forall p, In p ks -> fst p < R /\ snd p < C /\ p <> (r, c)) ->
  still kbs e last (flat_map (fun p => key_moves pre rd (fst p) (snd p)) ks).
Proof.
  intros pre rd H r c d b e last ks D HR HU HK. apply else_fold. intros [r' c'] I. destruct (HK _ I) as (Hr'&Hc'&NE). cbn [fst snd] in *.
  destruct (others_calm R C kbs pre rd H r c d b (H r c) e last r' c' D HR Hr' Hc' NE) as [X|[X Y]]; [left; exact X|right].
  split; [exact X|]. apply HU; auto. rewrite set_same in Y by reflexivity. exact Y.
Qed.

(** A scan of the key held, which keeps its accepted state. *)
Lemma held_scan : forall pre rd H r c k b e n q o, stands_but pre H r c (true, k) -> r < R -> c < C -> reads R C (set2 H r c b) rd ->
  fst (db (true, k) b) = true ->
  (forall r' c', r' < R -> c' < C -> (r', c') <> (r, c) -> H r' c' = true -> code_in kbs e r' c' <> code_in kbs e r c) ->
  kbs (e_kb e) <> None -> short (code_in kbs e r c) q -> (1 <= n)%N ->
  fold_left moved (scan_moves R C pre rd) (scan_starts kbs (mkTy e (code_in kbs e r c) false true n q [] o)) =
    mkTy e (code_in kbs e r c) false true (if b then if (n =? 1)%N then 66%N else (n - 1)%N else n)
      (if b && (n =? 1)%N then [code_in kbs e r c] else []) [] (o ++ q).
Proof.
  intros pre rd H r c k b e n q o D Hr Hc HR HB HU V HQ HN. set (x := code_in kbs e r c) in *.
  rewrite (starts_short kbs quiet), (scan_grid R C) by auto.
  destruct (grid_at R C r c Hr Hc) as (l1&l2&EG&_&_&HI). rewrite EG, flat_map_app, fold_left_app.
  rewrite (else_still pre rd H r c _ b e x l1 D HR HU (fun p I => HI p (or_introl I))). cbn [flat_map fst snd]. rewrite fold_left_app.
  replace (key_moves pre rd r c) with (if b then [(r, c, Held)] else []).
  2:{ rewrite moves_target, (proj2 D), (reads_key R C H r c b rd HR Hr Hc). unfold target. rewrite HB. destruct b; reflexivity. }
  replace (fold_left moved (if b then [(r, c, Held)] else []) _) with
    (mkTy e x false true (if b then if (n =? 1)%N then 66%N else (n - 1)%N else n) (if b && (n =? 1)%N then [x] else []) [] (o ++ q)).
  2:{ destruct b; cbn [fold_left andb]; [|reflexivity]. cbn [PropExact.moved t_set]. fold x. unfold on_held, types, beats. cbn [t_set t_last t_fast t_auto t_left t_keys t_msgs t_out].
      rewrite N.eqb_refl. replace (0 <? n)%N with true by lia. cbn [andb]. destruct (n =? 1)%N; cbn [t_set t_last t_fast t_auto t_left t_keys t_msgs t_out].
      - reflexivity.
      - reflexivity. }
  apply (else_still pre rd H r c _ b e x l2 D HR HU (fun p I => HI p (or_intror I))).
Qed.

(** The key held, its contact bouncing or not. *)
Lemma hold_bounce : forall bs l pre H r c k e n q o, stands_but pre H r c (true, k) -> r < R -> c < C ->
  (forall r' c', r' < R -> c' < C -> (r', c') <> (r, c) -> H r' c' = true -> code_in kbs e r' c' <> code_in kbs e r c) ->
  kbs (e_kb e) <> None -> (code_in kbs e r c < 0xA0)%N -> contact R C H r c bs l -> (N.of_nat (times false bs) < k)%N ->
  short (code_in kbs e r c) q -> (1 <= n)%N ->
  exists n' q' o', scans pre l (mkTy e (code_in kbs e r c) false true n q [] o) = mkTy e (code_in kbs e r c) false true n' q' [] o' /\
    o' ++ q' = o ++ q ++ repeat (code_in kbs e r c) (reps (N.to_nat n) (times true bs)) /\ short (code_in kbs e r c) q' /\ (1 <= n')%N /\
    stands_but (pre ++ l) H r c (true, (k - N.of_nat (times false bs))%N).
Proof.
  induction bs as [|b bs IH]; intros l pre H r c k e n q o D Hr Hc HU V HX HC HK HQ HN; inv HC; cbn [PropExact.scans].
  - exists n, q, o. change (times true []) with 0. rewrite reps_0 by lia. cbn [repeat]. rewrite !app_nil_r, N.sub_0_r. auto 6.
  - rename y into rd, l' into l, H2 into HR, H4 into HC. rewrite times_cons in HK. rewrite (times_cons true), (times_cons false).
    assert (DB : db (true, k) b = (true, (k - N.of_nat (if Bool.eqb false b then 1 else 0))%N)).
    { unfold db. cbn [fst snd]. destruct b; cbn [Bool.eqb] in *; [rewrite N.sub_0_r; reflexivity|]. replace (k =? 1)%N with false by lia. reflexivity. }
    rewrite (held_scan pre rd H r c k b e n q o D Hr Hc HR) by (auto; rewrite DB; reflexivity).
    pose proof (but_step R C pre H r c _ b rd D HR Hr Hc) as D1. rewrite DB in D1.
    destruct (IH l (pre ++ [rd]) H r c _ e (if b then if (n =? 1)%N then 66%N else (n - 1)%N else n)
      (if b && (n =? 1)%N then [code_in kbs e r c] else []) (o ++ q) D1 Hr Hc HU V HX HC) as (n'&q'&o'&Y1&Y2&Y3&Y4&Y5).
    + lia.
    + destruct (b && (n =? 1)%N); [right; auto|left; reflexivity].
    + destruct b; [destruct (N.eqb_spec n 1); lia|exact HN].
    + exists n', q', o'. split; [exact Y1|]. split; [|split; [exact Y3|split; [exact Y4|]]].
      * rewrite Y2, <- !app_assoc. do 2 f_equal. destruct b; cbn [andb Bool.eqb].
        -- destruct (N.eqb_spec n 1) as [-> |NE].
           ++ change (N.to_nat 1) with 1. change (N.to_nat 66) with 66. change (1 + times true bs) with (S (times true bs)). rewrite reps_last. reflexivity.
           ++ change (1 + times true bs) with (S (times true bs)). rewrite (reps_step (N.to_nat n)) by lia. rewrite N2Nat.inj_sub. reflexivity.
        -- reflexivity.
      * rewrite <- app_assoc in Y5. cbn [app] in Y5.
        replace (k - N.of_nat ((if Bool.eqb false b then 1 else 0) + times false bs))%N
          with (k - N.of_nat (if Bool.eqb false b then 1 else 0) - N.of_nat (times false bs))%N by lia. exact Y5.
Qed.

(** The scan in which the key struck last is accepted as released. *)
Lemma end_scan : forall pre rd H r c e n q o, stands_but pre H r c (true, 1%N) -> r < R -> c < C -> reads R C (set2 H r c false) rd ->
  (forall r' c', r' < R -> c' < C -> (r', c') <> (r, c) -> H r' c' = true ->
     code_in kbs e r' c' <> code_in kbs e r c /\ code_in kbs e r' c' <> 0xA0%N) ->
  kbs (e_kb e) <> None -> short (code_in kbs e r c) q -> (code_in kbs e r c < 0xA0)%N ->
  fold_left moved (scan_moves R C pre rd) (scan_starts kbs (mkTy e (code_in kbs e r c) false true n q [] o)) =
    mkTy e 0xA0 false true n [] [] (o ++ q).
Proof.
  intros pre rd H r c e n q o D Hr Hc HR HU V HQ HX. set (x := code_in kbs e r c) in *.
  rewrite (starts_short kbs quiet), (scan_grid R C) by auto.
  destruct (grid_at R C r c Hr Hc) as (l1&l2&EG&_&_&HI). rewrite EG, flat_map_app, fold_left_app.
  rewrite (else_still pre rd H r c _ false e x l1 D HR) by (try exact (fun p I => HI p (or_introl I)); intros; apply HU; auto).
  cbn [flat_map fst snd]. rewrite fold_left_app.
  replace (key_moves pre rd r c) with [(r, c, Release)].
  2:{ rewrite moves_target, (proj2 D), (reads_key R C H r c false rd HR Hr Hc). reflexivity. }
  replace (fold_left moved [(r, c, Release)] _) with (mkTy e 0xA0 false true n [] [] (o ++ q)).
  2:{ cbn [fold_left PropExact.moved t_set]. fold x. unfold on_release. cbn [t_set t_last t_fast t_auto t_left t_keys t_msgs t_out].
      replace (x <=? 0xA0)%N with true by lia. rewrite N.eqb_refl. reflexivity. }
  apply (else_still pre rd H r c _ false e 0xA0%N l2 D HR); [intros; apply HU; auto|exact (fun p I => HI p (or_intror I))].
Qed.

Lemma steady_contact : forall H r c mid, H r c = true -> Forall (reads R C H) mid -> contact R C H r c (repeat true (length mid)) mid.
Proof.
  intros H r c mid HH HF. induction HF as [|rd mid HR HF IH]; [constructor|]. cbn [length repeat]. constructor; [|exact IH].
  intros r' c' Hr Hc. rewrite set_same by exact HH. apply HR; auto.
Qed.
Lemma steady_times : forall m b, times b (repeat true m) = if b then m else 0.
Proof. intros m b. induction m as [|m IH]; [destruct b; reflexivity|]. cbn [repeat]. rewrite times_cons, IH. destruct b; reflexivity. Qed.
Lemma times_le : forall b l, times b l <= length l.
Proof. intros b l. induction l as [|y l IH]; [reflexivity|]. rewrite times_cons. cbn [length]. destruct (Bool.eqb b y); lia. Qed.

(** The key struck last: held, then lifted. *)
Lemma hold_lift : forall pre H r c mid bs l e n q o, stands pre H -> good e H -> apart e H -> r < R -> c < C -> H r c = true ->
  kbs (e_kb e) <> None -> (code_in kbs e r c < 0xA0)%N -> Forall (reads R C H) mid -> contact R C H r c bs l -> settles false bs ->
  short (code_in kbs e r c) q -> (1 <= n)%N ->
  exists n' m, scans pre (mid ++ l) (mkTy e (code_in kbs e r c) false true n q [] o) =
      mkTy e 0xA0 false true n' [] [] (o ++ q ++ repeat (code_in kbs e r c) m) /\
    reps (N.to_nat n) (length mid) <= m <= reps (N.to_nat n) (length mid + length l) /\ stands (pre ++ mid ++ l) (set2 H r c false).
Proof.
  intros pre H r c mid bs l e n q o D HG HA Hr Hc HH V HX HM HC [S1 S2] HQ HN.
  assert (HU : forall r' c', r' < R -> c' < C -> (r', c') <> (r, c) -> H r' c' = true ->
     code_in kbs e r' c' <> code_in kbs e r c /\ code_in kbs e r' c' <> 0xA0%N).
  { intros r' c' Hr' Hc' NE X. split.
    - intros E. apply NE. symmetry. apply HA; auto.
    - destruct (HG r' c' Hr' Hc' X) as [M|M]; [specialize (M _ V)|]; lia. }
  destruct (stands_at R C _ _ _ _ D Hr Hc) as (k&K&D0). rewrite HH in D0.
  destruct (times_split false (N.to_nat k) bs ltac:(lia) ltac:(lia)) as (a&b&->&TA). cbn [negb] in *.
  rewrite times_app, times_cons in S2. cbn [Bool.eqb] in S2.
  destruct (contact_app R C _ _ _ _ _ _ HC) as (l1&l2&->&C1&C2). inv C2. rename l' into l3, y into rd, H2 into G1, H4 into G2.
  assert (CM : contact R C H r c (repeat true (length mid) ++ a) (mid ++ l1)).
  { apply Forall2_app; [apply steady_contact; auto|exact C1]. }
  destruct (hold_bounce _ _ pre H r c k e n q o D0 Hr Hc (fun r' c' A1 A2 A3 A4 => proj1 (HU r' c' A1 A2 A3 A4)) V HX CM) as (n1&q1&o1&X1&X2&X3&X4&X5); [|exact HQ|exact HN|].
  { rewrite times_app, steady_times, TA. lia. }
  rewrite !times_app, !steady_times, TA in *. cbn [plus] in X5. replace (k - N.of_nat (N.to_nat k - 1))%N with 1%N in X5 by lia.
  rewrite app_assoc, scans_app, X1. cbn [PropExact.scans]. rewrite (end_scan _ rd H r c e n1 q1 o1 X5 Hr Hc G1 HU V X3 HX).
  pose proof (but_step R C _ _ _ _ _ _ _ X5 G1 Hr Hc) as D1. change (db (true, 1%N) false) with (false, 10%N) in D1.
  assert (HG0 : good e (set2 H r c false)) by (apply (good_less R C kbs e H); [apply set_off|exact HG]).
  assert (HA0 : apart e (set2 H r c false)) by (apply (apart_less R C kbs e H); [apply set_off|exact HA]).
  destruct (calm_bounce R C kbs quiet b l3 _ H r c false 10%N e 0xA0%N n1 [] (o1 ++ q1) D1 Hr Hc HG0 HA0 ltac:(lia) V G2) as (n3&q2&o2&Y1&Y2&Y3&Y4&Y5&Y6).
  { cbn [negb]. lia. }
  { left. reflexivity. }
  { lia. }
  assert (q2 = [] /\ o2 = o1 ++ q1) as [-> ->].
  { destruct b; [inv G2; cbn [PropExact.scans] in Y1; inv Y1; auto|]. rewrite (Y3 ltac:(discriminate)) in *. rewrite !app_nil_r in Y2. auto. }
  exists n3, (reps (N.to_nat n) (length mid + times true a)). split; [rewrite Y1, X2; reflexivity|]. split.
  - pose proof (times_le true a). pose proof (contact_length R C _ _ _ _ _ C1) as LA. rewrite !app_length. cbn [length].
    split; apply reps_le; lia.
  - rewrite <- !app_assoc in Y6. cbn [app] in Y6. rewrite <- ?app_assoc in *. exact (stands_on R C _ _ _ _ _ _ Y6 Hr Hc).
Qed.

(** Between steps. *)
Definition rest (pre : list (nat -> N)) (H : nat -> nat -> bool) (e : setting) (w : lively) (last n : N) (q : list N) : Prop :=
  at_rest R C kbs pre H e (match w with Some (u, _) => u | None => 0 end) last n q /\ (n <= 525)%N /\
  match w with
  | None => last = 0xA0%N /\ q = []
  | Some (u, (r, c)) => r < R /\ c < C /\ H r c = true /\ last = code_in kbs e r c /\ (last < 0xA0)%N /\ u <= 525
  end.

Lemma rest_short : forall pre H e w last n q, rest pre H e w last n q -> short last q.
Proof.
  intros pre H e w last n q [(_&_&_&_&HL) _]. destruct HL as [[_ ->]|(L&_&_&[-> | ->])]; [left; auto|left; auto|right; auto].
Qed.

Lemma plays_scans : forall H e w rds out H' e', plays R C kbs H e w rds out H' e' ->
  forall pre last n q o, rest pre H e w last n q ->
  exists last' n' q' o' text, scans pre rds (mkTy e last false true n q [] o) = mkTy e' last' false true n' q' [] o' /\
    spells out text /\ o' ++ q' = o ++ q ++ text /\ stands (pre ++ rds) H' /\ kbs (e_kb e') <> None /\ short last' q' /\
    (~ typing R C kbs e' H' -> rest (pre ++ rds) H' e' None last' n' q').
Proof.
  intros H e w rds out H' e' HS.
  induction HS as [H e w|H e w rd rds out H' e' HR HB HS IH|H e w r c bs l rds out H' e' Hr Hc HM HP HT HC HB HS IH
                  |H e w r c bs l rds out H' e' Hr Hc HH HX HU HC HB HT HL HS IH
                  |H e w r c bs l rds out H' e' Hr Hc HH HX HC HB HT HL HS IH
                  |H e u r c mid bs l rds out H' e' HM HC HB HS IH|H e u r c mid HM]; intros pre last n q o HI.
  - exists last, n, q, o, []. rewrite !app_nil_r. split; [reflexivity|]. split; [constructor|]. split; [reflexivity|].
    destruct HI as [HI HW]. pose proof (rest_short pre H e w last n q (conj HI HW)) as SH. destruct HI as (D&HG&HA&V&HL). split; [exact D|].
    split; [exact V|]. split; [exact SH|]. intros HT.
    assert (last = 0xA0%N /\ q = []) as [-> ->].
    { destruct HL as [HL|(L&(r'&c'&Hr'&Hc'&X&E)&_)]; [exact HL|]. contradiction HT. exists r', c'. repeat split; auto. lia. }
    split; [|split; [apply HW|auto]]. split; [exact D|]. split; [exact HG|]. split; [exact HA|]. split; [exact V|left; auto].
  - pose proof (rest_short _ _ _ _ _ _ _ HI) as SH. destruct HI as ((D&HG&HA&V&HL)&HN&HW). cbn [PropExact.scans].
    assert (LE : (last <= 0xA0)%N) by (destruct HL as [[-> _]|[L _]]; lia).
    assert (TY : (last < 0xA0)%N -> exists u p, w = Some (u, p) /\ S u <= 525 /\ (526 <= n + N.of_nat u)%N).
    { intros L. destruct w as [[u p]|]; [|destruct HW; lia]. exists u, p. split; [reflexivity|]. specialize (HB u p eq_refl).
      destruct HL as [[-> _]|(_&_&B&_)]; lia. }
    destruct (calm_scan R C kbs quiet pre rd H e last n q o HG HA LE V) as (n1&X1&X2).
    { intros r c Hr Hc. destruct (calm_stand pre rd H r c) as [X|X]; [apply D; auto|apply HR; auto|left; rewrite X; apply still_nil|right; exact X]. }
    { exact SH. }
    { intros L. destruct (TY L) as (u&p&_&?&?). lia. }
    rewrite X1. destruct (IH (pre ++ [rd]) last n1 [] (o ++ q)) as (last'&n'&q'&o'&text&Y1&Y2&Y3&Y4&Y5).
    + split; [split; [|split; [exact HG|split; [exact HA|split; [exact V|]]]]|].
      * intros r c Hr Hc. rewrite key_snoc, (HR r c Hr Hc), db_stays; apply D; auto.
      * destruct HL as [[-> _]|(L&W&B&_)]; [left; auto|right]. split; [exact L|]. split; [exact W|]. split; [|auto].
        destruct (TY L) as (u&p&->&_&B'). cbn [aged]. lia.
      * split; [lia|]. destruct w as [[u [r c]]|]; cbn [aged]; [|destruct HW; auto].
        destruct HW as (W1&W2&W3&W4&W5&_). repeat split; auto. rewrite Nat.add_comm. specialize (HB u (r, c) eq_refl). lia.
    + exists last', n', q', o', text. split; [exact Y1|]. split; [exact Y2|]. split; [rewrite Y3, <- app_assoc; reflexivity|]. rewrite <- app_assoc in Y4, Y5. exact (conj Y4 Y5).
  - destruct HI as ((D&HG&HA&V&HL)&HN&HW).
    assert (M : modes_only R C kbs H).
    { intros r' c' Hr' Hc' X. destruct (HG r' c' Hr' Hc' X) as [Y|Y]; [exact Y|]. contradiction HT. exists r', c'. auto. }
    assert (last = 0xA0%N /\ q = []) as [-> ->].
    { destruct HL as [HL|(L&(r'&c'&Hr'&Hc'&X&E)&_)]; [exact HL|]. contradiction HT. exists r', c'. repeat split; auto. lia. }
    destruct (mode_bounce R C kbs quiet pre H r c bs l e n o D M Hr Hc HM HP HC HB V) as [X1 X2].
    assert (M' : modes_only R C kbs (set2 H r c (negb (H r c)))).
    { intros r' c' Hr' Hc'. unfold set2. destruct (Nat.eqb_spec r' r), (Nat.eqb_spec c' c); cbn [andb]; auto. subst. auto. }
    assert (V' : kbs (e_kb (after_event kbs e (r, c, negb (H r c)))) <> None).
    { destruct (H r c); cbn [negb after_event]; auto using press_valid, release_valid. }
    destruct (IH (pre ++ l) 0xA0%N n [] o) as (last'&n'&q'&o'&text&Y1&Y2&Y3&Y4&Y5).
    + split; [split; [exact X2|split; [|split; [|split; [exact V'|left; auto]]]]|split; [exact HN|auto]].
      * intros r' c' Hr' Hc' X. left. apply M'; auto.
      * intros r1 c1 r2 c2 Hr1 Hc1 Z1 Hr2 Hc2 Z2 L _. specialize (M' r1 c1 Hr1 Hc1 Z1 _ V'). lia.
    + exists last', n', q', o', text. rewrite scans_app, X1. rewrite <- app_assoc in Y4, Y5. exact (conj Y1 (conj Y2 (conj Y3 (conj Y4 Y5)))).
  - destruct HI as (HI&HN&HW).
    destruct (press_bounce R C kbs quiet pre H e _ r c bs l last n q o HI Hr Hc HH HX HU HC HB) as (n1&q1&o1&X1&X2&X3).
    { intros _. destruct w as [[u p]|]; [exact (HT u p eq_refl)|exact HL]. }
    { exact HL. }
    pose proof (scans_left kbs R C l pre (mkTy e last false true n q [] o) HN) as N1. rewrite X1 in N1. cbn [t_left] in N1.
    destruct (IH (pre ++ l) (code_in kbs e r c) n1 q1 o1) as (last'&n'&q'&o'&text&Y1&Y2&Y3&Y4&Y5).
    + split; [exact X3|]. split; [exact N1|]. repeat split; auto. apply set2_same.
    + exists last', n', q', o', (repeat (code_in kbs e r c) 1 ++ text). rewrite scans_app, X1. split; [exact Y1|].
      split; [constructor; [lia|exact Y2]|]. rewrite <- app_assoc in Y4, Y5. split; [|exact (conj Y4 Y5)].
      rewrite Y3, app_assoc, X2, <- !app_assoc. reflexivity.
  - destruct HI as (HI&HN&HW). pose proof HI as (_&_&HA&_&_).
    destruct (lift_bounce R C kbs quiet pre H e _ r c bs l last n q o HI Hr Hc HH HX HC HB) as (last1&n1&X1&X2&X3).
    { destruct w as [[u p]|]; [exact (HT u p eq_refl)|exact HL]. }
    pose proof (scans_left kbs R C l pre (mkTy e last false true n q [] o) HN) as N1. rewrite X1 in N1. cbn [t_left] in N1.
    destruct (IH (pre ++ l) last1 n1 [] (o ++ q)) as (last'&n'&q'&o'&text&Y1&Y2&Y3&Y4&Y5).
    + destruct X3 as (D&HG'&HA'&V'&HL'). assert (ZA : last1 = 0xA0%N -> rest (pre ++ l) (set2 H r c false) e None last1 n1 []).
      { intros ->. split; [|auto]. split; [exact D|]. split; [exact HG'|]. split; [exact HA'|]. split; [exact V'|left; auto]. }
      unfold lifted. destruct w as [[u [r' c']]|].
      * destruct HW as (Hr'&Hc'&HH'&->&L&_). destruct X2 as [[X2 ->]|[X2 ->]].
        -- assert (E : (r, c) = (r', c')) by (apply HA; auto). inv E. rewrite !Nat.eqb_refl. cbn [andb]. apply ZA. reflexivity.
        -- assert (NE : (r' =? r) && (c' =? c) = false).
           { destruct (Nat.eqb_spec r' r), (Nat.eqb_spec c' c); cbn [andb]; auto. subst. contradiction X2. reflexivity. }
           rewrite NE. split; [split; [exact D|split; [exact HG'|split; [exact HA'|split; [exact V'|exact HL']]]]|]. split; [exact N1|].
           repeat split; auto; [unfold set2; rewrite NE; exact HH'|]. exact (HT u _ eq_refl).
      * destruct HW as [-> ->]. apply ZA. destruct X2 as [[_ X2]|[_ X2]]; exact X2.
    + exists last', n', q', o', text. rewrite scans_app, X1. split; [exact Y1|]. split; [exact Y2|]. rewrite <- app_assoc in Y4, Y5. split; [|exact (conj Y4 Y5)].
      rewrite Y3, <- app_assoc. reflexivity.
  - pose proof (rest_short _ _ _ _ _ _ _ HI) as SH. destruct HI as ((D&HG&HA&V&HL)&HN&(Hr&Hc&HH&->&L&U)).
    assert (B : (526 <= n + N.of_nat u)%N) by (destruct HL as [[E _]|(_&_&B&_)]; [lia|exact B]).
    destruct (hold_lift pre H r c mid bs l e n q o D HG HA Hr Hc HH V L HM HC HB SH ltac:(lia)) as (n1&m&X1&X2&X3).
    pose proof (scans_left kbs R C (mid ++ l) pre (mkTy e (code_in kbs e r c) false true n q [] o) HN) as N1. rewrite X1 in N1. cbn [t_left] in N1.
    destruct (IH (pre ++ mid ++ l) 0xA0%N n1 [] (o ++ q ++ repeat (code_in kbs e r c) m)) as (last'&n'&q'&o'&text&Y1&Y2&Y3&Y4&Y5).
    + split; [split; [exact X3|]|auto]. split; [apply (good_less R C kbs e H); [apply set_off|exact HG]|].
      split; [apply (apart_less R C kbs e H); [apply set_off|exact HA]|]. split; [exact V|left; auto].
    + exists last', n', q', o', (repeat (code_in kbs e r c) m ++ text). rewrite (app_assoc mid l rds), scans_app, X1. split; [exact Y1|].
      split; [constructor; [|exact Y2]|].
      { rewrite <- !reps_525. split; [transitivity (reps (N.to_nat n) (length mid)); [apply reps_le; lia|apply X2]|].
        transitivity (reps (N.to_nat n) (length mid + length l)); [apply X2|apply reps_le; lia]. }
      split; [rewrite Y3; cbn [app]; rewrite <- !app_assoc; reflexivity|]. rewrite <- !app_assoc in *. exact (conj Y4 Y5).
  - pose proof (rest_short _ _ _ _ _ _ _ HI) as SH. destruct HI as ((D&HG&HA&V&HL)&HN&(Hr&Hc&HH&->&L&U)).
    assert (B : (526 <= n + N.of_nat u)%N) by (destruct HL as [[E _]|(_&_&B&_)]; [lia|exact B]).
    destruct (stands_at R C _ _ _ _ D Hr Hc) as (k&K&D0). rewrite HH in D0.
    destruct (hold_bounce (repeat true (length mid)) mid pre H r c k e n q o D0 Hr Hc) as (n1&q1&o1&X1&X2&X3&X4&X5); auto.
    { intros r' c' Hr' Hc' NE X E. apply NE. symmetry. apply HA; auto. }
    { apply steady_contact; auto. }
    { rewrite steady_times. lia. }
    { lia. }
    rewrite steady_times in X2. exists (code_in kbs e r c), n1, q1, o1, (repeat (code_in kbs e r c) (reps (N.to_nat n) (length mid)) ++ []).
    split; [exact X1|]. split; [constructor; [rewrite <- !reps_525; split; apply reps_le; lia|constructor]|]. split; [rewrite app_nil_r; exact X2|].
    split.
    { intros r' c' Hr' Hc'. rewrite <- (set_same H r c true r' c') by exact HH. exact (stands_on R C _ _ _ _ _ _ X5 Hr Hc r' c' Hr' Hc'). }
    split; [exact V|]. split; [assumption|]. intros HT. contradiction HT. exists r, c. repeat split; auto.
Qed.
End Scan.

(** ** C128 *)
(** From power-on, whatever the keymaps: at most one character is still to be
    sent, and one more scan sends it, whatever the keys do by then. *)
Theorem C128_holds : forall R C kbs rds out H e, sound_firmware R kbs -> same_size R C kbs -> scan_hook_free kbs ->
  plays R C kbs (fun _ _ => false) (at_start kbs) None rds out H e ->
  exists text, spells out text /\
  (forall s, c_run kbs rds = Ok s ->
     (exists late, text = sent s ++ late /\ length late <= 1) /\ setting_is e s /\ forall r c, r < R -> c < C -> down s r c = H r c) /\
  (forall rd s, c_run kbs (rds ++ [rd]) = Ok s -> sent s = text).
Proof.
  intros R C kbs rds out H e HS HZ HQ HE.
  destruct (plays_scans R C kbs HQ _ _ _ _ _ _ _ HE [] 0xA0%N 525%N [] []) as (last&n&q&o&text&X1&XT&X2&X3&X4&SH&_).
  { split; [|split; [lia|auto]]. split; [|split; [|split; [|split; [|left; auto]]]].
    - intros r c _ _. reflexivity.
    - intros r c _ _ X. discriminate X.
    - intros r c r' c' _ _ X. discriminate X.
    - destruct (proj1 HS) as [cs E0]. cbn. congruence. }
  cbn [app] in X2, X3. change (mkTy (at_start kbs) 0xA0 false true 525 [] [] []) with (starts kbs) in X1.
  exists text. split; [exact XT|]. split.
  - intros s ES. rewrite (C104_exact R C kbs rds s HS HZ ES). unfold output_of. rewrite X1. cbn [t_out]. split; [|split].
    + exists q. split; [symmetry; exact X2|]. destruct SH as [-> |[-> _]]; cbn; lia.
    + destruct (run_ok_g R kbs HS rds) as (g&s'&E1&T1&E2&RL). rewrite ES in E2. inv E2.
      destruct (exact_run kbs R C HS HZ rds) as [g' (E3&[IS _])]. rewrite E1 in E3. inv E3. rewrite X1 in IS. exact (set_is _ _ _ RL IS).
    + intros r c Hr Hc. rewrite <- (X3 r c Hr Hc). apply (run_dbp R kbs HS C (at_least_size kbs R C HS HZ) rds s r c ES Hr Hc).
  - intros rd s ES. rewrite (C104_exact R C kbs _ s HS HZ ES). unfold output_of. rewrite scans_app, X1. cbn [PropExact.scans].
    rewrite folded_out, (starts_short kbs HQ e last n q o X4 SH). exact X2.
Qed.
Print Assumptions C128_holds.

(** ** Specification, in continuous time *)
(** As [plays], from time [a] to time [z]; the key struck last comes with the time
    its stroke began.  As long as it is down and not held on purpose, at most half
    a second from the beginning of its stroke to the end of the next step. *)
Definition c_within (d : nat) (w : lively) : Prop := forall b p, w = Some (b, p) -> d <= b + 500.
Definition c_lifted (r c : nat) (w : lively) : lively :=
  match w with Some (b, (r', c')) => if (r' =? r) && (c' =? c) then None else w | None => None end.
Inductive c_plays (R C : nat) (kbs : N -> option (list setup_cmd)) (W : nat -> nat -> N) (G : nat) :
    nat -> (nat -> nat -> bool) -> setting -> lively -> nat -> list (N * nat * nat) -> (nat -> nat -> bool) -> setting -> Prop :=
| cp_done : forall a H e w, c_plays R C kbs W G a H e w a [] H e
| cp_wait : forall a d z H e w out H' e', c_rests R C W H a d -> c_within d w ->
    c_plays R C kbs W G d H e w z out H' e' -> c_plays R C kbs W G a H e w z out H' e'
| cp_mode : forall a d z H e w r c out H' e', r < R -> c < C -> mode_key kbs r c -> plain_code (code_in kbs e r c) ->
    ~ typing R C kbs e H -> c_moves R C W G H r c (negb (H r c)) a d ->
    c_plays R C kbs W G d (set2 H r c (negb (H r c))) (after_event kbs e (r, c, negb (H r c))) None z out H' e' ->
    c_plays R C kbs W G a H e w z out H' e'
| cp_press : forall a d z H e w r c out H' e', r < R -> c < C -> H r c = false -> (code_in kbs e r c < 0xA0)%N ->
    (forall r' c', r' < R -> c' < C -> H r' c' = true -> code_in kbs e r' c' <> code_in kbs e r c) ->
    c_moves R C W G H r c true a d -> c_within d w -> d <= a + 500 ->
    c_plays R C kbs W G d (set2 H r c true) e (Some (a, (r, c))) z out H' e' ->
    c_plays R C kbs W G a H e w z ((code_in kbs e r c, 1, 1) :: out) H' e'
| cp_lift : forall a d z H e w r c out H' e', r < R -> c < C -> H r c = true -> (code_in kbs e r c < 0xA0)%N ->
    c_moves R C W G H r c false a d -> c_within d w -> d <= a + 500 ->
    c_plays R C kbs W G d (set2 H r c false) e (c_lifted r c w) z out H' e' ->
    c_plays R C kbs W G a H e w z out H' e'
| cp_hold : forall a m d z b H e r c out H' e', r < R -> c < C ->
    c_rests R C W H a m -> c_moves R C W G H r c false m d ->
    c_plays R C kbs W G d (set2 H r c false) e None z out H' e' ->
    c_plays R C kbs W G a H e (Some (b, (r, c))) z
      ((code_in kbs e r c, repeats ((m - a) / G - 1), repeats (d - b + 2)) :: out) H' e'
| cp_holding : forall a z b H e r c, c_rests R C W H a z ->
    c_plays R C kbs W G a H e (Some (b, (r, c))) z [(code_in kbs e r c, repeats ((z - a) / G - 1), repeats (z - b + 2))] H e.

Definition looser : list (N * nat * nat) -> list (N * nat * nat) -> Prop :=
  Forall2 (fun p p' => let '(x, lo, hi) := p in let '(x', lo', hi') := p' in x = x' /\ lo' <= lo /\ hi <= hi').
Lemma spells_looser : forall out out' text, looser out out' -> spells out text -> spells out' text.
Proof.
  intros out out' text HL. revert text. induction HL as [|[[x lo] hi] [[x' lo'] hi'] out out' (->&H1&H2) HL IH]; intros text HS; inv HS; constructor; auto. lia.
Qed.
Lemma repeats_le : forall j j', j <= j' -> repeats j <= repeats j'.
Proof. intros j j' L. rewrite <- !reps_525. apply reps_le. lia. Qed.
Lemma aged_aged : forall i j w, aged i (aged j w) = aged (j + i) w.
Proof. intros i j [[u p]|]; cbn [aged]; [rewrite Nat.add_assoc|]; reflexivity. Qed.

Section Passes.
Context (R C : nat) (W : nat -> nat -> N) (G n top : nat) (E : nat -> nat) (T : nat -> nat -> nat) (Z : nat).
Hypothesis scan_in : forall i, n <= i < top -> in_order (T i) (E i) (E (S i)).
Hypothesis progress : forall i j, n <= i <= j -> j <= top -> E i + (j - i) <= E j + 1.
Hypothesis step_le : forall i, n <= i < top -> E i < Z -> E (S i) <= E i + G.
Hypothesis steps_up : forall i j, n <= i <= j -> j <= top -> E i <= E j.
Hypothesis enough : Z <= E top.
Let rd (i : nat) : nat -> N := reads_at W (T i).

Lemma p_wait_scans : forall kbs H e w p q out H' e' rest, p <= q ->
  (forall i, p <= i < q -> reads R C H (rd i)) -> within (q - p) w ->
  plays R C kbs H e (aged (q - p) w) rest out H' e' ->
  plays R C kbs H e w (map rd (seq p (q - p)) ++ rest) out H' e'.
Proof.
  intros kbs H e w p q out H' e' rest Hpq HS HT HB. remember (q - p) as l eqn:EL. revert p w EL Hpq HS HT HB.
  induction l as [|l IH]; intros p w EL Hpq HS HT HB.
  - cbn [seq map app]. replace w with (aged 0 w); [exact HB|]. destruct w as [[u k]|]; cbn [aged]; [rewrite Nat.add_0_r|]; reflexivity.
  - cbn [seq map app]. constructor; [apply HS; lia|intros u k Ew; specialize (HT u k Ew); lia|].
    apply IH; [lia|lia| | |].
    + intros i Hi. apply HS. lia.
    + intros u k Ew. destruct w as [[u' k']|]; [|discriminate Ew]. cbn [aged] in Ew. inv Ew. specialize (HT u' k eq_refl). lia.
    + rewrite aged_aged. exact HB.
Qed.
(** The scans while all keys rest. *)
Lemma rest_reads : forall H a d p q, c_rests R C W H a d -> c_settled R C W G n E H a -> n <= p <= q -> q < top -> E p <= a <= E (S p) -> d <= Z ->
  E q <= d <= E (S q) -> (forall i, p <= i < q -> E (S i) < d) -> forall i, p <= i < q -> reads R C H (rd i).
Proof.
  intros H a d p q [HL HR] HN Hp Hq HE HZ Q2 Q3 i Hi r c Hr Hc. destruct (scan_in i ltac:(lia)) as [S1 _]. specialize (S1 r). specialize (Q3 i Hi).
  pose proof (steps_up p i ltac:(lia) ltac:(lia)). pose proof (steps_up n p ltac:(lia) ltac:(lia)).
  pose proof (step_le p ltac:(lia) ltac:(lia)).
  change (reading (rd i) r c) with (reading (W (T i r)) r c).
  destruct (Nat.le_gt_cases a (T i r)); [apply HR; auto; lia|apply HN; auto; lia].
Qed.
Lemma rest_settled : forall H a d, c_rests R C W H a d -> c_settled R C W G n E H a -> c_settled R C W G n E H d.
Proof. intros H a d [HL HR] HN t H1 H2. destruct (Nat.le_gt_cases a t); [apply HR; lia|apply HN; lia]. Qed.
(** Not too few scans, not too many. *)
Lemma many_scans : forall a d p q, n <= p <= q -> q < top -> E p <= a -> E q <= d <= E (S q) -> d <= Z -> (d - a) / G - 1 <= q - p.
Proof.
  intros a d p q Hp Hq Ha Hd HZ. assert (X : forall j, p + j <= q -> E (p + j) <= E p + j * G).
  { induction j as [|j IH]; intros Hj; [rewrite Nat.add_0_r; lia|]. specialize (IH ltac:(lia)). rewrite Nat.mul_succ_l.
    destruct (Nat.lt_ge_cases (E (p + j)) Z) as [L|L].
    - pose proof (step_le (p + j) ltac:(lia) L). replace (p + S j) with (S (p + j)) by lia. lia.
    - pose proof (steps_up (p + S j) q ltac:(lia) ltac:(lia)). lia. }
  specialize (X (q - p) ltac:(lia)). replace (p + (q - p)) with q in X by lia.
  assert (Y : d <= E q + G).
  { destruct (Nat.lt_ge_cases (E q) Z) as [L|L]; [pose proof (step_le q ltac:(lia) L); lia|lia]. }
  destruct (Nat.eq_dec G 0) as [-> |NG]; [cbn; lia|].
  assert ((d - a) / G <= q - p + 1); [|lia]. apply Nat.div_le_upper_bound; [exact NG|]. replace (G * (q - p + 1)) with ((q - p) * G + G) by (clear; nia).
  clear -X Y Ha. revert X. generalize ((q - p) * G). intros; lia.
Qed.
Lemma not_many : forall p0 b q d, n <= p0 <= q -> q < top -> b <= E (S p0) -> E q <= d -> q - p0 <= d - b + 2.
Proof.
  intros p0 b q d H1 H2 H3 H4. destruct (Nat.eq_dec q p0) as [-> |NE]; [lia|].
  pose proof (progress (S p0) q ltac:(lia) ltac:(lia)). lia.
Qed.

Definition tracks (p : nat) (w w' : lively) : Prop :=
  match w, w' with
  | None, None => True
  | Some (b, k), Some (u, k') => k = k' /\ exists p0, n <= p0 <= p /\ b <= E (S p0) /\ u <= p - p0
  | _, _ => False
  end.
Lemma tracks_within : forall p q d w w', tracks p w w' -> p <= q < top -> E q <= d -> c_within d w -> within (q - p) w'.
Proof.
  intros p q d w w' HT Hq Hd HW u k ->. destruct w as [[b k']|]; [|destruct HT]. destruct HT as (_&p0&H1&H2&H3). specialize (HW b k' eq_refl).
  pose proof (not_many p0 b q d ltac:(lia) ltac:(lia) H2 Hd). lia.
Qed.
Lemma tracks_aged : forall p q w w', tracks p w w' -> p <= q -> tracks q w (aged (q - p) w').
Proof.
  intros p q w w' HT Hq. destruct w as [[b k]|], w' as [[u k']|]; cbn [aged]; try exact HT. destruct HT as (->&p0&H1&H2&H3).
  split; [reflexivity|]. exists p0. lia.
Qed.
Lemma tracks_lifted : forall p q w w' r c, tracks p w w' -> p <= q -> tracks q (c_lifted r c w) (lifted r c (q - p) w').
Proof.
  intros p q w w' r c HT Hq. destruct w as [[b [r1 c1]]|], w' as [[u [r2 c2]]|]; cbn [c_lifted lifted]; try exact HT; try (destruct HT; fail).
  destruct HT as (E0&p0&H1&H2&H3). inv E0. destruct ((r2 =? r) && (c2 =? c)); [exact I|]. split; [reflexivity|]. exists p0. lia.
Qed.

Lemma c_plays_scans : forall kbs a H e w z out H' e', c_plays R C kbs W G a H e w z out H' e' ->
  a <= z /\ forall p w', n <= p < top -> tracks p w w' -> E p <= a <= E (S p) -> c_settled R C W G n E H a -> z <= Z ->
  exists q out', p <= q < top /\ E q <= z <= E (S q) /\ looser out' out /\ plays R C kbs H e w' (map rd (seq p (q - p))) out' H' e'.
Proof.
  intros kbs a H e w z out H' e' HS. induction HS as
    [a H e w|a d z H e w out H' e' HR HT HS [IL IH]
    |a d z H e w r c out H' e' Hr Hc HM HP HT M1 HS [IL IH]
    |a d z H e w r c out H' e' Hr Hc HD HK HU M1 HT HB HS [IL IH]
    |a d z H e w r c out H' e' Hr Hc HD HK M1 HT HB HS [IL IH]
    |a m d z b H e r c out H' e' Hr Hc HR M1 HS [IL IH]
    |a z b H e r c HR].
  - split; [lia|]. intros p w' Hp _ HE _ _. exists p, []. rewrite Nat.sub_diag. split; [lia|]. split; [exact HE|]. split; constructor.
  - pose proof HR as [HL _]. split; [lia|]. intros p w' Hp HW HE HN HZ.
    destruct (c_next_scan W G n top E T Z scan_in progress step_le steps_up enough p d ltac:(lia) ltac:(lia) ltac:(lia)) as (q&Q1&Q2&Q3).
    destruct (IH q _ ltac:(lia) (tracks_aged p q _ _ HW ltac:(lia)) Q2 (rest_settled _ _ _ HR HN) HZ) as (v&out'&U1&U2&U3&U4). exists v, out'. split; [lia|]. split; [exact U2|].
    split; [exact U3|]. unfold rd. rewrite (c_rd_split W G n top E T Z scan_in progress step_le steps_up enough p q v) by lia. apply p_wait_scans; [lia| | |exact U4].
    + apply (rest_reads H a d p q); auto; lia.
    + apply (tracks_within p q d w); auto; lia.
  - pose proof M1 as [L1 _]. split; [lia|]. intros p w' Hp HW HE HN HZ.
    destruct (c_segment R C W G n top E T Z scan_in progress step_le steps_up enough H r c _ a d p Hr Hc M1 (c_settled_nearly _ _ _ _ _ _ _ _ _ _ HN) ltac:(lia) ltac:(lia) HE)
      as (q&bs&Q1&Q2&R1&S1&B1&T1).
    destruct (IH q None ltac:(lia) I Q2 T1 HZ) as (v&out'&V1&V2&V3&V4).
    exists v, out'. split; [lia|]. split; [exact V2|]. split; [exact V3|].
    unfold rd. rewrite (c_rd_split W G n top E T Z scan_in progress step_le steps_up enough p q v) by lia. apply (pl_mode R C kbs H e w' r c bs); auto.
  - pose proof M1 as [L1 _]. split; [lia|]. intros p w' Hp HW HE HN HZ.
    destruct (c_segment R C W G n top E T Z scan_in progress step_le steps_up enough H r c _ a d p Hr Hc M1 (c_settled_nearly _ _ _ _ _ _ _ _ _ _ HN) ltac:(lia) ltac:(lia) HE)
      as (q&bs&Q1&Q2&R1&S1&B1&T1).
    destruct (IH q (Some (q - p, (r, c)))) as (v&out'&V1&V2&V3&V4); [lia| |exact Q2|exact T1|exact HZ|].
    { split; [reflexivity|]. exists p. lia. }
    exists v, ((code_in kbs e r c, 1, 1) :: out'). split; [lia|]. split; [exact V2|]. split; [constructor; [lia|exact V3]|].
    unfold rd. rewrite (c_rd_split W G n top E T Z scan_in progress step_le steps_up enough p q v) by lia.
    apply (pl_press R C kbs H e w' r c bs); auto; rewrite ?map_length, ?seq_length.
    + apply (tracks_within p q d w); auto; lia.
    + pose proof (not_many p a q d ltac:(lia) ltac:(lia) ltac:(lia) ltac:(lia)). lia.
    + exact V4.
  - pose proof M1 as [L1 _]. split; [lia|]. intros p w' Hp HW HE HN HZ.
    destruct (c_segment R C W G n top E T Z scan_in progress step_le steps_up enough H r c _ a d p Hr Hc M1 (c_settled_nearly _ _ _ _ _ _ _ _ _ _ HN) ltac:(lia) ltac:(lia) HE)
      as (q&bs&Q1&Q2&R1&S1&B1&T1).
    destruct (IH q _ ltac:(lia) (tracks_lifted p q _ _ r c HW ltac:(lia)) Q2 T1 HZ) as (v&out'&V1&V2&V3&V4).
    exists v, out'. split; [lia|]. split; [exact V2|]. split; [exact V3|].
    unfold rd. rewrite (c_rd_split W G n top E T Z scan_in progress step_le steps_up enough p q v) by lia.
    apply (pl_lift R C kbs H e w' r c bs); auto; rewrite ?map_length, ?seq_length.
    + apply (tracks_within p q d w); auto; lia.
    + pose proof (not_many p a q d ltac:(lia) ltac:(lia) ltac:(lia) ltac:(lia)). lia.
    + exact V4.
  - pose proof HR as [HL _]. pose proof M1 as [L1 _]. split; [lia|]. intros p w' Hp HW HE HN HZ.
    destruct w' as [[u k]|]; [|destruct HW]. destruct HW as (<-&p0&P1&P2&P3).
    destruct (c_next_scan W G n top E T Z scan_in progress step_le steps_up enough p m ltac:(lia) ltac:(lia) ltac:(lia)) as (q&Q1&Q2&Q3).
    destruct (c_segment R C W G n top E T Z scan_in progress step_le steps_up enough H r c _ m d q Hr Hc M1
      (c_settled_nearly _ _ _ _ _ _ _ _ _ _ (rest_settled _ _ _ HR HN)) ltac:(lia) ltac:(lia) Q2) as (q'&bs&Q1'&Q2'&R1&S1&B1&T1).
    destruct (IH q' None ltac:(lia) I Q2' T1 HZ) as (v&out'&V1&V2&V3&V4).
    exists v, ((code_in kbs e r c, repeats (q - p), repeats (u + (q - p) + (q' - q))) :: out'). split; [lia|]. split; [exact V2|]. split.
    + constructor; [|exact V3]. split; [reflexivity|]. split; apply repeats_le; [apply many_scans; lia|].
      pose proof (not_many p0 b q' d ltac:(lia) ltac:(lia) P2 ltac:(lia)). lia.
    + unfold rd. rewrite (c_rd_split W G n top E T Z scan_in progress step_le steps_up enough p q v) by lia.
      rewrite (c_rd_split W G n top E T Z scan_in progress step_le steps_up enough q q' v) by lia.
      pose proof (pl_hold R C kbs H e u r c (map rd (seq p (q - p))) bs (map rd (seq q (q' - q))) (map rd (seq q' (v - q'))) out' H' e') as PH.
      rewrite !map_length, !seq_length in PH. apply PH; auto. apply Forall_map, Forall_forall. intros i Hi. apply in_seq in Hi.
      apply (rest_reads H a m p q); auto; lia.
  - pose proof HR as [HL _]. split; [lia|]. intros p w' Hp HW HE HN HZ.
    destruct w' as [[u k]|]; [|destruct HW]. destruct HW as (<-&p0&P1&P2&P3).
    destruct (c_next_scan W G n top E T Z scan_in progress step_le steps_up enough p z ltac:(lia) ltac:(lia) ltac:(lia)) as (q&Q1&Q2&Q3).
    exists q, [(code_in kbs e r c, repeats (q - p), repeats (u + (q - p)))]. split; [lia|]. split; [exact Q2|]. split.
    + constructor; [|constructor]. split; [reflexivity|]. split; apply repeats_le; [apply many_scans; lia|].
      pose proof (not_many p0 b q z ltac:(lia) ltac:(lia) P2 ltac:(lia)). lia.
    + pose proof (pl_holding R C kbs H e u r c (map rd (seq p (q - p)))) as PH.
      rewrite !map_length, !seq_length in PH. apply PH. apply Forall_map, Forall_forall. intros i Hi. apply in_seq in Hi.
      apply (rest_reads H a z p q); auto; lia.
Qed.
End Passes.

(** ** C129 *)
Lemma c_plays_le : forall R C kbs W G a H e w z out H' e', c_plays R C kbs W G a H e w z out H' e' -> a <= z.
Proof. intros R C kbs W G a H e w z out H' e' HS. induction HS; unfold c_rests, c_moves in *; lia. Qed.

(** From power-on; times run from the end of the initialisation.  The scan in
    progress at the end sends the last character, if it has not left yet. *)
Theorem C129_holds_in_continuous_time : forall R C kbs P W G Z out H e,
  sound_firmware R kbs -> same_size R C kbs -> scan_hook_free kbs ->
  (forall i, c_ended kbs P W i < Z -> c_ended kbs P W (S i) <= c_ended kbs P W i + G) ->
  c_plays R C kbs W G (c_ended kbs P W 0) (fun _ _ => false) (at_start kbs) None Z out H e ->
  exists N s c s' c' text, c_clock kbs P W N = Ok (s, c) /\ c_clock kbs P W (S N) = Ok (s', c') /\
    c_ended kbs P W N <= Z <= c_ended kbs P W (S N) /\ spells out text /\
    (exists late, text = sent s ++ late /\ length late <= 1) /\ sent s' = text /\ map snd (rev (stamps (jc c'))) = text /\
    setting_is e s /\ forall r c, r < R -> c < C -> down s r c = H r c.
Proof.
  intros R C kbs P W G Z out H e HS HZ HQ HG HE. assert (K0 : kbs 0%N <> None) by (destruct (proj1 HS); congruence).
  assert (TOT : forall n, exists s x, c_clock kbs P W n = Ok (s, x)).
  { intros n. pose proof (c_trace kbs P W K0 n) as X. destruct (c_clock kbs P W n) as [[s x]|u]; [eauto|].
    destruct X as [T X]. destruct (C98_any_keymaps_safe R kbs (readings_of W T n) HS) as [s E]. congruence. }
  pose proof (c_plays_le _ _ _ _ _ _ _ _ _ _ _ _ _ HE) as AZ.
  set (E := c_ended kbs P W) in *. set (top := (Z - E 0) + 1).
  destruct (TOT top) as (st&xt&ET). pose proof (c_trace kbs P W K0 top) as X. rewrite ET in X. destruct X as (T&g&RT&_&F1&F2&_&_).
  assert (PR : forall i j, i <= j -> E i + (j - i) <= E j + 1).
  { clear -TOT K0. intros i j Hij. destruct (TOT i) as (si&xi&Ei). destruct (TOT j) as (sj&xj&Ej). unfold E.
    rewrite (c_ended_ok _ _ _ _ _ _ Ei), (c_ended_ok _ _ _ _ _ _ Ej). replace j with (i + (j - i)) in Ej by lia.
    pose proof (c_ended_ge kbs P W K0 _ _ _ _ _ _ Ei Ej) as PD. unfold paid, jt in PD. destruct (flag (jc xj)); lia. }
  destruct (c_plays_scans R C W G 0 top E T Z) with (kbs := kbs) (a := E 0) (H := fun _ _ : nat => false) (e := at_start kbs) (w := @None (nat * (nat * nat))) (z := Z)
    (out := out) (H' := H) (e' := e) as [_ Y].
  - intros i Hi. apply F1. (clear -Hi; lia).
  - intros i j Hij _. apply PR. (clear -Hij; lia).
  - intros i Hi HZ'. apply HG. exact HZ'.
  - intros i j Hij Hj. apply (c_ended_mono kbs P W K0 top st xt); [exact ET|(clear -Hij Hj; lia)].
  - specialize (PR 0 top). unfold top in *. clear -PR AZ. lia.
  - exact HE.
  - assert (E01 : E 0 <= E 1) by (apply (c_ended_mono kbs P W K0 top st xt); [exact ET|unfold top; clear; lia]).
    destruct (Y 0 None) as (q&out'&Q1&Q2&QL&QB).
    + unfold top. (clear; lia).
    + exact I.
    + split; [(clear; lia)|exact E01].
    + intros t Ht. (clear -Ht; lia).
    + (clear; lia).
    + destruct (F2 q) as (s&c&Eq&Rq); [(clear -Q1; lia)|]. destruct (F2 (S q)) as (s'&c'&Eq'&Rq'); [(clear -Q1; lia)|]. rewrite Nat.sub_0_r in QB.
      destruct (C128_holds R C kbs _ out' H e HS HZ HQ QB) as (text&TX&A&B). destruct (A s Rq) as (A1&A2&A3).
      assert (A4 : sent s' = text).
      { apply (B (reads_at W (T q))). rewrite <- Rq'. f_equal. unfold readings_of. rewrite seq_S, map_app. reflexivity. }
      exists q, s, c, s', c', text. split; [exact Eq|]. split; [exact Eq'|]. split; [exact Q2|]. split; [exact (spells_looser _ _ _ QL TX)|].
      split; [exact A1|]. split; [exact A4|]. split; [|split; [exact A2|exact A3]].
      pose proof (c_trace kbs P W K0 (S q)) as X. rewrite Eq' in X. destruct X as (_&_&_&_&_&_&ST&_).
      rewrite map_rev, ST, rev_involutive. exact A4.
Qed.
Print Assumptions C129_holds_in_continuous_time.

(** ** Examples: the keyboard of C104 *)
(** "b", then "a" over it and held for 700 scans; "b" stays down for 600 scans
    more without repeating; then "a" again, held for 530 scans. *)
Definition holding : list (nat -> N) :=
  presses [(0, 1)] [] (going true) ++ presses [(0, 1); (0, 0)] [(0, 1)] (going true) ++
  hold 700 [(0, 1); (0, 0)] ++ presses [(0, 1); (0, 0)] [(0, 1)] (going false) ++
  hold 600 [(0, 1)] ++ presses [(0, 1)] [] (going false) ++ presses [(0, 0)] [] (going true) ++ hold 530 [(0, 0)].
Lemma steady_hold : forall H ks m, row_b H ks = true -> Forall (reads 1 8 H) (hold m ks).
Proof. intros H ks m HB. apply Forall_forall. intros rd I. unfold hold in I. apply repeat_spec in I. subst rd. apply row_b_ok. exact HB. Qed.
Lemma pl_rest : forall R C kbs H e mid rds out H' e', Forall (reads R C H) mid -> plays R C kbs H e None rds out H' e' ->
  plays R C kbs H e None (mid ++ rds) out H' e'.
Proof.
  intros R C kbs H e mid rds out H' e' HF HS. induction HF as [|rd mid HR HF IH]; [exact HS|]. cbn [app]. constructor; [exact HR|intros u p X; discriminate X|exact IH].
Qed.
Example C128_example :
  (exists H e, plays 1 8 desk (fun _ _ => false) (at_start desk) None holding
     [(98%N, 1, 1); (97%N, 1, 1); (97%N, 3, 4); (97%N, 1, 1); (97%N, 1, 1)] H e) /\
  obs (fun s => (sent s, down s 0 0, down s 0 1)) (c_run desk holding) = Some ([98; 97; 97; 97; 97; 97; 97]%N, true, false).
Proof.
  split; [|vm_compute; reflexivity].
  assert (ST : forall b, settles b (going b)) by (intros []; split; vm_compute; lia).
  assert (NW : forall l, within l None) by (intros l u p X; discriminate X).
  unfold holding. do 2 eexists.
  match goal with |- plays _ _ _ _ ?e _ _ _ _ _ =>
    change [(98%N, 1, 1); (97%N, 1, 1); (97%N, 3, 4); (97%N, 1, 1); (97%N, 1, 1)] with
      [(code_in desk e 0 1, 1, 1); (code_in desk e 0 0, 1, 1); (code_in desk e 0 0, repeats 700, repeats (length (going true) + 700 + length (going false)));
       (code_in desk e 0 0, 1, 1); (code_in desk e 0 0, repeats 530, repeats (length (going true) + 530))] end.
  eapply (pl_press 1 8 desk _ _ _ 0 1 (going true)); [lia|lia|reflexivity|reflexivity| |apply contact_presses; reflexivity|apply ST|apply NW|vm_compute; lia|].
  { intros r c Hr. assert (r = 0) as -> by lia. revert c. each_key. }
  eapply (pl_press 1 8 desk _ _ _ 0 0 (going true)); [lia|lia|reflexivity|reflexivity| |apply contact_presses; reflexivity|apply ST| |vm_compute; lia|].
  { intros r c Hr. assert (r = 0) as -> by lia. revert c. each_key. }
  { intros u p X. inv X. vm_compute. lia. }
  pose proof (pl_hold 1 8 desk (set2 (set2 (fun _ _ => false) 0 1 true) 0 0 true) (at_start desk) (length (going true)) 0 0 (hold 700 [(0, 1); (0, 0)]) (going false)
    (presses [(0, 1); (0, 0)] [(0, 1)] (going false))) as PH.
  apply PH; clear PH; [apply steady_hold; reflexivity|apply contact_presses; reflexivity|apply (ST false)|].
  apply pl_rest; [apply steady_hold; reflexivity|].
  eapply (pl_lift 1 8 desk _ _ _ 0 1 (going false)); [lia|lia|reflexivity|reflexivity|apply contact_presses; reflexivity|apply (ST false)|apply NW|vm_compute; lia|].
  eapply (pl_press 1 8 desk _ _ _ 0 0 (going true)); [lia|lia|reflexivity|reflexivity| |apply contact_presses; reflexivity|apply ST|apply NW|vm_compute; lia|].
  { intros r c Hr. assert (r = 0) as -> by lia. revert c. each_key. }
  apply pl_holding. apply steady_hold. reflexivity.
Qed.

(** In continuous time: "a" from 20 to 600 ms, with bounces; no interrupts. *)
Definition held_keys (t : nat) : list (nat * nat) :=
  if existsb (Nat.eqb t) [20; 22; 23; 602; 605] || ((26 <=? t) && (t <? 600)) then [(0, 0)] else [].
Definition held_world (t : nat) : nat -> N := matrix (held_keys t).
Definition prompt (k : nat) : nat := 0.
Lemma h_rests_check : forall H a z, a <= z -> forallb (fun t => row_b H (held_keys t)) (seq a (z - a)) = true -> c_rests 1 8 held_world H a z.
Proof.
  intros H a z L HF. split; [exact L|]. intros t Ht. apply row_b_ok. rewrite forallb_forall in HF. apply HF. apply in_seq. lia.
Qed.
Lemma h_moves_check : forall G H c b a z, a + 7 + 11 * G <= z ->
  forallb (fun t => row_b (set2 H 0 c b) (held_keys t) || (t <? a + 7) && row_b (set2 H 0 c (negb b)) (held_keys t)) (seq a (z - a)) = true ->
  c_moves 1 8 held_world G H 0 c b a z.
Proof.
  intros G H c b a z L HF. split; [exact L|]. intros t Ht. rewrite forallb_forall in HF. specialize (HF t).
  apply orb_true_iff in HF; [|apply in_seq; lia]. destruct HF as [HF|HF].
  - exists b. split; [apply row_b_ok; exact HF|reflexivity].
  - apply andb_true_iff in HF. destruct HF as [H1 H2]. exists (negb b). split; [apply row_b_ok; exact H2|]. intros H3. lia.
Qed.
(** The ends of all passes, in one run of the firmware. *)
Fixpoint ends (kbs : N -> option (list setup_cmd)) (P : nat -> nat) (W : nat -> nat -> N) (k : nat) (o : outcome (kb * jclk)) : list nat :=
  match o with Ok (_, x) => jt x | Bad _ => 0 end ::
  match k with
  | O => []
  | S k => ends kbs P W k (bind o (fun p => cs_tick kbs (jwatch P W) (fun _ _ => 0%N) (fst p) (jwait P (snd p))))
  end.
Lemma ends_all : forall kbs P W k n i, i <= k -> nth i (ends kbs P W k (c_clock kbs P W n)) 0 = c_ended kbs P W (n + i).
Proof.
  intros kbs P W k. induction k as [|k IH]; intros n i Hi; cbn [ends].
  - replace i with 0 by lia. rewrite Nat.add_0_r. reflexivity.
  - destruct i as [|i]; [rewrite Nat.add_0_r; reflexivity|]. rewrite <- c_clock_S. cbn [nth]. rewrite IH by lia. f_equal. lia.
Qed.
Fixpoint paced (G : nat) (l : list nat) : bool :=
  match l with a :: (b :: _) as l' => (b <=? a + G) && paced G l' | _ => true end.
Lemma paced_all : forall G l i, paced G l = true -> S i < length l -> nth (S i) l 0 <= nth i l 0 + G.
Proof.
  intros G l. induction l as [|a l IH]; intros i HP HL; [cbn in HL; lia|]. destruct l as [|b l]; [cbn in HL; lia|].
  cbn [paced] in HP. apply andb_true_iff in HP. destruct HP as [H1 H2]. destruct i as [|i]; [cbn [nth]; lia|].
  change (nth (S (S i)) (a :: b :: l) 0) with (nth (S i) (b :: l) 0). change (nth (S i) (a :: b :: l) 0) with (nth i (b :: l) 0).
  apply IH; [exact H2|cbn [length] in *; lia].
Qed.
Lemma ends_length : forall kbs P W k o, length (ends kbs P W k o) = S k.
Proof. intros kbs P W k. induction k as [|k IH]; intros o; cbn [ends length]; [reflexivity|]. rewrite IH. reflexivity. Qed.
Example C129_example :
  c_ended desk prompt held_world 0 = 0 /\
  (forall i, c_ended desk prompt held_world i < 620 -> c_ended desk prompt held_world (S i) <= c_ended desk prompt held_world i + 1) /\
  (exists H e, c_plays 1 8 desk held_world 1 0 (fun _ _ => false) (at_start desk) None 620 [(97%N, 1, 1); (97%N, 1, 2)] H e) /\
  bind (c_clock desk prompt held_world 621) (fun p => Ok (now (jc (snd p)), stamps (jc (snd p)))) = Ok (621, [(558, 97%N); (33, 97%N)]).
Proof.
  split; [vm_compute; reflexivity|]. split; [|split; [|vm_compute; reflexivity]].
  - intros i Hz. destruct (Nat.le_gt_cases i 625) as [L|L].
    + assert (F : paced 1 (ends desk prompt held_world 626 (c_clock desk prompt held_world 0)) = true) by (vm_compute; reflexivity).
      apply (paced_all 1 _ i) in F; [|rewrite ends_length; (clear -L; lia)]. rewrite !ends_all in F by (clear -L; lia). exact F.
    + exfalso. assert (K0 : desk 0%N <> None) by discriminate.
      assert (TOT : exists s x, c_clock desk prompt held_world i = Ok (s, x)).
      { destruct (C110_whole_board_in_real_time 1 8 desk prompt held_world i (proj1 desk_sound) (proj1 (proj2 desk_sound))) as (s&c&T&E&_). eauto. }
      destruct TOT as (s&x&E).
      pose proof (c_ended_mono desk prompt held_world K0 i s x 625 i E ltac:(clear -L; lia)) as M.
      assert (K : (620 <=? c_ended desk prompt held_world 625) = true) by (vm_compute; reflexivity). apply Nat.leb_le in K. (clear -M K Hz; lia).
  - do 2 eexists.
    assert (NW : forall l, c_within l None) by (intros l u p X; discriminate X).
    apply (cp_wait 1 8 desk held_world 1 0 20); [apply h_rests_check; [lia|vm_compute; reflexivity]|apply NW|].
    change [(97%N, 1, 1); (97%N, 1, 2)] with [(code_in desk (at_start desk) 0 0, 1, 1); (code_in desk (at_start desk) 0 0, repeats ((600 - 40) / 1 - 1), repeats (620 - 20 + 2))].
    eapply (cp_press 1 8 desk held_world 1 20 40 620 _ _ _ 0 0); [lia|lia|reflexivity|reflexivity| |apply h_moves_check; [lia|vm_compute; reflexivity]|apply NW|lia|].
    { intros r c Hr. assert (r = 0) as -> by lia. revert c. each_key. }
    eapply (cp_hold 1 8 desk held_world 1 40 600 620 620 20 _ _ 0 0); [lia|lia|apply h_rests_check; [lia|vm_compute; reflexivity]|apply h_moves_check; [lia|vm_compute; reflexivity]|].
    apply cp_done.
Qed.
