(** Rollover with bouncing contacts, scan by scan and in continuous time, under
    any keymaps (C125). *)
From Coq Require Import List NArith ZArith Arith Bool Lia.
From Coq Require Import ZifyBool ZifyNat ZifyN.
From Verif Require Import Base Lib Buffer Repeat Devices Modifiers Hook KeymapData Asdf KeySpec Obs PropDebounce
     Custom CustomSpec CustomRef PropCustom PropEvents PropFlow PropExact PropSession.
From Verif Require Import PropModState PropBounce System Timed PropTimed Jitter PropJitter PropHands CustomSystem CustomTime PropAnyTime.
From Verif Require Import PropAnyHands.
Import ListNotations.

(** ** Specification, scan by scan *)
(** A character key is among the keys down. *)
Definition typing (R C : nat) (kbs : N -> option (list setup_cmd)) (e : setting) (H : nat -> nat -> bool) : Prop :=
  exists r c, r < R /\ c < C /\ H r c = true /\ (code_in kbs e r c < 0xA0)%N.

(** Keys go down and up one after the other, their contacts bouncing, and any
    number of character keys may be down at once: no two of them with the same
    character, mode keys moving only while none is down, and as long as one is
    down not more than 525 scans from the beginning of one stroke to the next
    ([u] counts them).  Keys held and modes before, readings, characters struck,
    keys held and modes after. *)
Inductive rolls (R C : nat) (kbs : N -> option (list setup_cmd)) :
  (nat -> nat -> bool) -> setting -> nat -> list (nat -> N) -> list N -> (nat -> nat -> bool) -> setting -> Prop :=
| ro_done : forall H e u, rolls R C kbs H e u [] [] H e
| ro_wait : forall H e u rd rds out H' e', reads R C H rd -> (typing R C kbs e H -> S u <= 525) ->
    rolls R C kbs H e (S u) rds out H' e' -> rolls R C kbs H e u (rd :: rds) out H' e'
| ro_mode : forall H e u r c bs l rds out H' e', r < R -> c < C -> mode_key kbs r c -> plain_code (code_in kbs e r c) ->
    ~ typing R C kbs e H -> contact R C H r c bs l -> settles (negb (H r c)) bs ->
    rolls R C kbs (set2 H r c (negb (H r c))) (after_event kbs e (r, c, negb (H r c))) 0 rds out H' e' ->
    rolls R C kbs H e u (l ++ rds) out H' e'
| ro_press : forall H e u r c bs l rds out H' e', r < R -> c < C -> H r c = false -> (code_in kbs e r c < 0xA0)%N ->
    (forall r' c', r' < R -> c' < C -> H r' c' = true -> code_in kbs e r' c' <> code_in kbs e r c) ->
    contact R C H r c bs l -> settles true bs -> (typing R C kbs e H -> u + length l <= 525) -> length l <= 525 ->
    rolls R C kbs (set2 H r c true) e (length l) rds out H' e' ->
    rolls R C kbs H e u (l ++ rds) (code_in kbs e r c :: out) H' e'
| ro_lift : forall H e u r c bs l rds out H' e', r < R -> c < C -> H r c = true -> (code_in kbs e r c < 0xA0)%N ->
    contact R C H r c bs l -> settles false bs -> u + length l <= 525 ->
    rolls R C kbs (set2 H r c false) e (u + length l) rds out H' e' ->
    rolls R C kbs H e u (l ++ rds) out H' e'.

(** ** Proofs *)
Section Scan.
Variable R C : nat.
Variable kbs : N -> option (list setup_cmd).
Hypothesis quiet : scan_hook_free kbs.
Notation moved := (PropExact.moved kbs).
Notation scans := (scans kbs R C).
Notation stands := (PropAnyHands.stands R C).
Notation stands_but := (PropAnyHands.stands_but R C).

Definition good (e : setting) (H : nat -> nat -> bool) : Prop :=
  forall r c, r < R -> c < C -> H r c = true -> mode_key kbs r c \/ (code_in kbs e r c < 0xA0)%N.
Definition apart (e : setting) (H : nat -> nat -> bool) : Prop :=
  forall r c r' c', r < R -> c < C -> H r c = true -> r' < R -> c' < C -> H r' c' = true ->
    (code_in kbs e r c < 0xA0)%N -> code_in kbs e r c = code_in kbs e r' c' -> (r, c) = (r', c').

(** Moves that change nothing. *)
Definition still (e : setting) (last : N) (m : list (nat * nat * move)) : Prop :=
  forall n q o, fold_left moved m (mkTy e last false true n q [] o) = mkTy e last false true n q [] o.
Lemma still_nil : forall e last, still e last [].
Proof. intros e last n q o. reflexivity. Qed.

Lemma calm_fold : forall e D last, good e D -> apart e D -> (last <= 0xA0)%N -> kbs (e_kb e) <> None ->
  forall (f : nat * nat -> list (nat * nat * move)) ks, NoDup ks ->
  (forall p, In p ks -> fst p < R /\ snd p < C /\ (still e last (f p) \/ f p = [(fst p, snd p, Held)] /\ D (fst p) (snd p) = true)) ->
  forall n q o, ((last < 0xA0)%N -> 2 <= n)%N ->
  exists n', fold_left moved (flat_map f ks) (mkTy e last false true n q [] o) = mkTy e last false true n' q [] o /\
    (n' = n \/ (n' + 1 = n)%N) /\
    ((forall p, In p ks -> D (fst p) (snd p) = true -> code_in kbs e (fst p) (snd p) <> last) -> n' = n).
Proof.
  intros e D last HG HA HL V f ks ND HF. induction ks as [|[r c] ks IH]; intros n q o HN; cbn [flat_map].
  - exists n. auto.
  - inversion ND as [|? ? NI ND']; subst. assert (HF' : forall p, In p ks -> fst p < R /\ snd p < C /\ (still e last (f p) \/ f p = [(fst p, snd p, Held)] /\ D (fst p) (snd p) = true)).
    { intros p I. apply HF. right. exact I. }
    specialize (IH ND' HF'). destruct (HF (r, c) (or_introl eq_refl)) as (Hr&Hc&HX). cbn [fst snd] in *. rewrite fold_left_app.
    assert (ID : fold_left moved (f (r, c)) (mkTy e last false true n q [] o) = mkTy e last false true n q [] o \/
      (D r c = true /\ code_in kbs e r c = last /\ (last < 0xA0)%N /\
       fold_left moved (f (r, c)) (mkTy e last false true n q [] o) = mkTy e last false true (n - 1) q [] o)).
    { destruct HX as [HX|[-> HD]]; [left; apply HX|]. cbn [fold_left]. destruct (HG r c Hr Hc HD) as [M|M].
      - left. apply held_still; auto. split; auto.
      - cbn [PropExact.moved t_set]. unfold on_held. cbn [t_last t_left t_fast t_auto].
        destruct (N.eqb_spec (code_in kbs e r c) last) as [E|E]; cbn [andb]; [|left; reflexivity]. right.
        assert (L : (last < 0xA0)%N) by lia. specialize (HN L).
        replace (0 <? n)%N with true by lia. replace (n =? 1)%N with false by lia. auto. }
    destruct ID as [ID|(HD&E&L&ID)]; rewrite ID.
    + destruct (IH n q o HN) as (n'&X1&X2&X3). exists n'. split; [exact X1|]. split; [exact X2|]. intros Y. apply X3. intros p I. apply Y. right. exact I.
    + specialize (HN L).
      (* no second key with this character *)
      assert (NO : forall p, In p ks -> D (fst p) (snd p) = true -> code_in kbs e (fst p) (snd p) <> last).
      { intros [r' c'] I HD' E'. cbn [fst snd] in *. destruct (HF' _ I) as (Hr'&Hc'&_). cbn [fst snd] in *.
        apply NI. rewrite (HA r c r' c'); auto; congruence. }
      assert (F0 : forall n, fold_left moved (flat_map f ks) (mkTy e last false true n q [] o) = mkTy e last false true n q [] o).
      { clear IH HN ID. induction ks as [|[r' c'] ks IH]; intros m; [reflexivity|]. cbn [flat_map]. rewrite fold_left_app.
        replace (fold_left moved (f (r', c')) (mkTy e last false true m q [] o)) with (mkTy e last false true m q [] o).
        - apply IH; auto.
          + inversion ND'; subst. constructor; auto. intros I. apply NI. right. exact I.
          + intros p I. apply HF. destruct I; [left|right; right]; auto.
          + intros I. apply NI. right. exact I.
          + inversion ND'; auto.
          + intros p I. apply HF'. right. exact I.
          + intros p I. apply NO. right. exact I.
        - destruct (HF' (r', c') (or_introl eq_refl)) as (Hr'&Hc'&[HS|[-> HD']]); [symmetry; apply HS|]. cbn [fst snd fold_left] in *.
          cbn [PropExact.moved t_set]. unfold on_held. cbn [t_last]. specialize (NO (r', c') (or_introl eq_refl) HD'). cbn [fst snd] in NO.
          replace (code_in kbs e r' c' =? last)%N with false by lia. reflexivity. }
      exists (n - 1)%N. rewrite F0. split; [reflexivity|]. split; [right; lia|]. intros Y. exfalso. exact (Y (r, c) (or_introl eq_refl) HD E).
Qed.

Definition grid : list (nat * nat) := list_prod (seq 0 R) (seq 0 C).
Lemma prod_flat : forall (f : nat -> nat -> list (nat * nat * move)) l1 l2,
  flat_map (fun r => flat_map (fun c => f r c) l2) l1 = flat_map (fun p => f (fst p) (snd p)) (list_prod l1 l2).
Proof.
  intros f l1 l2. induction l1 as [|a l1 IH]; [reflexivity|]. cbn [flat_map list_prod]. rewrite flat_map_app, IH. f_equal.
  clear IH. induction l2 as [|b l2 IH]; [reflexivity|]. cbn [flat_map map fst snd]. rewrite IH. reflexivity.
Qed.
Lemma pos_dec : forall p q : nat * nat, {p = q} + {p <> q}.
Proof. decide equality; apply Nat.eq_dec. Qed.
Lemma scan_grid : forall pre rd, scan_moves R C pre rd = flat_map (fun p => key_moves pre rd (fst p) (snd p)) grid.
Proof. intros. unfold scan_moves. apply prod_flat. Qed.
Lemma grid_in : forall p, In p grid <-> fst p < R /\ snd p < C.
Proof. intros [r c]. unfold grid. rewrite in_prod_iff, !in_seq. cbn [fst snd]. lia. Qed.
Lemma prod_nodup : forall (l1 l2 : list nat), NoDup l1 -> NoDup l2 -> NoDup (list_prod l1 l2).
Proof.
  intros l1 l2 N1 N2. induction N1 as [|a l1 NI N1 IH]; [constructor|]. cbn [list_prod].
  assert (X : forall m, NoDup m -> NoDup (map (fun y : nat => (a, y)) m ++ list_prod l1 l2)).
  { induction 1 as [|b m NB NM IHm]; [exact IH|]. cbn [map app]. constructor; [|exact IHm]. rewrite in_app_iff, in_map_iff, in_prod_iff.
    intros [[y [E I]]|[I _]]; [inv E; contradiction|contradiction]. }
  apply X. exact N2.
Qed.
Lemma grid_nodup : NoDup grid.
Proof. apply prod_nodup; apply seq_NoDup. Qed.

(** What a key that keeps its accepted state does. *)
Lemma calm_key : forall pre rd r c s k, dstate (key_readings pre r c) = (s, k) -> fst (db (s, k) (reading rd r c)) = s ->
  key_moves pre rd r c = [] \/ key_moves pre rd r c = [(r, c, Held)] /\ s = true.
Proof.
  intros pre rd r c s k E F. rewrite moves_target, E. unfold target. rewrite F. cbn [fst]. destruct s; [|auto]. destruct (reading rd r c); auto.
Qed.
Lemma calm_stand : forall pre rd H r c, fst (dstate (key_readings pre r c)) = H r c -> reading rd r c = H r c ->
  key_moves pre rd r c = [] \/ key_moves pre rd r c = [(r, c, Held)] /\ H r c = true.
Proof.
  intros pre rd H r c E F. destruct (dstate (key_readings pre r c)) as [s k] eqn:ED. cbn [fst] in E. subst s.
  apply (calm_key pre rd r c (H r c) k ED). rewrite F, db_stays; reflexivity.
Qed.

(** Queues at the start of a scan. *)
Definition short (last : N) (q : list N) : Prop := q = [] \/ q = [last] /\ (last < 0xA0)%N.
Lemma starts_short : forall e last n q o, kbs (e_kb e) <> None -> short last q ->
  scan_starts kbs (mkTy e last false true n q [] o) = mkTy e last false true n [] [] (o ++ q).
Proof.
  intros e last n q o V HQ. rewrite (starts_queue kbs quiet) by exact V. destruct HQ as [-> |[-> L]]; cbn [tl firstn visible filter]; [rewrite app_nil_r; reflexivity|].
  replace (last <? 0xA0)%N with true by lia. reflexivity.
Qed.

Lemma reads_key : forall H r c b rd, reads R C (set2 H r c b) rd -> r < R -> c < C -> reading rd r c = b.
Proof. intros H r c b rd HR Hr Hc. rewrite HR by auto. unfold set2. rewrite !Nat.eqb_refl. reflexivity. Qed.
Lemma reads_else : forall H r c b rd r' c', reads R C (set2 H r c b) rd -> r' < R -> c' < C -> (r', c') <> (r, c) -> reading rd r' c' = H r' c'.
Proof.
  intros H r c b rd r' c' HR Hr Hc NE. rewrite HR by auto. unfold set2.
  destruct (Nat.eqb_spec r' r), (Nat.eqb_spec c' c); cbn [andb]; auto. subst. congruence.
Qed.
Lemma but_step : forall pre H r c d b rd, stands_but pre H r c d -> reads R C (set2 H r c b) rd -> r < R -> c < C ->
  stands_but (pre ++ [rd]) H r c (db d b).
Proof.
  intros pre H r c d b rd [D1 D2] HR Hr Hc. split.
  - intros r' c' Hr' Hc' NE. rewrite key_snoc, (reads_else H r c b rd r' c') by auto. rewrite db_stays; apply D1; auto.
  - rewrite key_snoc, D2, (reads_key H r c b rd) by auto. reflexivity.
Qed.

(** A scan in which no key changes its accepted state. *)
Lemma calm_scan : forall pre rd D e last n q o, good e D -> apart e D -> (last <= 0xA0)%N -> kbs (e_kb e) <> None ->
  (forall r c, r < R -> c < C -> still e last (key_moves pre rd r c) \/ key_moves pre rd r c = [(r, c, Held)] /\ D r c = true) ->
  short last q -> ((last < 0xA0)%N -> 2 <= n)%N ->
  exists n', fold_left moved (scan_moves R C pre rd) (scan_starts kbs (mkTy e last false true n q [] o)) =
    mkTy e last false true n' [] [] (o ++ q) /\ (n' = n \/ (n' + 1 = n)%N).
Proof.
  intros pre rd D e last n q o HG HA HL V HK HQ HN. rewrite starts_short, scan_grid by auto.
  destruct (calm_fold e D last HG HA HL V (fun p => key_moves pre rd (fst p) (snd p)) grid grid_nodup) with (n := n) (q := @nil N) (o := o ++ q)
    as (n'&X1&X2&_); [|exact HN|exists n'; auto].
  intros [r c] I. apply grid_in in I. cbn [fst snd] in *. destruct I. auto.
Qed.

(** The keys besides (r, c). *)
Lemma others_calm : forall pre rd H r c d b v e last r' c', stands_but pre H r c d -> reads R C (set2 H r c b) rd -> r' < R -> c' < C ->
  (r', c') <> (r, c) -> still e last (key_moves pre rd r' c') \/ key_moves pre rd r' c' = [(r', c', Held)] /\ set2 H r c v r' c' = true.
Proof.
  intros pre rd H r c d b v e last r' c' D HR Hr Hc NE.
  replace (set2 H r c v r' c') with (H r' c').
  2:{ unfold set2. destruct (Nat.eqb_spec r' r), (Nat.eqb_spec c' c); cbn [andb]; auto. subst. congruence. }
  destruct (calm_stand pre rd H r' c') as [X|X]; [apply (proj1 D); auto|apply (reads_else H r c b); auto|left; rewrite X; apply still_nil|right; exact X].
Qed.

(** A key bounces without changing its accepted state [s]. *)
Lemma calm_bounce : forall bs l pre H r c s k e last n q o, stands_but pre H r c (s, k) -> r < R -> c < C ->
  good e (set2 H r c s) -> apart e (set2 H r c s) -> (last <= 0xA0)%N -> kbs (e_kb e) <> None ->
  contact R C H r c bs l -> (N.of_nat (times (negb s) bs) < k)%N -> short last q ->
  ((last < 0xA0)%N -> N.of_nat (length bs) + 1 <= n)%N ->
  exists n' q' o', scans pre l (mkTy e last false true n q [] o) = mkTy e last false true n' q' [] o' /\
    o' ++ q' = o ++ q /\ (bs <> [] -> q' = []) /\ short last q' /\ (n <= n' + N.of_nat (length bs))%N /\
    stands_but (pre ++ l) H r c (s, (k - N.of_nat (times (negb s) bs))%N).
Proof.
  induction bs as [|b bs IH]; intros l pre H r c s k e last n q o D Hr Hc HG HA HL V HC HK HQ HN; inv HC; cbn [PropExact.scans].
  - exists n, q, o. rewrite app_nil_r, N.sub_0_r. repeat split; auto; try tauto; try lia; apply D.
  - rename y into rd, l' into l, H2 into HR, H4 into HC. rewrite times_cons in HK |- *. cbn [length] in HN |- *.
    assert (DB : db (s, k) b = (s, (k - N.of_nat (if Bool.eqb (negb s) b then 1 else 0))%N)).
    { unfold db. cbn [fst snd]. destruct (Bool.eqb_spec (negb s) b) as [E|E].
      - subst b. replace (Bool.eqb (negb s) s) with false by (destruct s; auto). replace (k =? 1)%N with false by lia. reflexivity.
      - replace (Bool.eqb b s) with true by (destruct b, s; auto; contradiction E; auto). rewrite N.sub_0_r. reflexivity. }
    destruct (calm_scan pre rd (set2 H r c s) e last n q o HG HA HL V) as (n1&X1&X2); [|exact HQ|lia|].
    { intros r' c' Hr' Hc'. destruct (pos_dec (r', c') (r, c)) as [E|E]; [inv E|apply (others_calm pre rd H r c (s, k) b); auto].
      destruct (calm_key pre rd r c s k (proj2 D)) as [A|[A B]].
      - rewrite (reads_key H r c b rd HR Hr Hc), DB. reflexivity.
      - left. rewrite A. apply still_nil.
      - right. split; [exact A|]. rewrite B. apply set2_same. }
    rewrite X1. pose proof (but_step pre H r c _ b rd D HR Hr Hc) as D1. rewrite DB in D1.
    destruct (IH l (pre ++ [rd]) H r c s _ e last n1 [] (o ++ q) D1 Hr Hc HG HA HL V HC) as (n'&q'&o'&Y1&Y2&Y3&Y4&Y5&Y6).
    + lia.
    + left. reflexivity.
    + intros L. specialize (HN L). lia.
    + exists n', q', o'. split; [exact Y1|]. rewrite app_nil_r in Y2. split; [exact Y2|]. split.
      { intros _. destruct bs; [|apply Y3; discriminate]. inv HC. cbn [PropExact.scans] in Y1. inv Y1. reflexivity. }
      split; [exact Y4|]. split; [lia|]. rewrite <- app_assoc in Y6. cbn [app] in Y6.
      replace (k - N.of_nat ((if Bool.eqb (negb s) b then 1 else 0) + times (negb s) bs))%N
        with (k - N.of_nat (if Bool.eqb (negb s) b then 1 else 0) - N.of_nat (times (negb s) bs))%N by lia. exact Y6.
Qed.
Lemma grid_at : forall r c, r < R -> c < C -> exists l1 l2, grid = l1 ++ (r, c) :: l2 /\ NoDup l1 /\ NoDup l2 /\
  (forall p, In p l1 \/ In p l2 -> fst p < R /\ snd p < C /\ p <> (r, c)).
Proof.
  intros r c Hr Hc. assert (I : In (r, c) grid) by (apply grid_in; auto). apply in_split in I. destruct I as (l1&l2&E).
  exists l1, l2. pose proof grid_nodup as ND. rewrite E in ND. split; [exact E|].
  pose proof (NoDup_remove_2 _ _ _ ND) as NI. pose proof (NoDup_remove_1 _ _ _ ND) as N1.
  split; [|split].
  - clear -N1. induction l1; [constructor|]. inversion N1; subst. constructor; auto. intros X. apply H1. apply in_or_app. auto.
  - clear -N1. induction l1; [exact N1|]. inversion N1; subst. auto.
  - intros p HP. assert (IG : In p grid). { rewrite E. apply in_or_app. destruct HP; [left|right; right]; auto. }
    apply grid_in in IG. destruct IG. split; [auto|]. split; [auto|]. intros ->. apply NI. apply in_or_app. exact HP.
Qed.
Lemma part_calm : forall pre rd H r c d b e last ks, stands_but pre H r c d -> reads R C (set2 H r c b) rd ->
  good e (set2 H r c false) -> apart e (set2 H r c false) -> (last <= 0xA0)%N -> kbs (e_kb e) <> None ->
  NoDup ks -> (forall p, In p ks -> fst p < R /\ snd p < C /\ p <> (r, c)) ->
  forall n q o, ((last < 0xA0)%N -> 2 <= n)%N ->
  exists n', fold_left moved (flat_map (fun p => key_moves pre rd (fst p) (snd p)) ks) (mkTy e last false true n q [] o) = mkTy e last false true n' q [] o /\
    ((forall r' c', r' < R -> c' < C -> set2 H r c false r' c' = true -> code_in kbs e r' c' <> last) -> n' = n).
Proof.
  intros pre rd H r c d b e last ks D HR HG HA HL V ND HK n q o HN.
  destruct (calm_fold e (set2 H r c false) last HG HA HL V (fun p => key_moves pre rd (fst p) (snd p)) ks ND) with (n := n) (q := q) (o := o)
    as (n'&X1&_&X3); [|exact HN|].
  - intros [r' c'] I. destruct (HK _ I) as (Hr'&Hc'&NE). cbn [fst snd] in *. split; [auto|]. split; [auto|].
    apply (others_calm pre rd H r c d b); auto.
  - exists n'. split; [exact X1|]. intros Y. apply X3. intros [r' c'] I. destruct (HK _ I) as (Hr'&Hc'&_). cbn [fst snd] in *. auto.
Qed.

(** The scan in which a character key is accepted as pressed. *)
Lemma press_scan : forall pre rd H r c e last n q o, stands_but pre H r c (false, 1%N) -> r < R -> c < C ->
  reads R C (set2 H r c true) rd -> good e (set2 H r c false) -> apart e (set2 H r c false) -> (last <= 0xA0)%N -> kbs (e_kb e) <> None ->
  short last q -> ((last < 0xA0)%N -> 2 <= n)%N -> (code_in kbs e r c < 0xA0)%N -> last <> code_in kbs e r c ->
  (forall r' c', r' < R -> c' < C -> set2 H r c false r' c' = true -> code_in kbs e r' c' <> code_in kbs e r c) ->
  fold_left moved (scan_moves R C pre rd) (scan_starts kbs (mkTy e last false true n q [] o)) =
    mkTy e (code_in kbs e r c) false true 525 [code_in kbs e r c] [] (o ++ q).
Proof.
  intros pre rd H r c e last n q o D Hr Hc HR HG HA HL V HQ HN HX NL HU. set (x := code_in kbs e r c) in *.
  rewrite starts_short, scan_grid by auto. destruct (grid_at r c Hr Hc) as (l1&l2&EG&N1&N2&HI). rewrite EG, flat_map_app, fold_left_app.
  destruct (part_calm pre rd H r c _ true e last l1 D HR HG HA HL V N1 (fun p I => HI p (or_introl I)) n [] (o ++ q) HN) as (n1&X1&_).
  rewrite X1. cbn [flat_map fst snd]. rewrite fold_left_app.
  replace (key_moves pre rd r c) with [(r, c, Press)].
  2:{ rewrite moves_target, (proj2 D), (reads_key H r c true rd HR Hr Hc). reflexivity. }
  replace (fold_left moved [(r, c, Press)] _) with (mkTy e x false true 525 [x] [] (o ++ q)).
  2:{ cbn [fold_left PropExact.moved t_set]. fold x. unfold on_press, types. cbn [t_set t_last t_fast t_auto t_left t_keys t_msgs t_out].
      replace (x <=? 0xA0)%N with true by lia. replace (x =? last)%N with false by lia. reflexivity. }
  destruct (part_calm pre rd H r c _ true e x l2 D HR HG HA ltac:(lia) V N2 (fun p I => HI p (or_intror I)) 525%N [x] (o ++ q) ltac:(lia)) as (n2&Y1&Y2).
  rewrite Y1, (Y2 HU). reflexivity.
Qed.

(** The scan in which a character key is accepted as released. *)
Lemma lift_scan : forall pre rd H r c e last n q o, stands_but pre H r c (true, 1%N) -> r < R -> c < C ->
  reads R C (set2 H r c false) rd -> good e (set2 H r c false) -> apart e (set2 H r c false) -> (last <= 0xA0)%N -> kbs (e_kb e) <> None ->
  short last q -> ((last < 0xA0)%N -> 2 <= n)%N -> (code_in kbs e r c < 0xA0)%N ->
  exists last' n', fold_left moved (scan_moves R C pre rd) (scan_starts kbs (mkTy e last false true n q [] o)) =
    mkTy e last' false true n' [] [] (o ++ q) /\
    (last = code_in kbs e r c /\ last' = 0xA0%N \/ last <> code_in kbs e r c /\ last' = last /\ (n' = n \/ (n' + 1 = n)%N)).
Proof.
  intros pre rd H r c e last n q o D Hr Hc HR HG HA HL V HQ HN HX. set (x := code_in kbs e r c) in *.
  assert (KM : key_moves pre rd r c = [(r, c, Release)]).
  { rewrite moves_target, (proj2 D), (reads_key H r c false rd HR Hr Hc). reflexivity. }
  destruct (N.eq_dec last x) as [-> |NE].
  - rewrite starts_short, scan_grid by auto. destruct (grid_at r c Hr Hc) as (l1&l2&EG&N1&N2&HI). rewrite EG, flat_map_app, fold_left_app.
    destruct (part_calm pre rd H r c _ false e x l1 D HR HG HA HL V N1 (fun p I => HI p (or_introl I)) n [] (o ++ q) HN) as (n1&X1&_).
    rewrite X1. cbn [flat_map fst snd]. rewrite fold_left_app, KM.
    replace (fold_left moved [(r, c, Release)] _) with (mkTy e 0xA0 false true n1 [] [] (o ++ q)).
    2:{ cbn [fold_left PropExact.moved t_set]. fold x. unfold on_release. cbn [t_set t_last t_fast t_auto t_left t_keys t_msgs t_out].
        replace (x <=? 0xA0)%N with true by lia. rewrite N.eqb_refl. reflexivity. }
    destruct (part_calm pre rd H r c _ false e 0xA0%N l2 D HR HG HA ltac:(lia) V N2 (fun p I => HI p (or_intror I)) n1 [] (o ++ q) ltac:(lia)) as (n2&Y1&_).
    exists 0xA0%N, n2. split; [exact Y1|]. left. auto.
  - destruct (calm_scan pre rd (set2 H r c false) e last n q o HG HA HL V) as (n'&X1&X2); [|exact HQ|exact HN|exists last, n'; auto].
    intros r' c' Hr' Hc'. destruct (pos_dec (r', c') (r, c)) as [E|E]; [inv E|apply (others_calm pre rd H r c (true, 1%N) false); auto].
    left. rewrite KM. intros n1 q1 o1. cbn [fold_left PropExact.moved t_set]. fold x. unfold on_release. cbn [t_last].
    replace (x <=? 0xA0)%N with true by lia. replace (x =? last)%N with false by lia. reflexivity.
Qed.

Lemma contact_length : forall H r c bs l, contact R C H r c bs l -> length bs = length l.
Proof. intros H r c bs l X. induction X; cbn [length]; congruence. Qed.

(** Between steps. *)
Definition at_rest (pre : list (nat -> N)) (H : nat -> nat -> bool) (e : setting) (u : nat) (last n : N) (q : list N) : Prop :=
  stands pre H /\ good e H /\ apart e H /\ kbs (e_kb e) <> None /\
  (last = 0xA0%N /\ q = [] \/
   (last < 0xA0)%N /\ (exists r c, r < R /\ c < C /\ H r c = true /\ code_in kbs e r c = last) /\ (526 <= n + N.of_nat u)%N /\ (q = [] \/ q = [last])).

Lemma set_same : forall (H : nat -> nat -> bool) r c v r' c', H r c = v -> set2 H r c v r' c' = H r' c'.
Proof. intros H r c v r' c' E. unfold set2. destruct (Nat.eqb_spec r' r), (Nat.eqb_spec c' c); cbn [andb]; congruence. Qed.
Lemma good_less : forall e (H D : nat -> nat -> bool), (forall r c, D r c = true -> H r c = true) -> good e H -> good e D.
Proof. intros e H D L G r c Hr Hc X. apply G; auto. Qed.
Lemma apart_less : forall e (H D : nat -> nat -> bool), (forall r c, D r c = true -> H r c = true) -> apart e H -> apart e D.
Proof. intros e H D L A r c r' c' Hr Hc X Hr' Hc' X'. apply A; auto. Qed.
Lemma set_off : forall (H : nat -> nat -> bool) r c r' c', set2 H r c false r' c' = true -> H r' c' = true.
Proof. intros H r c r' c'. unfold set2. destruct ((r' =? r) && (c' =? c)); [discriminate|auto]. Qed.
Lemma set_on_in : forall (H : nat -> nat -> bool) r c r' c', set2 H r c true r' c' = true -> (r', c') = (r, c) \/ H r' c' = true.
Proof. intros H r c r' c'. unfold set2. destruct (Nat.eqb_spec r' r), (Nat.eqb_spec c' c); cbn [andb]; auto.  Qed.

Lemma press_bounce : forall pre H e u r c bs l last n q o, at_rest pre H e u last n q -> r < R -> c < C -> H r c = false -> (code_in kbs e r c < 0xA0)%N ->
  (forall r' c', r' < R -> c' < C -> H r' c' = true -> code_in kbs e r' c' <> code_in kbs e r c) ->
  contact R C H r c bs l -> settles true bs -> (typing R C kbs e H -> u + length l <= 525) -> length l <= 525 ->
  exists n' q' o', scans pre l (mkTy e last false true n q [] o) = mkTy e (code_in kbs e r c) false true n' q' [] o' /\
    o' ++ q' = o ++ q ++ [code_in kbs e r c] /\ at_rest (pre ++ l) (set2 H r c true) e (length l) (code_in kbs e r c) n' q'.
Proof.
  intros pre H e u r c bs l last n q o (D&HG&HA&V&HL) Hr Hc HH HX HU HC [S1 S2] HT HL5. set (x := code_in kbs e r c) in *.
  assert (LEN : length bs = length l) by (apply (contact_length _ _ _ _ _ HC)).
  destruct (stands_at R C _ _ _ _ D Hr Hc) as (k&K&D0). rewrite HH in D0.
  destruct (times_split true (N.to_nat k) bs ltac:(lia) ltac:(lia)) as (a&b&->&TA). cbn [negb] in *.
  rewrite times_app, times_cons in S2. cbn [Bool.eqb] in S2.
  destruct (contact_app _ _ _ _ _ _ _ _ HC) as (l1&l2&->&C1&C2). inv C2. rename l' into l3, y into rd, H2 into G1, H4 into G2.
  rewrite !app_length in *. cbn [length] in *.
  assert (HG0 : good e (set2 H r c false)) by (apply (good_less e H); [apply set_off|exact HG]).
  assert (HA0 : apart e (set2 H r c false)) by (apply (apart_less e H); [apply set_off|exact HA]).
  assert (HG1 : good e (set2 H r c true)).
  { intros r' c' Hr' Hc' X. apply set_on_in in X. destruct X as [X|X]; [inv X; right; exact HX|apply HG; auto]. }
  assert (HA1 : apart e (set2 H r c true)).
  { intros r1 c1 r2 c2 Hr1 Hc1 X1 Hr2 Hc2 X2 L E. apply set_on_in in X1, X2.
    destruct X1 as [X1|X1], X2 as [X2|X2].
    - congruence.
    - inv X1. exfalso. apply (HU r2 c2); auto.
    - inv X2. exfalso. apply (HU r1 c1); auto.
    - apply HA; auto. }
  assert (SH : short last q). { destruct HL as [[_ ->]|(L&_&_&[-> | ->])]; [left; auto|left; auto|right; auto]. }
  assert (LE : (last <= 0xA0)%N) by (destruct HL as [[-> _]|[L _]]; lia).
  assert (NX : last <> x).
  { destruct HL as [[-> _]|(L&(r'&c'&Hr'&Hc'&X&E)&_)]; [lia|]. intros ->. apply (HU r' c'); auto. }
  assert (BU : (last < 0xA0)%N -> (N.of_nat (length l1 + S (length l3)) + 1 <= n)%N).
  { intros L. destruct HL as [[-> _]|(_&(r'&c'&Hr'&Hc'&X&E)&B&_)]; [lia|].
    assert (TY : typing R C kbs e H) by (exists r', c'; repeat split; auto; lia). specialize (HT TY). lia. }
  pose proof (contact_length _ _ _ _ _ C1) as LA. pose proof (contact_length _ _ _ _ _ G2) as LB.
  destruct (calm_bounce a l1 pre H r c false k e last n q o D0 Hr Hc HG0 HA0 LE V C1) as (n1&q1&o1&X1&X2&_&X4&X5&X6);
    [cbn [negb]; lia|exact SH|intros L; specialize (BU L); lia|].
  cbn [negb] in X6. rewrite TA in X6. replace (k - N.of_nat (N.to_nat k - 1))%N with 1%N in X6 by lia.
  rewrite scans_app, X1. cbn [PropExact.scans].
  rewrite (press_scan (pre ++ l1) rd H r c e last n1 q1 o1 X6 Hr Hc G1 HG0 HA0 LE V X4).
  2:{ intros L. specialize (BU L). lia. }
  2:{ exact HX. }
  2:{ exact NX. }
  2:{ intros r' c' Hr' Hc' X. apply HU; auto. apply (set_off H r c). exact X. }
  fold x. pose proof (but_step _ _ _ _ _ _ _ X6 G1 Hr Hc) as D1. change (db (false, 1%N) true) with (true, 10%N) in D1.
  destruct (calm_bounce b l3 _ H r c true 10%N e x 525%N [x] (o1 ++ q1) D1 Hr Hc HG1 HA1 ltac:(lia) V G2) as (n2&q2&o2&Y1&Y2&_&Y4&Y5&Y6);
    [cbn [negb]; lia|right; auto|intros _; lia|].
  exists n2, q2, o2. split; [exact Y1|]. split; [rewrite Y2, X2, <- app_assoc; reflexivity|].
  split; [|split; [exact HG1|split; [exact HA1|split; [exact V|right]]]].
  - rewrite <- app_assoc in Y6. rewrite <- app_assoc in Y6. cbn [app] in Y6. exact (stands_on R C _ _ _ _ _ _ Y6 Hr Hc).
  - split; [exact HX|]. split; [exists r, c; repeat split; auto; apply set2_same|]. split; [lia|].
    destruct Y4 as [-> |[-> _]]; auto.
Qed.

Lemma lift_bounce : forall pre H e u r c bs l last n q o, at_rest pre H e u last n q -> r < R -> c < C -> H r c = true -> (code_in kbs e r c < 0xA0)%N ->
  contact R C H r c bs l -> settles false bs -> u + length l <= 525 ->
  exists last' n', scans pre l (mkTy e last false true n q [] o) = mkTy e last' false true n' [] [] (o ++ q) /\
    (last = code_in kbs e r c /\ last' = 0xA0%N \/ last <> code_in kbs e r c /\ last' = last) /\
    at_rest (pre ++ l) (set2 H r c false) e (u + length l) last' n' [].
Proof.
  intros pre H e u r c bs l last n q o (D&HG&HA&V&HL) Hr Hc HH HX HC [S1 S2] HT. set (x := code_in kbs e r c) in *.
  assert (LEN : length bs = length l) by (apply (contact_length _ _ _ _ _ HC)).
  destruct (stands_at R C _ _ _ _ D Hr Hc) as (k&K&D0). rewrite HH in D0.
  destruct (times_split false (N.to_nat k) bs ltac:(lia) ltac:(lia)) as (a&b&->&TA). cbn [negb] in *.
  rewrite times_app, times_cons in S2. cbn [Bool.eqb] in S2.
  destruct (contact_app _ _ _ _ _ _ _ _ HC) as (l1&l2&->&C1&C2). inv C2. rename l' into l3, y into rd, H2 into G1, H4 into G2.
  rewrite !app_length in *. cbn [length] in *.
  assert (HG0 : good e (set2 H r c false)) by (apply (good_less e H); [apply set_off|exact HG]).
  assert (HA0 : apart e (set2 H r c false)) by (apply (apart_less e H); [apply set_off|exact HA]).
  assert (HG1 : good e (set2 H r c true)) by (apply (good_less e H); [intros r' c'; rewrite set_same by auto; auto|exact HG]).
  assert (HA1 : apart e (set2 H r c true)) by (apply (apart_less e H); [intros r' c'; rewrite set_same by auto; auto|exact HA]).
  assert (SH : short last q). { destruct HL as [[_ ->]|(L&_&_&[-> | ->])]; [left; auto|left; auto|right; auto]. }
  assert (LE : (last <= 0xA0)%N) by (destruct HL as [[-> _]|[L _]]; lia).
  assert (BU : (last < 0xA0)%N -> (N.of_nat (length l1 + S (length l3)) + 1 <= n)%N).
  { intros L. destruct HL as [[-> _]|(_&_&B&_)]; lia. }
  pose proof (contact_length _ _ _ _ _ C1) as LA. pose proof (contact_length _ _ _ _ _ G2) as LB.
  destruct (calm_bounce a l1 pre H r c true k e last n q o D0 Hr Hc HG1 HA1 LE V C1) as (n1&q1&o1&X1&X2&_&X4&X5&X6);
    [cbn [negb]; lia|exact SH|intros L; specialize (BU L); lia|].
  cbn [negb] in X6. rewrite TA in X6. replace (k - N.of_nat (N.to_nat k - 1))%N with 1%N in X6 by lia.
  rewrite scans_app, X1. cbn [PropExact.scans].
  destruct (lift_scan (pre ++ l1) rd H r c e last n1 q1 o1 X6 Hr Hc G1 HG0 HA0 LE V X4) as (last'&n2&Z1&Z2).
  { intros L. specialize (BU L). lia. }
  { exact HX. }
  rewrite Z1, X2. fold x in Z2. pose proof (but_step _ _ _ _ _ _ _ X6 G1 Hr Hc) as D1. change (db (true, 1%N) false) with (false, 10%N) in D1.
  assert (LE' : (last' <= 0xA0)%N) by (destruct Z2 as [[_ ->]|(_&->&_)]; lia).
  destruct (calm_bounce b l3 _ H r c false 10%N e last' n2 [] (o ++ q) D1 Hr Hc HG0 HA0 LE' V G2) as (n3&q2&o2&Y1&Y2&Y3&Y4&Y5&Y6).
  { cbn [negb]. lia. }
  { left. reflexivity. }
  { intros L. destruct Z2 as [[_ ->]|(_&->&Z2)]; [lia|]. specialize (BU L). lia. }
  assert (q2 = [] /\ o2 = o ++ q) as [-> ->].
  { destruct b; [inv G2; cbn [PropExact.scans] in Y1; inv Y1; auto|]. rewrite (Y3 ltac:(discriminate)) in *. rewrite !app_nil_r in Y2. auto. }
  exists last', n3. split; [exact Y1|]. split; [destruct Z2 as [[Z2 ->]|(Z2&->&_)]; auto|]. split; [|split; [exact HG0|split; [exact HA0|split; [exact V|]]]].
  - rewrite <- app_assoc in Y6. rewrite <- app_assoc in Y6. cbn [app] in Y6. exact (stands_on R C _ _ _ _ _ _ Y6 Hr Hc).
  - destruct Z2 as [[_ ->]|(NX&->&Z2)]; [left; auto|]. destruct HL as [[-> _]|(L&(r'&c'&Hr'&Hc'&X&E)&B&_)]; [left; auto|right].
    split; [exact L|]. split; [|split; [lia|auto]]. exists r', c'. repeat split; auto. unfold set2.
    destruct (Nat.eqb_spec r' r), (Nat.eqb_spec c' c); cbn [andb]; auto. subst. contradiction NX. reflexivity.
Qed.

Lemma rolls_scans : forall H e u rds out H' e', rolls R C kbs H e u rds out H' e' ->
  forall pre last n q o, at_rest pre H e u last n q ->
  exists last' n' q' o' u', scans pre rds (mkTy e last false true n q [] o) = mkTy e' last' false true n' q' [] o' /\
    o' ++ q' = o ++ q ++ out /\ at_rest (pre ++ rds) H' e' u' last' n' q'.
Proof.
  intros H e u rds out H' e' HS.
  induction HS as [H e u|H e u rd rds out H' e' HR HB HS IH|H e u r c bs l rds out H' e' Hr Hc HM HP HT HC HB HS IH
                  |H e u r c bs l rds out H' e' Hr Hc HH HX HU HC HB HT HL HS IH
                  |H e u r c bs l rds out H' e' Hr Hc HH HX HC HB HT HS IH]; intros pre last n q o HI.
  - exists last, n, q, o, u. rewrite !app_nil_r. auto.
  - destruct HI as (D&HG&HA&V&HL). cbn [PropExact.scans].
    assert (SH : short last q). { destruct HL as [[_ ->]|(L&_&_&[-> | ->])]; [left; auto|left; auto|right; auto]. }
    assert (LE : (last <= 0xA0)%N) by (destruct HL as [[-> _]|[L _]]; lia).
    assert (TY : (last < 0xA0)%N -> S u <= 525 /\ (526 <= n + N.of_nat u)%N).
    { intros L. destruct HL as [[-> _]|(_&(r'&c'&Hr'&Hc'&X&E)&B&_)]; [lia|]. split; [|exact B]. apply HB. exists r', c'. repeat split; auto. lia. }
    destruct (calm_scan pre rd H e last n q o HG HA LE V) as (n1&X1&X2).
    { intros r c Hr Hc. destruct (calm_stand pre rd H r c) as [X|X]; [apply D; auto|apply HR; auto|left; rewrite X; apply still_nil|right; exact X]. }
    { exact SH. }
    { intros L. specialize (TY L). lia. }
    rewrite X1. destruct (IH (pre ++ [rd]) last n1 [] (o ++ q)) as (last'&n'&q'&o'&u'&Y1&Y2&Y3).
    + split; [|split; [exact HG|split; [exact HA|split; [exact V|]]]].
      * intros r c Hr Hc. rewrite key_snoc, (HR r c Hr Hc), db_stays; apply D; auto.
      * destruct HL as [[-> _]|(L&W&B&_)]; [left; auto|right]. split; [exact L|]. split; [exact W|]. split; [lia|auto].
    + exists last', n', q', o', u'. split; [exact Y1|]. split; [rewrite Y2, <- app_assoc; reflexivity|]. rewrite <- app_assoc in Y3. exact Y3.
  - destruct HI as (D&HG&HA&V&HL).
    assert (M : modes_only R C kbs H).
    { intros r' c' Hr' Hc' X. destruct (HG r' c' Hr' Hc' X) as [Y|Y]; [exact Y|]. contradiction HT. exists r', c'. auto. }
    assert (last = 0xA0%N /\ q = []) as [-> ->].
    { destruct HL as [HL|(L&(r'&c'&Hr'&Hc'&X&E)&_)]; [exact HL|]. contradiction HT. exists r', c'. repeat split; auto. lia. }
    destruct (mode_bounce R C kbs quiet pre H r c bs l e n o D M Hr Hc HM HP HC HB V) as [X1 X2].
    assert (M' : modes_only R C kbs (set2 H r c (negb (H r c)))).
    { intros r' c' Hr' Hc'. unfold set2. destruct (Nat.eqb_spec r' r), (Nat.eqb_spec c' c); cbn [andb]; auto. subst. auto. }
    assert (V' : kbs (e_kb (after_event kbs e (r, c, negb (H r c)))) <> None).
    { destruct (H r c); cbn [negb after_event]; auto using press_valid, release_valid. }
    destruct (IH (pre ++ l) 0xA0%N n [] o) as (last'&n'&q'&o'&u'&Y1&Y2&Y3).
    + split; [exact X2|]. split; [|split; [|split; [exact V'|left; auto]]].
      * intros r' c' Hr' Hc' X. left. apply M'; auto.
      * intros r1 c1 r2 c2 Hr1 Hc1 Z1 Hr2 Hc2 Z2 L _. specialize (M' r1 c1 Hr1 Hc1 Z1 _ V'). lia.
    + exists last', n', q', o', u'. rewrite scans_app, X1. rewrite <- app_assoc in Y3. auto.
  - destruct (press_bounce pre H e u r c bs l last n q o HI Hr Hc HH HX HU HC HB HT HL) as (n1&q1&o1&X1&X2&X3).
    destruct (IH _ _ _ _ o1 X3) as (last'&n'&q'&o'&u'&Y1&Y2&Y3). exists last', n', q', o', u'. rewrite scans_app, X1. split; [exact Y1|].
    rewrite <- app_assoc in Y3. split; [|exact Y3]. rewrite Y2, app_assoc, X2, <- !app_assoc. reflexivity.
  - destruct (lift_bounce pre H e u r c bs l last n q o HI Hr Hc HH HX HC HB HT) as (last1&n1&X1&_&X2).
    destruct (IH _ _ _ _ (o ++ q) X2) as (last'&n'&q'&o'&u'&Y1&Y2&Y3). exists last', n', q', o', u'. rewrite scans_app, X1. split; [exact Y1|].
    rewrite <- app_assoc in Y3. split; [|exact Y3]. rewrite Y2, <- app_assoc. reflexivity.
Qed.
End Scan.

(** ** C125 *)
Lemma moved_out : forall kbs t v, t_out (moved kbs t v) = t_out t.
Proof.
  intros kbs t [[r c] m]. cbn [moved]. generalize (code_in kbs (t_set t) r c). intros x.
  assert (P : forall id t, t_out (prints kbs id t) = t_out t) by (intros id t0; unfold prints; destruct (kbs _); reflexivity).
  assert (Y : forall x t, t_out (types x t) = t_out t) by (intros x0 t0; unfold types; destruct (_ =? _)%N; reflexivity).
  destruct m.
  - unfold on_press. destruct (x <=? 0xA0)%N; [apply Y|]. destruct (decode x); try reflexivity; try apply P.
    + destruct (_ || _); reflexivity.
    + match goal with |- context [if ?b then _ else _] => destruct b end; [apply P|reflexivity].
  - unfold on_release. destruct (x <=? 0xA0)%N; [destruct (x =? _)%N; reflexivity|]. destruct (decode x); reflexivity.
  - unfold on_held. destruct (_ && _); [|reflexivity]. destruct (_ =? 1)%N; [rewrite Y; reflexivity|reflexivity].
Qed.
Lemma folded_out : forall kbs l t, t_out (fold_left (moved kbs) l t) = t_out t.
Proof. intros kbs l. induction l as [|v l IH]; intros t; [reflexivity|]. cbn [fold_left]. rewrite IH. apply moved_out. Qed.

(** From power-on, whatever the keymaps: at most one character is still to be
    sent, and one more scan sends it, whatever the keys do by then. *)
Theorem C125_rolls : forall R C kbs rds out H e, sound_firmware R kbs -> same_size R C kbs -> scan_hook_free kbs ->
  rolls R C kbs (fun _ _ => false) (at_start kbs) 0 rds out H e ->
  (forall s, c_run kbs rds = Ok s ->
     (exists late, out = sent s ++ late /\ length late <= 1) /\ setting_is e s /\ forall r c, r < R -> c < C -> down s r c = H r c) /\
  (forall rd s, c_run kbs (rds ++ [rd]) = Ok s -> sent s = out).
Proof.
  intros R C kbs rds out H e HS HZ HQ HE.
  destruct (rolls_scans R C kbs HQ _ _ _ _ _ _ _ HE [] 0xA0%N 525%N [] []) as (last&n&q&o&u&X1&X2&X3&_&_&X4&X5).
  { split; [|split; [|split; [|split; [|left; auto]]]].
    - intros r c _ _. reflexivity.
    - intros r c _ _ X. discriminate X.
    - intros r c r' c' _ _ X. discriminate X.
    - destruct (proj1 HS) as [cs E0]. cbn. congruence. }
  cbn [app] in X2, X3. change (mkTy (at_start kbs) 0xA0 false true 525 [] [] []) with (starts kbs) in X1.
  assert (SH : short last q). { destruct X5 as [[_ ->]|(L&_&_&[-> | ->])]; [left; auto|left; auto|right; auto]. }
  split.
  - intros s ES. rewrite (C104_exact R C kbs rds s HS HZ ES). unfold output_of. rewrite X1. cbn [t_out]. split; [|split].
    + exists q. split; [symmetry; exact X2|]. destruct SH as [-> |[-> _]]; cbn; lia.
    + destruct (run_ok_g R kbs HS rds) as (g&s'&E1&T1&E2&RL). rewrite ES in E2. inv E2.
      destruct (exact_run kbs R C HS HZ rds) as [g' (E3&[IS _])]. rewrite E1 in E3. inv E3. rewrite X1 in IS. exact (set_is _ _ _ RL IS).
    + intros r c Hr Hc. rewrite <- (X3 r c Hr Hc). apply (run_dbp R kbs HS C (at_least_size kbs R C HS HZ) rds s r c ES Hr Hc).
  - intros rd s ES. rewrite (C104_exact R C kbs _ s HS HZ ES). unfold output_of. rewrite scans_app, X1. cbn [PropExact.scans].
    rewrite folded_out, (starts_short kbs HQ e last n q o X4 SH). exact X2.
Qed.
Print Assumptions C125_rolls.

(** ** Specification, in continuous time *)
(** As [rolls]: from time [a] to time [z], the last stroke having begun at [b];
    as long as a character key is down, at most half a second from the beginning
    of one stroke to the end of the next. *)
Inductive c_rolls (R C : nat) (kbs : N -> option (list setup_cmd)) (W : nat -> nat -> N) (G : nat) :
    nat -> nat -> (nat -> nat -> bool) -> setting -> nat -> list N -> (nat -> nat -> bool) -> setting -> Prop :=
| cr_done : forall b a H e, c_rolls R C kbs W G b a H e a [] H e
| cr_wait : forall b a d z H e out H' e', c_rests R C W H a d -> (typing R C kbs e H -> d <= b + 500) ->
    c_rolls R C kbs W G b d H e z out H' e' -> c_rolls R C kbs W G b a H e z out H' e'
| cr_mode : forall b a d z H e r c out H' e', r < R -> c < C -> mode_key kbs r c -> plain_code (code_in kbs e r c) ->
    ~ typing R C kbs e H -> c_moves R C W G H r c (negb (H r c)) a d ->
    c_rolls R C kbs W G d d (set2 H r c (negb (H r c))) (after_event kbs e (r, c, negb (H r c))) z out H' e' ->
    c_rolls R C kbs W G b a H e z out H' e'
| cr_press : forall b a d z H e r c out H' e', r < R -> c < C -> H r c = false -> (code_in kbs e r c < 0xA0)%N ->
    (forall r' c', r' < R -> c' < C -> H r' c' = true -> code_in kbs e r' c' <> code_in kbs e r c) ->
    c_moves R C W G H r c true a d -> (typing R C kbs e H -> d <= b + 500) -> d <= a + 500 ->
    c_rolls R C kbs W G a d (set2 H r c true) e z out H' e' ->
    c_rolls R C kbs W G b a H e z (code_in kbs e r c :: out) H' e'
| cr_lift : forall b a d z H e r c out H' e', r < R -> c < C -> H r c = true -> (code_in kbs e r c < 0xA0)%N ->
    c_moves R C W G H r c false a d -> d <= b + 500 ->
    c_rolls R C kbs W G b d (set2 H r c false) e z out H' e' ->
    c_rolls R C kbs W G b a H e z out H' e'.

Section Passes.
Context (R C : nat) (W : nat -> nat -> N) (G n top : nat) (E : nat -> nat) (T : nat -> nat -> nat) (Z : nat).
Hypothesis scan_in : forall i, n <= i < top -> in_order (T i) (E i) (E (S i)).
Hypothesis progress : forall i j, n <= i <= j -> j <= top -> E i + (j - i) <= E j + 1.
Hypothesis step_le : forall i, n <= i < top -> E i < Z -> E (S i) <= E i + G.
Hypothesis steps_up : forall i j, n <= i <= j -> j <= top -> E i <= E j.
Hypothesis enough : Z <= E top.
Let rd (i : nat) : nat -> N := reads_at W (T i).

Lemma r_wait_scans : forall kbs H e u p q out H' e' rest, p <= q ->
  (forall i, p <= i < q -> reads R C H (rd i)) -> (typing R C kbs e H -> u + (q - p) <= 525) ->
  rolls R C kbs H e (u + (q - p)) rest out H' e' ->
  rolls R C kbs H e u (map rd (seq p (q - p)) ++ rest) out H' e'.
Proof.
  intros kbs H e u p q out H' e' rest Hpq HS HT HB. remember (q - p) as l eqn:EL. revert p u EL Hpq HS HT HB.
  induction l as [|l IH]; intros p u EL Hpq HS HT HB; [rewrite Nat.add_0_r in HB; exact HB|]. cbn [seq map app]. constructor; [apply HS; lia|intros TY; specialize (HT TY); lia|].
  apply IH; [lia|lia| | |].
  - intros i Hi. apply HS. lia.
  - intros TY. specialize (HT TY). lia.
  - replace (S u + l) with (u + S l) by lia. exact HB.
Qed.
Lemma few_scans : forall p0 b q d, n <= p0 <= q -> q < top -> b <= E (S p0) -> E q <= d -> d <= b + 500 -> q - p0 <= 525.
Proof.
  intros p0 b q d H1 H2 H3 H4 H5. destruct (Nat.eq_dec q p0) as [-> |NE]; [lia|].
  pose proof (progress (S p0) q ltac:(lia) ltac:(lia)). lia.
Qed.

Lemma c_rolls_scans : forall kbs b a H e z out H' e', c_rolls R C kbs W G b a H e z out H' e' ->
  a <= z /\ forall p0 p u, n <= p0 <= p -> p < top -> b <= E (S p0) -> u <= p - p0 -> E p <= a <= E (S p) -> c_settled R C W G n E H a -> z <= Z ->
  exists q, p <= q < top /\ E q <= z <= E (S q) /\ rolls R C kbs H e u (map rd (seq p (q - p))) out H' e'.
Proof.
  intros kbs b a H e z out H' e' HS. induction HS as
    [b a H e|b a d z H e out H' e' [HL HR] HT HS [IL IH]
    |b a d z H e r c out H' e' Hr Hc HM HP HT M1 HS [IL IH]
    |b a d z H e r c out H' e' Hr Hc HD HK HU M1 HT HB HS [IL IH]
    |b a d z H e r c out H' e' Hr Hc HD HK M1 HT HS [IL IH]].
  - split; [lia|]. intros p0 p u Hp0 Hp _ _ HE _ _. exists p. rewrite Nat.sub_diag. split; [lia|]. split; [exact HE|]. constructor.
  - split; [lia|]. intros p0 p u Hp0 Hp HB HU HE HN HZ.
    destruct (c_next_scan W G n top E T Z scan_in progress step_le steps_up enough p d ltac:(lia) ltac:(lia) ltac:(lia)) as (q&Q1&Q2&Q3).
    assert (ST : c_settled R C W G n E H d).
    { intros t H1 H2. destruct (Nat.le_gt_cases a t); [apply HR; lia|apply HN; lia]. }
    destruct (IH p0 q (u + (q - p)) ltac:(lia) ltac:(lia) HB ltac:(lia) Q2 ST HZ) as (v&U1&U2&U3). exists v. split; [lia|]. split; [exact U2|].
    unfold rd. rewrite (c_rd_split W G n top E T Z scan_in progress step_le steps_up enough p q v) by lia. apply r_wait_scans; [lia| | |exact U3].
    + intros i Hi r c Hr Hc. destruct (scan_in i ltac:(lia)) as [S1 _]. specialize (S1 r). specialize (Q3 i Hi).
      pose proof (steps_up p i ltac:(lia) ltac:(lia)). pose proof (steps_up n p ltac:(lia) ltac:(lia)).
      pose proof (step_le p ltac:(lia) ltac:(lia)).
      change (reading (rd i) r c) with (reading (W (T i r)) r c).
      destruct (Nat.le_gt_cases a (T i r)); [apply HR; auto; lia|apply HN; auto; lia].
    + intros TY. pose proof (few_scans p0 b q d ltac:(lia) ltac:(lia) HB ltac:(lia) (HT TY)). lia.
  - pose proof M1 as [L1 _]. split; [lia|]. intros p0 p u Hp0 Hp HB HU HE HN HZ.
    destruct (c_segment R C W G n top E T Z scan_in progress step_le steps_up enough H r c _ a d p Hr Hc M1 (c_settled_nearly _ _ _ _ _ _ _ _ _ _ HN) ltac:(lia) ltac:(lia) HE)
      as (q&bs&Q1&Q2&R1&S1&B1&T1).
    destruct (IH q q 0 ltac:(lia) ltac:(lia) ltac:(lia) ltac:(lia) Q2 T1 HZ) as (v&V1&V2&V3).
    exists v. split; [lia|]. split; [exact V2|]. unfold rd. rewrite (c_rd_split W G n top E T Z scan_in progress step_le steps_up enough p q v) by lia. apply (ro_mode R C kbs H e u r c bs); auto.
  - pose proof M1 as [L1 _]. split; [lia|]. intros p0 p u Hp0 Hp HB' HU' HE HN HZ.
    destruct (c_segment R C W G n top E T Z scan_in progress step_le steps_up enough H r c _ a d p Hr Hc M1 (c_settled_nearly _ _ _ _ _ _ _ _ _ _ HN) ltac:(lia) ltac:(lia) HE)
      as (q&bs&Q1&Q2&R1&S1&B1&T1).
    destruct (IH p q (q - p) ltac:(lia) ltac:(lia) ltac:(lia) ltac:(lia) Q2 T1 HZ) as (v&V1&V2&V3).
    exists v. split; [lia|]. split; [exact V2|]. unfold rd. rewrite (c_rd_split W G n top E T Z scan_in progress step_le steps_up enough p q v) by lia.
    apply (ro_press R C kbs H e u r c bs); auto; rewrite ?map_length, ?seq_length.
    + intros TY. pose proof (few_scans p0 b q d ltac:(lia) ltac:(lia) HB' ltac:(lia) (HT TY)). lia.
    + apply (few_scans p a q d); lia.
    + exact V3.
  - pose proof M1 as [L1 _]. split; [lia|]. intros p0 p u Hp0 Hp HB' HU' HE HN HZ.
    destruct (c_segment R C W G n top E T Z scan_in progress step_le steps_up enough H r c _ a d p Hr Hc M1 (c_settled_nearly _ _ _ _ _ _ _ _ _ _ HN) ltac:(lia) ltac:(lia) HE)
      as (q&bs&Q1&Q2&R1&S1&B1&T1).
    destruct (IH p0 q (u + (q - p)) ltac:(lia) ltac:(lia) HB' ltac:(lia) Q2 T1 HZ) as (v&V1&V2&V3).
    exists v. split; [lia|]. split; [exact V2|]. unfold rd. rewrite (c_rd_split W G n top E T Z scan_in progress step_le steps_up enough p q v) by lia.
    apply (ro_lift R C kbs H e u r c bs); auto; rewrite ?map_length, ?seq_length.
    + pose proof (few_scans p0 b q d ltac:(lia) ltac:(lia) HB' ltac:(lia) HT). lia.
    + exact V3.
Qed.
End Passes.

(** ** C126 *)
Lemma c_rolls_le : forall R C kbs W G b a H e z out H' e', c_rolls R C kbs W G b a H e z out H' e' -> a <= z.
Proof. intros R C kbs W G b a H e z out H' e' HS. induction HS; unfold c_rests, c_moves in *; lia. Qed.

(** From power-on; times run from the end of the initialisation.  The scan in
    progress at the end sends the last character, if it has not left yet. *)
Theorem C126_rolls_in_continuous_time : forall R C kbs P W G Z out H e,
  sound_firmware R kbs -> same_size R C kbs -> scan_hook_free kbs ->
  (forall i, c_ended kbs P W i < Z -> c_ended kbs P W (S i) <= c_ended kbs P W i + G) ->
  c_rolls R C kbs W G (c_ended kbs P W 0) (c_ended kbs P W 0) (fun _ _ => false) (at_start kbs) Z out H e ->
  exists N s c s' c', c_clock kbs P W N = Ok (s, c) /\ c_clock kbs P W (S N) = Ok (s', c') /\
    c_ended kbs P W N <= Z <= c_ended kbs P W (S N) /\
    (exists late, out = sent s ++ late /\ length late <= 1) /\ sent s' = out /\ map snd (rev (stamps (jc c'))) = out /\
    setting_is e s /\ forall r c, r < R -> c < C -> down s r c = H r c.
Proof.
  intros R C kbs P W G Z out H e HS HZ HQ HG HE. assert (K0 : kbs 0%N <> None) by (destruct (proj1 HS); congruence).
  assert (TOT : forall n, exists s x, c_clock kbs P W n = Ok (s, x)).
  { intros n. pose proof (c_trace kbs P W K0 n) as X. destruct (c_clock kbs P W n) as [[s x]|u]; [eauto|].
    destruct X as [T X]. destruct (C98_any_keymaps_safe R kbs (readings_of W T n) HS) as [s E]. congruence. }
  pose proof (c_rolls_le _ _ _ _ _ _ _ _ _ _ _ _ _ HE) as AZ.
  set (E := c_ended kbs P W) in *. set (top := (Z - E 0) + 1).
  destruct (TOT top) as (st&xt&ET). pose proof (c_trace kbs P W K0 top) as X. rewrite ET in X. destruct X as (T&g&RT&_&F1&F2&_&_).
  assert (PR : forall i j, i <= j -> E i + (j - i) <= E j + 1).
  { clear -TOT K0. intros i j Hij. destruct (TOT i) as (si&xi&Ei). destruct (TOT j) as (sj&xj&Ej). unfold E.
    rewrite (c_ended_ok _ _ _ _ _ _ Ei), (c_ended_ok _ _ _ _ _ _ Ej). replace j with (i + (j - i)) in Ej by lia.
    pose proof (c_ended_ge kbs P W K0 _ _ _ _ _ _ Ei Ej) as PD. unfold paid, jt in PD. destruct (flag (jc xj)); lia. }
  destruct (c_rolls_scans R C W G 0 top E T Z) with (kbs := kbs) (b := E 0) (a := E 0) (H := fun _ _ : nat => false) (e := at_start kbs) (z := Z)
    (out := out) (H' := H) (e' := e) as [_ Y].
  - intros i Hi. apply F1. (clear -Hi; lia).
  - intros i j Hij _. apply PR. (clear -Hij; lia).
  - intros i Hi HZ'. apply HG. exact HZ'.
  - intros i j Hij Hj. apply (c_ended_mono kbs P W K0 top st xt); [exact ET|(clear -Hij Hj; lia)].
  - specialize (PR 0 top). unfold top in *. clear -PR AZ. lia.
  - exact HE.
  - assert (E01 : E 0 <= E 1) by (apply (c_ended_mono kbs P W K0 top st xt); [exact ET|unfold top; clear; lia]).
    destruct (Y 0 0 0) as (q&Q1&Q2&QB).
    + (clear; lia).
    + unfold top. (clear; lia).
    + exact E01.
    + (clear; lia).
    + split; [(clear; lia)|exact E01].
    + intros t Ht. (clear -Ht; lia).
    + (clear; lia).
    + destruct (F2 q) as (s&c&Eq&Rq); [(clear -Q1; lia)|]. destruct (F2 (S q)) as (s'&c'&Eq'&Rq'); [(clear -Q1; lia)|]. rewrite Nat.sub_0_r in QB.
      destruct (C125_rolls R C kbs _ out H e HS HZ HQ QB) as [A B]. destruct (A s Rq) as (A1&A2&A3).
      assert (A4 : sent s' = out).
      { apply (B (reads_at W (T q))). rewrite <- Rq'. f_equal. unfold readings_of. rewrite seq_S, map_app. reflexivity. }
      exists q, s, c, s', c'. split; [exact Eq|]. split; [exact Eq'|]. split; [exact Q2|]. split; [exact A1|]. split; [exact A4|]. split; [|split; [exact A2|exact A3]].
      pose proof (c_trace kbs P W K0 (S q)) as X. rewrite Eq' in X. destruct X as (_&_&_&_&_&_&ST&_).
      rewrite map_rev, ST, rev_involutive. exact A4.
Qed.
Print Assumptions C126_rolls_in_continuous_time.

(** ** Examples: the keyboard of C104 *)
(** SHIFT, then "a" and "b" overlapping, every contact bouncing. *)
Definition rolling : list (nat -> N) :=
  hold 3 [] ++ presses [(0, 2)] [] (going true) ++ presses [(0, 2); (0, 0)] [(0, 2)] (going true) ++
  presses [(0, 2); (0, 0); (0, 1)] [(0, 2); (0, 0)] (going true) ++ presses [(0, 2); (0, 0); (0, 1)] [(0, 2); (0, 1)] (going false) ++
  hold 1 [(0, 2); (0, 1)] ++ presses [(0, 2); (0, 1)] [(0, 2)] (going false) ++ presses [(0, 2)] [] (going false).
Lemma none_typing : forall e H, (forall c, c < 8 -> H 0 c = true -> (0xA0 <= code_in desk e 0 c)%N) -> ~ typing 1 8 desk e H.
Proof. intros e H X (r&c&Hr&Hc&HD&L). assert (r = 0) as -> by lia. specialize (X c Hc HD). lia. Qed.
Ltac each_key := let c := fresh "c" in let L := fresh in intros c L;
  do 8 (destruct c as [|c]; [vm_compute; (discriminate || intros; discriminate)|]); lia.
Example C125_example : (exists H e, rolls 1 8 desk (fun _ _ => false) (at_start desk) 0 rolling [65; 66]%N H e) /\
  obs (fun s => (sent s, shift_on s, down s 0 1)) (c_run desk rolling) = Some ([65; 66]%N, false, false).
Proof.
  split; [|vm_compute; reflexivity].
  assert (ST : forall b, settles b (going b)) by (intros []; split; vm_compute; lia).
  unfold rolling, hold. cbn [repeat app]. do 2 eexists. do 3 (apply ro_wait; [apply row_b_ok; reflexivity|lia|]).
  eapply (ro_mode 1 8 desk _ _ _ 0 2 (going true)); [lia|lia|exact shift_mode|exact I|apply none_typing; each_key|apply contact_presses; reflexivity|apply ST|].
  match goal with |- rolls _ _ _ _ ?e _ _ _ _ _ => change [65; 66]%N with [code_in desk e 0 0; code_in desk e 0 1] end.
  eapply (ro_press 1 8 desk _ _ _ 0 0 (going true)); [lia|lia|reflexivity|reflexivity| |apply contact_presses; reflexivity|apply ST|vm_compute; lia|vm_compute; lia|].
  { intros r c Hr. assert (r = 0) as -> by lia. revert c. each_key. }
  eapply (ro_press 1 8 desk _ _ _ 0 1 (going true)); [lia|lia|reflexivity|reflexivity| |apply contact_presses; reflexivity|apply ST|vm_compute; lia|vm_compute; lia|].
  { intros r c Hr. assert (r = 0) as -> by lia. revert c. each_key. }
  eapply (ro_lift 1 8 desk _ _ _ 0 0 (going false)); [lia|lia|reflexivity|reflexivity|apply contact_presses; reflexivity|apply (ST false)|vm_compute; lia|].
  apply ro_wait; [apply row_b_ok; reflexivity|vm_compute; lia|].
  eapply (ro_lift 1 8 desk _ _ _ 0 1 (going false)); [lia|lia|reflexivity|reflexivity|apply contact_presses; reflexivity|apply (ST false)|vm_compute; lia|].
  rewrite <- (app_nil_r (presses [(0, 2)] [] (going false))).
  eapply (ro_mode 1 8 desk _ _ _ 0 2 (going false)); [lia|lia|exact shift_mode|exact I|apply none_typing; each_key|apply contact_presses; reflexivity|apply (ST false)|].
  apply ro_done.
Qed.

(** In continuous time: "a" from 20 to 110 ms, "b" from 65 to 160 ms, with
    bounces; every fifth piece of computing is interrupted. *)
Definition roll_keys (t : nat) : list (nat * nat) :=
  (if existsb (Nat.eqb t) [20; 22; 23; 112; 115] || ((26 <=? t) && (t <? 110)) then [(0, 0)] else []) ++
  (if existsb (Nat.eqb t) [65; 68; 70; 161; 164] || ((71 <=? t) && (t <? 160)) then [(0, 1)] else []).
Definition roll_world (t : nat) : nat -> N := matrix (roll_keys t).
Lemma r_rests_check : forall H a z, a <= z -> forallb (fun t => row_b H (roll_keys t)) (seq a (z - a)) = true -> c_rests 1 8 roll_world H a z.
Proof.
  intros H a z L HF. split; [exact L|]. intros t Ht. apply row_b_ok. rewrite forallb_forall in HF. apply HF. apply in_seq. lia.
Qed.
Lemma r_moves_check : forall G H c b a z, a + 7 + 11 * G <= z ->
  forallb (fun t => row_b (set2 H 0 c b) (roll_keys t) || (t <? a + 7) && row_b (set2 H 0 c (negb b)) (roll_keys t)) (seq a (z - a)) = true ->
  c_moves 1 8 roll_world G H 0 c b a z.
Proof.
  intros G H c b a z L HF. split; [exact L|]. intros t Ht. rewrite forallb_forall in HF. specialize (HF t).
  apply orb_true_iff in HF; [|apply in_seq; lia]. destruct HF as [HF|HF].
  - exists b. split; [apply row_b_ok; exact HF|reflexivity].
  - apply andb_true_iff in HF. destruct HF as [H1 H2]. exists (negb b). split; [apply row_b_ok; exact H2|]. intros H3. lia.
Qed.
Example C126_example :
  c_ended desk slow roll_world 0 = 1 /\
  (forall i, c_ended desk slow roll_world i < 205 -> c_ended desk slow roll_world (S i) <= c_ended desk slow roll_world i + 3) /\
  (exists H e, c_rolls 1 8 desk roll_world 3 1 1 (fun _ _ => false) (at_start desk) 205 [97; 98]%N H e) /\
  bind (c_clock desk slow roll_world 170) (fun p => Ok (now (jc (snd p)), stamps (jc (snd p)))) = Ok (205, [(79, 98%N); (32, 97%N)]).
Proof.
  split; [vm_compute; reflexivity|]. split; [|split; [|vm_compute; reflexivity]].
  - intros i Hz. destruct (Nat.le_gt_cases i 215) as [L|L].
    + assert (F : forallb (fun i => c_ended desk slow roll_world (S i) <=? c_ended desk slow roll_world i + 3) (seq 0 216) = true) by (vm_compute; reflexivity).
      rewrite forallb_forall in F. apply Nat.leb_le. apply F. apply in_seq. (clear -L; lia).
    + exfalso. assert (K0 : desk 0%N <> None) by discriminate.
      assert (TOT : exists s x, c_clock desk slow roll_world i = Ok (s, x)).
      { destruct (C110_whole_board_in_real_time 1 8 desk slow roll_world i (proj1 desk_sound) (proj1 (proj2 desk_sound))) as (s&c&T&E&_). eauto. }
      destruct TOT as (s&x&E).
      pose proof (c_ended_mono desk slow roll_world K0 i s x 215 i E ltac:(clear -L; lia)) as M.
      assert (K : (205 <=? c_ended desk slow roll_world 215) = true) by (vm_compute; reflexivity). apply Nat.leb_le in K. (clear -M K Hz; lia).
  - do 2 eexists. apply (cr_wait 1 8 desk roll_world 3 1 1 20); [apply r_rests_check; [lia|vm_compute; reflexivity]|lia|].
    change [97; 98]%N with [code_in desk (at_start desk) 0 0; code_in desk (at_start desk) 0 1].
    eapply (cr_press 1 8 desk roll_world 3 1 20 65 205 _ _ 0 0); [lia|lia|reflexivity|reflexivity| |apply r_moves_check; [lia|vm_compute; reflexivity]|lia|lia|].
    { intros r c Hr. assert (r = 0) as -> by lia. revert c. each_key. }
    eapply (cr_press 1 8 desk roll_world 3 20 65 110 205 _ _ 0 1); [lia|lia|reflexivity|reflexivity| |apply r_moves_check; [lia|vm_compute; reflexivity]|lia|lia|].
    { intros r c Hr. assert (r = 0) as -> by lia. revert c. each_key. }
    eapply (cr_lift 1 8 desk roll_world 3 65 110 160 205 _ _ 0 0); [lia|lia|reflexivity|reflexivity|apply r_moves_check; [lia|vm_compute; reflexivity]|lia|].
    eapply (cr_lift 1 8 desk roll_world 3 65 160 205 205 _ _ 0 1); [lia|lia|reflexivity|reflexivity|apply r_moves_check; [lia|vm_compute; reflexivity]|lia|].
    apply cr_done.
Qed.
