(** Typing with several keys down at once, under any keymaps (C114). *)
From Coq Require Import List NArith ZArith Arith Bool Lia.
From Coq Require Import ZifyBool ZifyNat ZifyN.
From Verif Require Import Base Lib Buffer Repeat Devices Modifiers Hook KeymapData Asdf KeySpec Obs PropDebounce
     Custom CustomSpec CustomRef PropCustom PropEvents PropFlow PropExact PropSession PropAnyHands.
Import ListNotations.

(** ** Specification *)
(** What the keys do in a scan, move by move, from modes [e] and the character
    [l] struck last and not lifted since, with the number of times it has been
    read as held: the characters struck.  No character is struck while it is
    that one, none is read as held more than 524 times, and the other keys that
    move neither print messages nor have to do with repeating. *)
Inductive strikes (kbs : N -> option (list setup_cmd)) :
  list (nat * nat * move) -> setting -> option (N * nat) -> list N -> setting -> option (N * nat) -> Prop :=
| s_none : forall e l, strikes kbs [] e l [] e l
| s_strike : forall r c ms e l out e' l', (code_in kbs e r c < 0xA0)%N -> (forall n, l <> Some (code_in kbs e r c, n)) ->
    strikes kbs ms e (Some (code_in kbs e r c, 0)) out e' l' ->
    strikes kbs ((r, c, Press) :: ms) e l (code_in kbs e r c :: out) e' l'
| s_lift : forall r c ms e l out e' l', (code_in kbs e r c < 0xA0)%N ->
    strikes kbs ms e (match l with Some (x, n) => if (x =? code_in kbs e r c)%N then None else l | None => None end) out e' l' ->
    strikes kbs ((r, c, Release) :: ms) e l out e' l'
| s_held : forall r c ms e l out e' l', code_in kbs e r c <> 0xA0%N -> (forall n, l = Some (code_in kbs e r c, n) -> n < 524) ->
    strikes kbs ms e (match l with Some (x, n) => if (x =? code_in kbs e r c)%N then Some (x, S n) else l | None => None end) out e' l' ->
    strikes kbs ((r, c, Held) :: ms) e l out e' l'
| s_mode : forall r c b ms e l out e' l', (0xA0 < code_in kbs e r c)%N -> plain_code (code_in kbs e r c) ->
    strikes kbs ms (after_event kbs e (r, c, b)) l out e' l' ->
    strikes kbs ((r, c, if (b : bool) then Press else Release) :: ms) e l out e' l'.

(** Scan after scan, one character leaving per scan, never more than 16 waiting:
    the readings before, modes, character struck last, number waiting; the
    characters struck; the same at the end. *)
Inductive typed (R C : nat) (kbs : N -> option (list setup_cmd)) :
  list (nat -> N) -> list (nat -> N) -> setting -> option (N * nat) -> nat -> list N -> setting -> option (N * nat) -> nat -> Prop :=
| t_none : forall pre e l p, typed R C kbs pre [] e l p [] e l p
| t_scan : forall pre rd rds e l p new e1 l1 out e' l' p',
    strikes kbs (scan_moves R C pre rd) e l new e1 l1 -> pred p + length new <= 16 ->
    typed R C kbs (pre ++ [rd]) rds e1 l1 (pred p + length new) out e' l' p' ->
    typed R C kbs pre (rd :: rds) e l p (new ++ out) e' l' p'.

(** In terms of the keys: [D] lists the character keys down and how often each
    has been read as held.  A key may be struck whatever other keys are down, as
    long as none of them has the same character; none is read as held more
    than 524 times; mode keys move when no character key is down. *)
Definition hand : Type := list (nat * nat * nat).
Inductive fingers (kbs : N -> option (list setup_cmd)) :
  list (nat * nat * move) -> setting -> hand -> list N -> setting -> hand -> Prop :=
| f_none : forall e D, fingers kbs [] e D [] e D
| f_strike : forall r c ms e D out e' D', (code_in kbs e r c < 0xA0)%N ->
    (forall r' c' n, In (r', c', n) D -> code_in kbs e r' c' <> code_in kbs e r c) ->
    fingers kbs ms e ((r, c, 0) :: D) out e' D' ->
    fingers kbs ((r, c, Press) :: ms) e D (code_in kbs e r c :: out) e' D'
| f_lift : forall r c n ms e D1 D2 out e' D', fingers kbs ms e (D1 ++ D2) out e' D' ->
    fingers kbs ((r, c, Release) :: ms) e (D1 ++ (r, c, n) :: D2) out e' D'
| f_held : forall r c n ms e D1 D2 out e' D', n < 524 -> fingers kbs ms e (D1 ++ (r, c, S n) :: D2) out e' D' ->
    fingers kbs ((r, c, Held) :: ms) e (D1 ++ (r, c, n) :: D2) out e' D'
| f_mode : forall r c b ms e out e' D', (0xA0 < code_in kbs e r c)%N -> plain_code (code_in kbs e r c) ->
    fingers kbs ms (after_event kbs e (r, c, b)) [] out e' D' ->
    fingers kbs ((r, c, if (b : bool) then Press else Release) :: ms) e [] out e' D'
| f_mode_held : forall r c ms e D out e' D', (0xA0 < code_in kbs e r c)%N ->
    fingers kbs ms e D out e' D' -> fingers kbs ((r, c, Held) :: ms) e D out e' D'.
Inductive rollover (R C : nat) (kbs : N -> option (list setup_cmd)) :
  list (nat -> N) -> list (nat -> N) -> setting -> hand -> nat -> list N -> setting -> hand -> nat -> Prop :=
| r_none : forall pre e D p, rollover R C kbs pre [] e D p [] e D p
| r_scan : forall pre rd rds e D p new e1 D1 out e' D' p',
    fingers kbs (scan_moves R C pre rd) e D new e1 D1 -> pred p + length new <= 16 ->
    rollover R C kbs (pre ++ [rd]) rds e1 D1 (pred p + length new) out e' D' p' ->
    rollover R C kbs pre (rd :: rds) e D p (new ++ out) e' D' p'.

(** ** Proofs *)
Definition last_of (l : option (N * nat)) : N := match l with Some (x, _) => x | None => 0xA0%N end.
Definition counts (l : option (N * nat)) (left : N) : Prop :=
  match l with Some (x, n) => (x < 0xA0)%N /\ n <= 524 /\ (left = 525 - N.of_nat n)%N | None => True end.

Section Proof.
Variable R C : nat.
Variable kbs : N -> option (list setup_cmd).
Hypothesis quiet : scan_hook_free kbs.

Lemma strikes_moves : forall ms e l out e' l', strikes kbs ms e l out e' l' -> kbs (e_kb e) <> None ->
  forall left q o, counts l left -> length q + length out <= 16 ->
  kbs (e_kb e') <> None /\ Forall (fun x => x < 0xA0)%N out /\
  exists left', counts l' left' /\
    fold_left (moved kbs) ms (mkTy e (last_of l) false true left q [] o) = mkTy e' (last_of l') false true left' (q ++ out) [] o.
Proof.
  induction 1 as [e l|r c ms e l out e' l' HX HL HS IH|r c ms e l out e' l' HX HS IH|r c ms e l out e' l' HX HN HS IH|r c b ms e l out e' l' HX HP HS IH];
    intros V left q o HC HQ; cbn [fold_left].
  - split; [auto|]. split; [auto|]. exists left. split; auto. rewrite app_nil_r. reflexivity.
  - cbn [length] in HQ. destruct (IH V 525%N (q ++ [code_in kbs e r c]) o) as (A&B&left'&D&E).
    + cbn [counts]. split; [exact HX|lia].
    + rewrite app_length. cbn [length]. lia.
    + split; [exact A|]. split; [constructor; auto|]. exists left'. split; [exact D|]. rewrite <- app_assoc in E. cbn [app] in E. rewrite <- E. f_equal.
      cbn [moved t_set]. unfold on_press. replace (code_in kbs e r c <=? 0xA0)%N with true by lia. unfold types. cbv zeta.
      cbn [t_set t_last t_fast t_auto t_left t_keys t_msgs t_out enter first_delay last_of].
      replace (length q <? 16) with true by (symmetry; apply Nat.ltb_lt; lia).
      replace (code_in kbs e r c =? last_of l)%N with false; [reflexivity|]. symmetry. apply N.eqb_neq. intros X.
      destruct l as [[x n]|]; cbn [last_of] in X; [apply (HL n); congruence|lia].
  - match type of HS with strikes _ _ _ ?l1 _ _ _ => destruct (IH V left q o) as (A&B&left'&D&E); [|exact HQ|] end.
    + destruct l as [[x n]|]; [destruct (x =? code_in kbs e r c)%N|]; cbn [counts] in *; auto.
    + split; [exact A|]. split; [exact B|]. exists left'. split; [exact D|]. rewrite <- E. f_equal.
      cbn [moved t_set]. unfold on_release. replace (code_in kbs e r c <=? 0xA0)%N with true by lia. cbn [t_last].
      rewrite N.eqb_sym. destruct l as [[x n]|]; cbn [last_of] in *.
      * destruct (x =? code_in kbs e r c)%N; reflexivity.
      * destruct (0xA0 =? code_in kbs e r c)%N; reflexivity.
  - assert (HZ : exists left1, counts (match l with Some (x, n) => if (x =? code_in kbs e r c)%N then Some (x, S n) else l | None => None end) left1 /\
       moved kbs (mkTy e (last_of l) false true left q [] o) (r, c, Held) =
       mkTy e (last_of (match l with Some (x, n) => if (x =? code_in kbs e r c)%N then Some (x, S n) else l | None => None end)) false true left1 q [] o).
    { cbn [moved t_set]. unfold on_held. cbn [t_last t_left t_fast t_auto]. rewrite N.eqb_sym.
      destruct l as [[x n]|]; cbn [last_of counts] in *.
      - destruct (N.eqb_spec x (code_in kbs e r c)) as [X|X]; cbn [andb].
        + specialize (HN n ltac:(congruence)). destruct HC as (C1&C2&C3). exists (left - 1)%N. cbn [counts last_of].
          split; [(clear -C1 C2 C3 HN; lia)|]. replace (0 <? left)%N with true by (symmetry; clear -C3 HN; lia).
          replace (left =? 1)%N with false by (symmetry; clear -C3 HN; lia). reflexivity.
        + exists left. split; [exact HC|reflexivity].
      - replace (0xA0 =? code_in kbs e r c)%N with false by (symmetry; clear -HX; lia). cbn [andb]. exists left. split; [exact I|reflexivity]. }
    destruct HZ as (left1&Z1&Z2). rewrite Z2. apply (IH V left1 q o Z1 HQ).
  - assert (V1 : kbs (e_kb (after_event kbs e (r, c, b))) <> None).
    { destruct b; cbn [after_event]; [apply press_valid|apply release_valid]; exact V. }
    replace (moved kbs (mkTy e (last_of l) false true left q [] o) (r, c, if b then Press else Release))
      with (mkTy (after_event kbs e (r, c, b)) (last_of l) false true left q [] o); [apply (IH V1 left q o HC HQ)|].
    unfold plain_code in HP. destruct b; cbn [moved t_set after_event]; set (x := code_in kbs e r c) in *.
    + unfold on_press. replace (x <=? 0xA0)%N with false by lia. destruct (decode x) eqn:E; try contradiction; reflexivity.
    + unfold on_release. replace (x <=? 0xA0)%N with false by lia. destruct (decode x) eqn:E; try contradiction; reflexivity.
Qed.

Lemma typed_scans : forall pre rds e l p out e' l' p', typed R C kbs pre rds e l p out e' l' p' -> kbs (e_kb e) <> None ->
  forall left q o, counts l left -> length q = p -> Forall (fun x => x < 0xA0)%N q ->
  exists left' q' o', scans kbs R C pre rds (mkTy e (last_of l) false true left q [] o) = mkTy e' (last_of l') false true left' q' [] o' /\
    o' ++ q' = o ++ q ++ out /\ length q' = p'.
Proof.
  induction 1 as [pre e l p|pre rd rds e l p new e1 l1 out e' l' p' HS HP HT IH]; intros V left q o HC HQ HF; cbn [scans].
  - exists left, q, o. rewrite app_nil_r. auto.
  - rewrite (starts_queue kbs quiet) by exact V.
    destruct (strikes_moves _ _ _ _ _ _ HS V left (tl q) (o ++ visible (firstn 1 q)) HC) as (V1&F1&left1&C1&E1).
    { replace (length (tl q)) with (pred p) by (rewrite <- HQ; destruct q; reflexivity). exact HP. }
    rewrite E1. destruct (IH V1 left1 (tl q ++ new) (o ++ visible (firstn 1 q)) C1) as (left'&q'&o'&X1&X2&X3).
    + rewrite app_length, <- HQ. destruct q; reflexivity.
    + apply Forall_app. split; [|exact F1]. destruct q; [constructor|]. inv HF. assumption.
    + exists left', q', o'. split; [exact X1|]. split; [|exact X3]. rewrite X2. rewrite <- !app_assoc. f_equal.
      destruct q as [|x q]; [reflexivity|]. inv HF. cbn [tl firstn visible filter app].
      replace (x <? 0xA0)%N with true by (symmetry; apply N.ltb_lt; assumption). reflexivity.
Qed.

(** The keys' terms give the characters' terms. *)
Definition apart (e : setting) (D : hand) : Prop := NoDup (map (fun k => code_in kbs e (fst (fst k)) (snd (fst k))) D).
Definition chars (e : setting) (D : hand) : Prop := Forall (fun k => code_in kbs e (fst (fst k)) (snd (fst k)) < 0xA0)%N D.
Definition held_by (e : setting) (D : hand) (l : option (N * nat)) : Prop :=
  match l with Some (x, n) => exists r c, In (r, c, n) D /\ code_in kbs e r c = x | None => True end.

Lemma fingers_strikes : forall ms e D out e' D', fingers kbs ms e D out e' D' -> apart e D -> chars e D ->
  forall l, held_by e D l -> exists l', strikes kbs ms e l out e' l' /\ held_by e' D' l' /\ apart e' D' /\ chars e' D'.
Proof.
  induction 1 as [e D|r c ms e D out e' D' HX HA HF IH|r c n ms e D1 D2 out e' D' HF IH|r c n ms e D1 D2 out e' D' HN HF IH|
    r c b ms e out e' D' HX HP HF IH|r c ms e D out e' D' HX HF IH]; intros HA1 HC l HL.
  - exists l. split; [constructor|auto].
  - destruct (IH) with (l := Some (code_in kbs e r c, 0)) as (l'&X1&X2&X3).
    + unfold apart. cbn [map fst snd]. constructor; [|exact HA1]. intros X. apply in_map_iff in X. destruct X as ([[r' c'] n]&E&I).
      exact (HA r' c' n I E).
    + constructor; [exact HX|exact HC].
    + exists r, c. split; [left|]; reflexivity.
    + exists l'. split; [|auto]. apply s_strike; [exact HX| |exact X1]. intros n ->. destruct HL as (r'&c'&I&E). exact (HA r' c' n I E).
  - pose proof HA1 as HA2. unfold apart in HA2. rewrite map_app in HA2. cbn [map fst snd] in HA2.
    pose proof (NoDup_remove_1 _ _ _ HA2) as N1. pose proof (NoDup_remove_2 _ _ _ HA2) as N2. rewrite <- map_app in N1, N2.
    unfold chars in HC. rewrite Forall_app in HC. destruct HC as [HC1 HC2]. inversion HC2 as [|? ? HC3 HC4]; subst. cbn [fst snd] in HC3.
    destruct (IH N1) with (l := match l with Some (x, n) => if (x =? code_in kbs e r c)%N then None else l | None => None end) as (l'&X1&X2&X3).
    + apply Forall_app. auto.
    + destruct l as [[x k]|]; [|exact I]. destruct (N.eqb_spec x (code_in kbs e r c)) as [X|X]; [exact I|].
      destruct HL as (r'&c'&IN&E). exists r', c'. split; [|exact E]. rewrite in_app_iff in *. destruct IN as [IN|[IN|IN]]; [auto| |auto].
      exfalso. congruence.
    + exists l'. split; [|auto]. apply s_lift; [exact HC3|exact X1].
  - assert (MP : map (fun k : nat * nat * nat => code_in kbs e (fst (fst k)) (snd (fst k))) (D1 ++ (r, c, S n) :: D2) =
      map (fun k : nat * nat * nat => code_in kbs e (fst (fst k)) (snd (fst k))) (D1 ++ (r, c, n) :: D2)) by (rewrite !map_app; reflexivity).
    pose proof HC as HC'. unfold chars in HC'. rewrite Forall_app in HC'. destruct HC' as [HC1 HC2]. inversion HC2 as [|? ? HC3 HC4]; subst. cbn [fst snd] in HC3.
    assert (UQ : forall r' c' k, In (r', c', k) (D1 ++ (r, c, n) :: D2) -> code_in kbs e r' c' = code_in kbs e r c -> (r', c', k) = (r, c, n)).
    { intros r' c' k IN E. pose proof HA1 as HA2. unfold apart in HA2. rewrite map_app in HA2. cbn [map fst snd] in HA2.
      apply NoDup_remove_2 in HA2. rewrite <- map_app in HA2. rewrite in_app_iff in IN. destruct IN as [IN|[IN|IN]]; [|auto|];
      (exfalso; apply HA2; rewrite <- E; apply (in_map (fun k : nat * nat * nat => code_in kbs e (fst (fst k)) (snd (fst k))) (D1 ++ D2) (r', c', k));
       rewrite in_app_iff; auto). }
    destruct IH with (l := match l with Some (x, n) => if (x =? code_in kbs e r c)%N then Some (x, S n) else l | None => None end) as (l'&X1&X2&X3).
    + unfold apart. rewrite MP. exact HA1.
    + unfold chars. apply Forall_app. split; [exact HC1|]. constructor; [exact HC3|exact HC4].
    + destruct l as [[x k]|]; [|exact I]. destruct HL as (r'&c'&IN&E). destruct (N.eqb_spec x (code_in kbs e r c)) as [X|X].
      * pose proof (UQ r' c' k IN ltac:(congruence)) as U. exists r, c. split; [|auto]. rewrite in_app_iff. right. left. congruence.
      * exists r', c'. split; [|exact E]. rewrite in_app_iff in *. destruct IN as [IN|[IN|IN]]; [auto| |right; right; exact IN]. exfalso. congruence.
    + exists l'. split; [|auto]. apply s_held; [(clear -HC3; lia)| |exact X1].
      intros k ->. destruct HL as (r'&c'&IN&E). pose proof (UQ r' c' k IN E). assert (k = n) by congruence. (clear -HN H0; lia).
  - destruct (IH) with (l := @None (N * nat)) as (l'&X1&X2); [constructor|constructor|exact I|].
    destruct l as [[x n]|]; [destruct HL as (r'&c'&[]&_)|]. exists l'. split; [|exact X2]. apply s_mode; auto.
  - destruct (IH HA1 HC l HL) as (l'&X1&X2). exists l'. split; [|exact X2].
    assert (NE : forall x n, l = Some (x, n) -> x <> code_in kbs e r c).
    { intros x n ->. destruct HL as (r'&c'&IN&E). unfold chars in HC. rewrite Forall_forall in HC. specialize (HC _ IN). cbn [fst snd] in HC.
      (clear -HC E HX; lia). }
    apply s_held; [(clear -HX; lia)| |].
    + intros n ->. exfalso. apply (NE _ n eq_refl). reflexivity.
    + destruct l as [[x n]|]; [|exact X1]. destruct (N.eqb_spec x (code_in kbs e r c)); [exfalso; eapply NE; eauto|exact X1].
Qed.
Lemma rollover_typed : forall pre rds e D p out e' D' p', rollover R C kbs pre rds e D p out e' D' p' -> apart e D -> chars e D ->
  forall l, held_by e D l -> exists l', typed R C kbs pre rds e l p out e' l' p'.
Proof.
  induction 1 as [pre e D p|pre rd rds e D p new e1 D1 out e' D' p' HS HP HT IH]; intros HA HC l HL.
  - exists l. constructor.
  - destruct (fingers_strikes _ _ _ _ _ _ HS HA HC l HL) as (l1&X1&X2&X3&X4). destruct (IH X3 X4 l1 X2) as [l' Y].
    exists l'. eapply t_scan; eauto.
Qed.
End Proof.

(** What has been sent, followed by what waits, is what has been struck. *)
Theorem C114_characters : forall R C kbs rds out e l p s, sound_firmware R kbs -> same_size R C kbs -> scan_hook_free kbs ->
  typed R C kbs [] rds (at_start kbs) None 0 out e l p -> c_run kbs rds = Ok s ->
  setting_is e s /\ exists waiting, sent s ++ waiting = out /\ length waiting = p.
Proof.
  intros R C kbs rds out e l p s HS HZ HQ HT ES. rewrite (C104_exact R C kbs rds s HS HZ ES). unfold output_of.
  destruct (typed_scans R C kbs HQ _ _ _ _ _ _ _ _ _ HT) with (left := 525%N) (q := @nil N) (o := @nil N) as (left'&q'&o'&X1&X2&X3).
  - destruct (proj1 HS) as [cs E0]. cbn. congruence.
  - exact I.
  - reflexivity.
  - constructor.
  - cbn [last_of] in X1. change (mkTy (at_start kbs) 0xA0 false true 525 [] [] []) with (starts kbs) in X1. rewrite X1. split.
    + destruct (run_ok_g R kbs HS rds) as (g&s'&E1&T1&E2&RL). rewrite ES in E2. inv E2.
      destruct (exact_run kbs R C HS HZ rds) as [g' (E3&[IS _])]. rewrite E1 in E3. inv E3. rewrite X1 in IS. exact (set_is _ _ _ RL IS).
    + exists q'. cbn [t_out]. auto.
Qed.
Print Assumptions C114_characters.

Theorem C114_rollover : forall R C kbs rds out e D p s, sound_firmware R kbs -> same_size R C kbs -> scan_hook_free kbs ->
  rollover R C kbs [] rds (at_start kbs) [] 0 out e D p -> c_run kbs rds = Ok s ->
  setting_is e s /\ exists waiting, sent s ++ waiting = out /\ length waiting = p.
Proof.
  intros R C kbs rds out e D p s HS HZ HQ HT ES.
  destruct (rollover_typed R C kbs _ _ _ _ _ _ _ _ _ HT) with (l := @None (N * nat)) as [l X]; [constructor|constructor|exact I|].
  exact (C114_characters R C kbs rds out e l p s HS HZ HQ X ES).
Qed.
Print Assumptions C114_rollover.

(** ** Examples: the keyboard of C104 *)
Fixpoint find_key (r c : nat) (D : hand) : option (hand * nat * hand) :=
  match D with
  | [] => None
  | (r', c', n) :: t => if (r =? r') && (c =? c') then Some ([], n, t)
                        else match find_key r c t with Some (a, n', b) => Some ((r', c', n) :: a, n', b) | None => None end
  end.
Lemma find_key_ok : forall r c D a n b, find_key r c D = Some (a, n, b) -> D = a ++ (r, c, n) :: b.
Proof.
  intros r c. induction D as [|[[r' c'] k] D IH]; intros a n b E; cbn [find_key] in E; [discriminate|].
  destruct (Nat.eqb_spec r r'); destruct (Nat.eqb_spec c c'); cbn [andb] in E;
    try (destruct (find_key r c D) as [[[a' n'] b']|] eqn:F; [|discriminate]; injection E as <- <- <-; cbn [app]; f_equal; apply (IH _ _ _ eq_refl)).
  injection E as <- <- <-. subst. reflexivity.
Qed.
Definition plain_b (x : N) : bool := match decode x with ARepeat | AAutorepeat | AHereIs | AFn _ => false | _ => true end.
Fixpoint play (kbs : N -> option (list setup_cmd)) (ms : list (nat * nat * move)) (e : setting) (D : hand) : option (list N * setting * hand) :=
  match ms with
  | [] => Some ([], e, D)
  | (r, c, m) :: ms =>
      let x := code_in kbs e r c in
      let mode b := match D with [] => if plain_b x then play kbs ms (after_event kbs e (r, c, b)) [] else None | _ => None end in
      match m with
      | Press =>
          if (x <? 0xA0)%N then
            if forallb (fun k => negb (code_in kbs e (fst (fst k)) (snd (fst k)) =? x)%N) D then
              match play kbs ms e ((r, c, 0) :: D) with Some (o, e', D') => Some (x :: o, e', D') | None => None end
            else None
          else if (0xA0 <? x)%N then mode true else None
      | Release =>
          if (0xA0 <? x)%N then mode false
          else match find_key r c D with Some (a, n, b) => play kbs ms e (a ++ b) | None => None end
      | Held =>
          if (0xA0 <? x)%N then play kbs ms e D
          else match find_key r c D with Some (a, n, b) => if n <? 524 then play kbs ms e (a ++ (r, c, S n) :: b) else None | None => None end
      end
  end.
Lemma play_ok : forall kbs ms e D o e' D', play kbs ms e D = Some (o, e', D') -> fingers kbs ms e D o e' D'.
Proof.
  intros kbs. induction ms as [|[[r c] m] ms IH]; intros e D o e' D' E; cbn [play] in E; [injection E as <- <- <-; constructor|].
  cbv zeta in E. destruct m.
  - destruct (N.ltb_spec (code_in kbs e r c) 0xA0) as [X|X].
    + destruct (forallb _ D) eqn:F; [|discriminate]. destruct (play kbs ms e ((r, c, 0) :: D)) as [[[o1 e1] D1]|] eqn:P; [|discriminate].
      injection E as <- <- <-. apply f_strike; auto. intros r' c' n I. rewrite forallb_forall in F. specialize (F _ I). cbn [fst snd] in F. (clear -F; lia).
    + destruct (N.ltb_spec 0xA0 (code_in kbs e r c)) as [Y|Y]; [|discriminate]. destruct D; [|discriminate].
      destruct (plain_b (code_in kbs e r c)) eqn:B; [|discriminate]. apply (f_mode kbs r c true); auto.
      unfold plain_b in B. unfold plain_code. destruct (decode _); auto; discriminate.
  - destruct (N.ltb_spec 0xA0 (code_in kbs e r c)) as [Y|Y].
    + destruct D; [|discriminate]. destruct (plain_b (code_in kbs e r c)) eqn:B; [|discriminate]. apply (f_mode kbs r c false); auto.
      unfold plain_b in B. unfold plain_code. destruct (decode _); auto; discriminate.
    + destruct (find_key r c D) as [[[a n] b]|] eqn:F; [|discriminate]. apply find_key_ok in F. subst D. apply f_lift. auto.
  - destruct (N.ltb_spec 0xA0 (code_in kbs e r c)) as [Y|Y]; [apply f_mode_held; auto|].
    destruct (find_key r c D) as [[[a n] b]|] eqn:F; [|discriminate]. destruct (Nat.ltb_spec n 524); [|discriminate].
    apply find_key_ok in F. subst D. apply f_held; auto.
Qed.
Fixpoint plays (R C : nat) (kbs : N -> option (list setup_cmd)) (pre rds : list (nat -> N)) (e : setting) (D : hand) (p : nat) :
    option (list N * setting * hand * nat) :=
  match rds with
  | [] => Some ([], e, D, p)
  | rd :: rds =>
      match play kbs (scan_moves R C pre rd) e D with
      | Some (new, e1, D1) =>
          if pred p + length new <=? 16 then
            match plays R C kbs (pre ++ [rd]) rds e1 D1 (pred p + length new) with
            | Some (o, e', D', p') => Some (new ++ o, e', D', p')
            | None => None
            end
          else None
      | None => None
      end
  end.
Lemma plays_ok : forall R C kbs rds pre e D p o e' D' p', plays R C kbs pre rds e D p = Some (o, e', D', p') ->
  rollover R C kbs pre rds e D p o e' D' p'.
Proof.
  intros R C kbs. induction rds as [|rd rds IH]; intros pre e D p o e' D' p' E; cbn [plays] in E; [injection E as <- <- <- <-; constructor|].
  destruct (play kbs (scan_moves R C pre rd) e D) as [[[new e1] D1]|] eqn:P; [|discriminate].
  destruct (Nat.leb_spec (pred p + length new) 16); [|discriminate].
  destruct (plays R C kbs (pre ++ [rd]) rds e1 D1 (pred p + length new)) as [[[[o1 e2] D2] p2]|] eqn:Q; [|discriminate].
  injection E as <- <- <- <-. eapply r_scan; eauto using play_ok.
Qed.
(** b goes down while a is down, a is struck again while b is down; both are
    lifted; SHIFT; A and B go down in the same scan, and are lifted; keyboard 1
    and a digit, which has just been accepted and waits. *)
Definition rolling : list (nat -> N) :=
  hold 12 [(0, 0)] ++ hold 12 [(0, 0); (0, 1)] ++ hold 12 [(0, 1)] ++ hold 12 [(0, 0); (0, 1)] ++ hold 12 [] ++
  hold 12 [(0, 2)] ++ hold 12 [(0, 0); (0, 1); (0, 2)] ++ hold 12 [(0, 2)] ++ hold 12 [] ++
  hold 12 [(0, 6)] ++ hold 10 [(0, 6); (0, 1)].
Example C114_example :
  rollover 1 8 desk [] rolling (at_start desk) [] 0 [97; 98; 97; 65; 66; 49]%N (mkSetting 1 false false true false) [(0, 1, 0)] 1 /\
  obs (fun s => (sent s, k_cur s, shift_on s)) (c_run desk rolling) = Some ([97; 98; 97; 65; 66]%N, 1%N, false).
Proof. split; [apply plays_ok|]; vm_compute; reflexivity. Qed.
