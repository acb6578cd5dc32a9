(** With autorepeat off every key is typed exactly once, under any keymaps (C135). *)
From Coq Require Import List NArith ZArith Arith Bool Lia.
From Coq Require Import ZifyBool ZifyNat ZifyN.
From Verif Require Import Base Lib Buffer Repeat Devices Modifiers Hook KeymapData Asdf KeySpec Obs PropDebounce
     Custom CustomSpec CustomRef PropCustom PropEvents PropFlow PropExact PropSession PropAnyPace PropNoLoss.
Import ListNotations.

(** ** Specification *)
Section Spec.
Variable kbs : N -> option (list setup_cmd).
(** The actions among the accepted transitions, replayed as in C100. *)
Fixpoint actions (e : setting) (l : list (nat * nat * bool)) : list (action * bool) :=
  match l with
  | [] => []
  | (r, c, b) :: t => (decode (code_in kbs e r c), b) :: actions (after_event kbs e (r, c, b)) t
  end.
(** Autorepeat as selected by the last move of an autorepeat key or switch. *)
Fixpoint selection (a : bool) (l : list (action * bool)) : bool :=
  match l with
  | [] => a
  | (AAutorepeat, b) :: t => selection b t
  | _ :: t => selection a t
  end.
Definition never (x : action) (l : list (action * bool)) : Prop := ~ In (x, true) l.
End Spec.

(** ** Proofs *)
Definition ev_of (v : nat * nat * move) : list (nat * nat * bool) :=
  let '(r, c, m) := v in match m with Press => [(r, c, true)] | Release => [(r, c, false)] | Held => [] end.
Lemma flat_flat : forall A B D (f : B -> list D) (g : A -> list B) l, flat_map f (flat_map g l) = flat_map (fun x => flat_map f (g x)) l.
Proof. intros A B D f g l. induction l as [|x l IH]; [reflexivity|]. cbn [flat_map]. rewrite flat_map_app, IH. reflexivity. Qed.
Lemma events_of_moves : forall R C pre rd, flat_map ev_of (scan_moves R C pre rd) = scan_events R C pre rd.
Proof.
  intros. unfold scan_moves, scan_events. rewrite flat_flat. apply flat_map_ext. intros r. rewrite flat_flat. apply flat_map_ext. intros c.
  unfold key_moves, PropEvents.key_event. destruct (accepted_after pre r c), (accepted_after (pre ++ [rd]) r c); cbn [Bool.eqb flat_map ev_of app]; try reflexivity.
  destruct (reading rd r c); reflexivity.
Qed.

Section Once.
Variable kbs : N -> option (list setup_cmd).
Lemma low_plain : forall x, (x <= 0xA0)%N -> decode x = ANothing \/ decode x = AOther.
Proof. intros x L. unfold decode. repeat match goal with |- context [if ?b then _ else _] => destruct b eqn:?; try (left; reflexivity); try (right; reflexivity); try lia end. Qed.

Definition calm (t : typist) (e : setting) (a : bool) : Prop :=
  t_set t = e /\ t_fast t = false /\ t_auto t = a /\ (a = false -> t_left t = 0%N).
Lemma moved_calm : forall t e a v, calm t e a -> never ARepeat (actions kbs e (ev_of v)) ->
  calm (moved kbs t v) (fold_left (after_event kbs) (ev_of v) e) (selection a (actions kbs e (ev_of v))).
Proof.
  intros t e a [[r c] m] (S1&S2&S3&S4) NV. subst e a. cbn [moved]. set (x := code_in kbs (t_set t) r c).
  assert (Y : forall u, t_fast u = false -> (t_auto u = false -> t_left u = 0%N) -> calm (types x u) (t_set u) (t_auto u)).
  { intros u U1 U2. unfold types, calm. destruct (x =? t_last u)%N; cbn [t_set t_fast t_auto t_left]; repeat split; auto.
    intros A. rewrite U1, A. reflexivity. }
  destruct m; cbn [ev_of fold_left actions] in *; unfold after_event in *; fold x in NV |- *.
  - unfold on_press. destruct (x <=? 0xA0)%N eqn:L.
    + assert (D : decode x = ANothing \/ decode x = AOther) by (apply low_plain; lia).
      replace (after_press kbs x (t_set t)) with (t_set t) by (unfold after_press; destruct D as [-> | ->]; reflexivity).
      replace (selection (t_auto t) [(decode x, true)]) with (t_auto t) by (destruct D as [-> | ->]; reflexivity).
      apply Y; auto.
    + unfold after_press. destruct (decode x) eqn:D; cbn [selection]; try (unfold calm, moves_to, after_press; rewrite ?D; cbn [t_set t_fast t_auto t_left]; auto; fail).
      * contradiction NV. left. reflexivity.
      * unfold prints. destruct (kbs (e_kb (t_set t))); unfold calm; cbn [t_set t_fast t_auto t_left]; auto.
      * unfold calm, beats. cbn [t_set t_fast t_auto t_left]. split; [reflexivity|]. split; [exact S2|]. split; [reflexivity|]. intros X. discriminate X.
      * match goal with |- context [if ?b then _ else _] => destruct b end; [|unfold calm; auto].
        unfold prints. destruct (kbs (e_kb (t_set t))); unfold calm; cbn [t_set t_fast t_auto t_left]; auto.
  - unfold on_release. destruct (x <=? 0xA0)%N eqn:L.
    + assert (D : decode x = ANothing \/ decode x = AOther) by (apply low_plain; lia).
      replace (after_release kbs x (t_set t)) with (t_set t) by (unfold after_release; destruct D as [-> | ->]; reflexivity).
      replace (selection (t_auto t) [(decode x, false)]) with (t_auto t) by (destruct D as [-> | ->]; reflexivity).
      destruct (x =? t_last t)%N; unfold calm; cbn [t_set t_fast t_auto t_left]; auto.
    + unfold after_release. destruct (decode x) eqn:D; cbn [selection]; try (unfold calm, moves_to, after_release; rewrite ?D; cbn [t_set t_fast t_auto t_left]; auto; fail).
      * unfold calm, beats. cbn [t_set t_fast t_auto t_left]. split; [reflexivity|]. split; [reflexivity|]. split; [reflexivity|]. intros ->. reflexivity.
      * unfold calm, beats. cbn [t_set t_fast t_auto t_left]. rewrite S2. auto.
  - cbn [selection]. unfold on_held. destruct (x =? t_last t)%N; cbn [andb]; [|unfold calm; auto].
    destruct (0 <? t_left t)%N eqn:L; [|unfold calm; auto].
    assert (A : t_auto t = true) by (destruct (t_auto t); auto; specialize (S4 eq_refl); lia).
    destruct (t_left t =? 1)%N.
    + apply (Y (beats (t_fast t) (t_auto t) 66 t)); cbn [beats t_fast t_auto t_left]; auto. congruence.
    + unfold calm, beats. cbn [t_set t_fast t_auto t_left]. split; [reflexivity|]. split; [exact S2|]. split; [reflexivity|]. congruence.
Qed.
Lemma actions_app : forall l1 l2 e, actions kbs e (l1 ++ l2) = actions kbs e l1 ++ actions kbs (fold_left (after_event kbs) l1 e) l2.
Proof. intros l1. induction l1 as [|[[r c] b] l1 IH]; intros l2 e; [reflexivity|]. cbn [app actions fold_left]. f_equal. apply IH. Qed.
Lemma selection_app : forall l1 l2 a, selection a (l1 ++ l2) = selection (selection a l1) l2.
Proof. intros l1. induction l1 as [|[x b] l1 IH]; intros l2 a; [reflexivity|]. cbn [app selection]. destruct x; apply IH. Qed.
Lemma typed_app2 : forall l1 l2 e, typed kbs e (l1 ++ l2) = typed kbs e l1 ++ typed kbs (fold_left (after_event kbs) l1 e) l2.
Proof. intros l1. induction l1 as [|[[r c] b] l1 IH]; intros l2 e; [reflexivity|]. cbn [app typed fold_left]. rewrite IH, app_assoc. reflexivity. Qed.
Lemma never_app : forall x l1 l2, never x (l1 ++ l2) <-> never x l1 /\ never x l2.
Proof. intros. unfold never. rewrite in_app_iff. tauto. Qed.
Lemma fold_calm : forall l t e a, calm t e a -> never ARepeat (actions kbs e (flat_map ev_of l)) ->
  calm (fold_left (moved kbs) l t) (fold_left (after_event kbs) (flat_map ev_of l) e) (selection a (actions kbs e (flat_map ev_of l))).
Proof.
  intros l. induction l as [|v l IH]; intros t e a HC NV; [exact HC|]. cbn [flat_map fold_left] in *. rewrite actions_app in *. rewrite never_app in NV. destruct NV as [N1 N2].
  rewrite selection_app, fold_left_app. apply IH; [|exact N2]. apply moved_calm; assumption.
Qed.
Lemma off_stays : forall l, never AAutorepeat l -> selection false l = false.
Proof.
  intros l. induction l as [|[x b] l IH]; intros NV; [reflexivity|]. assert (NL : never AAutorepeat l) by (intros I; apply NV; right; exact I).
  cbn [selection]. destruct x; auto. destruct b; auto. contradiction NV. left. reflexivity.
Qed.
Lemma fold_once : forall l t e, calm t e false -> never ARepeat (actions kbs e (flat_map ev_of l)) -> never AAutorepeat (actions kbs e (flat_map ev_of l)) ->
  all_by kbs (typed_by kbs) l t = typed kbs e (flat_map ev_of l).
Proof.
  intros l. induction l as [|v l IH]; intros t e HC N1 N2; [reflexivity|]. cbn [flat_map all_by] in *. rewrite actions_app, never_app in *. destruct N1 as [N1 N1'], N2 as [N2 N2'].
  pose proof (moved_calm t e false v HC N1) as HC'. rewrite off_stays in HC' by exact N2. rewrite (IH _ _ HC' N1' N2'). rewrite typed_app2. f_equal.
  destruct HC as (S1&S2&S3&S4). destruct v as [[r c] m]. cbn [typed_by ev_of]. rewrite S1. destruct m; cbn [typed andb]; rewrite ?app_nil_r; try reflexivity.
  rewrite (S4 eq_refl). rewrite andb_false_r. reflexivity.
Qed.
Variable R C : nat.
Lemma starts_calm : forall t e a, calm t e a -> calm (scan_starts kbs t) e a.
Proof.
  intros t e a (S1&S2&S3&S4). unfold scan_starts, prints, sends_one. cbv zeta. destruct (_ =? _)%N; cbn [t_set]; destruct (kbs _); unfold calm; cbn [t_set t_fast t_auto t_left]; auto.
Qed.
Lemma scans_calm : forall rds pre t e a, calm t e a -> never ARepeat (actions kbs e (transitions R C pre rds)) ->
  calm (scans kbs R C pre rds t) (fold_left (after_event kbs) (transitions R C pre rds) e) (selection a (actions kbs e (transitions R C pre rds))).
Proof.
  intros rds. induction rds as [|rd rds IH]; intros pre t e a HC NV; [exact HC|]. cbn [transitions scans] in *. rewrite actions_app in *. rewrite never_app in NV. destruct NV as [N1 N2].
  rewrite selection_app, fold_left_app. rewrite <- events_of_moves in *. apply IH; [|exact N2]. apply fold_calm; [apply starts_calm; exact HC|exact N1].
Qed.
Lemma works_once : forall rds pre t e, calm t e false -> never ARepeat (actions kbs e (transitions R C pre rds)) ->
  never AAutorepeat (actions kbs e (transitions R C pre rds)) ->
  concat (map fst (works kbs R C pre rds t)) = typed kbs e (transitions R C pre rds).
Proof.
  intros rds. induction rds as [|rd rds IH]; intros pre t e HC N1 N2; [reflexivity|]. cbn [transitions works] in *. cbv zeta. cbn [map concat fst].
  rewrite actions_app, never_app in *. destruct N1 as [N1 N1'], N2 as [N2 N2']. rewrite typed_app2. rewrite <- events_of_moves in *.
  rewrite (fold_once _ _ e) by (auto using starts_calm). f_equal. apply IH; [|exact N1'|exact N2'].
  pose proof (fold_calm (scan_moves R C pre rd) _ e false (starts_calm _ _ _ HC) N1) as HC'. rewrite off_stays in HC' by exact N2. exact HC'.
Qed.
End Once.

(** ** C135 *)
(** REPEAT is not pressed, and from some scan on autorepeat is off: from then on
    the codes typed are exactly those of the presses, one each, whatever is held
    for however long. *)
Theorem C135_once : forall R C kbs pre rds, sound_firmware R kbs -> same_size R C kbs ->
  let past := transitions R C [] pre in let e := fold_left (after_event kbs) past (at_start kbs) in let now := transitions R C pre rds in
  never ARepeat (actions kbs (at_start kbs) (past ++ now)) ->
  selection true (actions kbs (at_start kbs) past) = false -> never AAutorepeat (actions kbs e now) ->
  concat (map fst (work kbs R C (pre ++ rds))) = concat (map fst (work kbs R C pre)) ++ typed kbs e now.
Proof.
  intros R C kbs pre rds HS HZ past e now HR HA HN. rewrite actions_app, never_app in HR. destruct HR as [R1 R2]. unfold work. rewrite works_app, map_app, concat_app. f_equal.
  apply works_once; [|exact R2|exact HN].
  assert (C0 : calm (starts kbs) (at_start kbs) true) by (unfold calm, starts; cbn [t_set t_fast t_auto t_left]; split; [reflexivity|]; split; [reflexivity|]; split; [reflexivity|]; intros X; discriminate X).
  pose proof (scans_calm kbs R C pre [] _ _ _ C0 R1) as X. fold past in X. rewrite HA in X. exact X.
Qed.
Print Assumptions C135_once.

(** What the host gets, if there is room (C133) and no message: what was typed
    before, and then each key struck, once. *)
Theorem C135_each_key_sent_once : forall R C kbs pre rds s, sound_firmware R kbs -> same_size R C kbs -> c_run kbs (pre ++ rds) = Ok s ->
  let past := transitions R C [] pre in let e := fold_left (after_event kbs) past (at_start kbs) in let now := transitions R C pre rds in
  never ARepeat (actions kbs (at_start kbs) (past ++ now)) ->
  selection true (actions kbs (at_start kbs) past) = false -> never AAutorepeat (actions kbs e now) ->
  room (work kbs R C (pre ++ rds)) 0 0 -> mute (work kbs R C (pre ++ rds)) ->
  sent s ++ visible (key_queue s) = visible (concat (map fst (work kbs R C pre)) ++ typed kbs e now).
Proof.
  intros R C kbs pre rds s HS HZ ES past e now HR HA HN HM MU.
  pose proof (C135_once R C kbs pre rds HS HZ HR HA HN) as ON. cbv zeta in ON. fold past e now in ON. rewrite <- ON. clear ON.
  assert (HW : Forall (fun p => ~ In 0xA0%N (snd p)) (work kbs R C (pre ++ rds))).
  { unfold mute in MU. rewrite Forall_forall in *. intros p I J. rewrite (MU p I) in J. exact J. }
  destruct (C133_nothing_lost R C kbs _ s HS HZ ES HM HW) as (k&m&SH&EK&EM). rewrite EK, visible_app. f_equal.
  assert (M0 : concat (map snd (work kbs R C (pre ++ rds))) = []).
  { revert MU. generalize (work kbs R C (pre ++ rds)). clear. intros w MU. induction MU as [|[o p] w HP MU IH]; [reflexivity|]. cbn [map concat snd] in *. subst p. exact IH. }
  rewrite M0 in EM. symmetry in EM. apply app_eq_nil in EM. destruct EM as [-> _]. apply shuffle_alone in SH; auto.
Qed.
Print Assumptions C135_each_key_sent_once.

(** The autorepeat switch closed and opened again; then "a" held for 570 scans,
    "b" struck meanwhile. *)
Definition switched : list (nat -> N) := hold 12 [(0, 7)] ++ hold 12 [].
Definition leaning : list (nat -> N) := hold 540 [(0, 0)] ++ hold 30 [(0, 0); (0, 1)].
Lemma never_check : forall (eqb : action -> bool) x l, eqb x = true -> forallb (fun p => negb (eqb (fst p) && snd p)) l = true -> never x l.
Proof. intros eqb x l E HB I. rewrite forallb_forall in HB. specialize (HB _ I). cbn [fst snd] in HB. rewrite E in HB. discriminate HB. Qed.
Example C135_example :
  let past := transitions 1 8 [] switched in let now := transitions 1 8 switched leaning in
  never ARepeat (actions desk (at_start desk) (past ++ now)) /\ selection true (actions desk (at_start desk) past) = false /\
  never AAutorepeat (actions desk (fold_left (after_event desk) past (at_start desk)) now) /\
  room (work desk 1 8 (switched ++ leaning)) 0 0 /\ mute (work desk 1 8 (switched ++ leaning)) /\
  typed desk (fold_left (after_event desk) past (at_start desk)) now = [97; 98]%N /\
  obs (fun s => (sent s, key_queue s)) (c_run desk (switched ++ leaning)) = Some ([97; 98]%N, []).
Proof.
  cbv zeta. split; [apply (never_check (fun a => match a with ARepeat => true | _ => false end)); vm_compute; reflexivity|].
  split; [vm_compute; reflexivity|]. split; [apply (never_check (fun a => match a with AAutorepeat => true | _ => false end)); vm_compute; reflexivity|].
  split; [apply room_b_ok; vm_compute; reflexivity|].
  split; [|split; vm_compute; reflexivity].
  apply Forall_forall. intros p I. assert (B : forallb (fun p => match snd p with [] => true | _ => false end) (work desk 1 8 (switched ++ leaning)) = true) by (vm_compute; reflexivity).
  rewrite forallb_forall in B. specialize (B _ I). destruct (snd p); [reflexivity|discriminate B].
Qed.
