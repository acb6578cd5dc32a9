(** Properties C05-C08: repeat timing.  A history is a list of calls to the
    repeat module after power-on initialisation; [answers] is what its timer
    calls report. *)
From Coq Require Import List NArith ZArith Arith Bool Lia.
From Verif Require Import Base Lib Repeat RepeatProofs.
Import ListNotations.

(** Number of asdf_repeat() calls in a history. *)
Definition n_ticks (ops : list rop) : nat :=
  length (filter (fun o => match o with OTick => true | _ => false end) ops).

Lemma answers_count : forall ops r, length (fst (rep_run ops r)) = n_ticks ops.
Proof.
  induction ops; intros; auto. cbn [rep_run]. specialize (IHops (snd (rep_step a r))).
  unfold n_ticks in *. destruct a; cbn [rep_step filter] in *;
    try (destruct (rep_run ops _); cbn in *; auto; fail).
  destruct (repeat_tick r). cbn [snd] in *. destruct (rep_run ops r0). cbn in *. auto.
Qed.

Lemma all_false : forall l, Forall (fun b => b = false) l -> l = repeat false (length l).
Proof. induction 1; cbn; congruence. Qed.

(** C05.  Whatever happened before, with autorepeat selected and REPEAT not
    held: after a restart of the count the n-th timer call reports a repeat iff
    n = 525 + 66 i. *)
Theorem C05_autorepeat_cadence : forall h n,
  selected h = true -> released h = true ->
  answers (h ++ OReset :: repeat OTick n) = answers h ++ map (fires 525) (seq 1 n).
Proof. exact autorepeat_cadence. Qed.
Print Assumptions C05_autorepeat_cadence.

Theorem C05_fires_meaning : forall n, fires 525 n = true <-> exists i, n = 525 + 66 * i.
Proof.
  intros; unfold fires. rewrite andb_true_iff, Nat.leb_le, Nat.eqb_eq. split.
  - intros [A B]. exists ((n - 525) / 66). pose proof (Nat.div_mod (n - 525) 66). lia.
  - intros [i ->]. split; [lia|]. replace (525 + 66 * i - 525) with (i * 66) by lia.
    apply Nat.mod_mul. lia.
Qed.
Print Assumptions C05_fires_meaning.

Example C05_example :
  let h := [OAutoOff; OActivate; OTick; ODeactivate; OAutoOn; OTick] in
  selected h = true /\ released h = true /\
  nth 526 (answers (h ++ OReset :: repeat OTick 700)) false = true /\
  length (filter (fun b => b) (answers (h ++ OReset :: repeat OTick 700))) = 3.
Proof. vm_compute. auto. Qed.

(** C06.  After autorepeat was deselected (and while REPEAT is not held), no
    sequence of calls without REPEAT presses and autorepeat selection ever
    reports a repeat. *)
Theorem C06_no_repeat_when_off : forall h ops,
  selected h = false -> released h = true ->
  (forall o, In o ops -> o <> OActivate /\ o <> OAutoOn) ->
  answers (h ++ ops) = answers h ++ repeat false (n_ticks ops).
Proof.
  intros. rewrite answers_app. f_equal.
  rewrite <- (answers_count ops (snd (rep_run h (repeat_init rep_zero)))).
  apply all_false, off_forever; auto.
Qed.
Print Assumptions C06_no_repeat_when_off.

Example C06_example :
  let h := [OReset; OTick; OAutoOff] in
  let ops := [OReset; OTick; ODeactivate; OAutoOff; OTick; OReset; OTick] in
  selected h = false /\ released h = true /\
  (forall o, In o ops -> o <> OActivate /\ o <> OAutoOn) /\
  answers (h ++ ops) = [false; false; false; false].
Proof.
  repeat split; try reflexivity; cbn in H; intuition (subst; discriminate).
Qed.

(** C07, full statement: for every history [h] and every [mid] without a
    REPEAT release,
      answers (h ++ (OActivate :: mid) ++ OReset :: repeat OTick n) =
      answers (h ++ (OActivate :: mid)) ++ map (fires 66) (seq 1 n).
    It is false: a REPEAT press is ignored when the autorepeat timer is already
    at 66 or below, e.g. after a previous autorepeat burst. *)
Theorem C07_repeat_key_refuted : exists h n,
  answers (h ++ [OActivate] ++ OReset :: repeat OTick n) <>
  answers (h ++ [OActivate]) ++ map (fires 66) (seq 1 n).
Proof.
  exists (OReset :: repeat OTick 526), 66. intros H.
  apply (f_equal (fun l => last l false)) in H. vm_compute in H. discriminate.
Qed.
Print Assumptions C07_repeat_key_refuted.

(** In the refuting history the key pressed under REPEAT waits for the full
    autorepeat delay. *)
Theorem C07_ignored_press_waits_full_delay_refuted : exists h,
  forall n, (n < 525)%nat ->
  answers (h ++ [OActivate] ++ OReset :: repeat OTick n) =
  answers (h ++ [OActivate]) ++ repeat false n.
Proof.
  exists (OReset :: repeat OTick 526). intros n Hn. rewrite app_assoc, answers_app. f_equal.
  rewrite (reset_ticks n _ 525); [| vm_compute; auto | lia].
  rewrite (all_false (map (fires 525) (seq 1 n))).
  - rewrite map_length, seq_length. auto.
  - apply Forall_forall. intros b Hb. apply in_map_iff in Hb. destruct Hb as [x [<- Hx]].
    apply in_seq in Hx. unfold fires. destruct (Nat.leb_spec 525 x); auto; lia.
Qed.
Print Assumptions C07_ignored_press_waits_full_delay_refuted.

(** What holds: with autorepeat deselected, or less than 459 ticks after the
    count was restarted.  Missing from the full statement: REPEAT presses later
    in the autorepeat cycle (false, see above). *)
Theorem C07_repeat_key_partial : forall h k mid n,
  released h = true -> selected h = false \/ (k < 459)%nat -> ~ In ODeactivate mid ->
  answers (h ++ (OReset :: repeat OTick k) ++ (OActivate :: mid) ++ OReset :: repeat OTick n) =
  answers (h ++ (OReset :: repeat OTick k) ++ (OActivate :: mid)) ++ map (fires 66) (seq 1 n).
Proof. exact repeat_key_partial. Qed.
Print Assumptions C07_repeat_key_partial.

Example C07_example :
  let h := [OAutoOff; OAutoOn] in let mid := [OTick; OAutoOff; OReset] in
  released h = true /\ (458 < 459)%nat /\ ~ In ODeactivate mid /\
  last (answers (h ++ (OReset :: repeat OTick 458) ++ (OActivate :: mid)
                 ++ OReset :: repeat OTick 66)) false = true.
Proof.
  split; [reflexivity|]. split; [lia|]. split; [|vm_compute; reflexivity].
  cbn. intuition discriminate.
Qed.

(** C08.  After REPEAT is released, the future answers are those of a freshly
    initialised module on which only the currently selected autorepeat mode
    was chosen. *)
Theorem C08_release_restores_selection : forall h ops,
  answers (h ++ ODeactivate :: ops) =
  answers h ++ answers ((if selected h then OAutoOn else OAutoOff) :: ops).
Proof. exact release_restores. Qed.
Print Assumptions C08_release_restores_selection.

Example C08_example :
  let h := [OAutoOff; OActivate; OTick; OAutoOn; OTick] in
  selected h = true /\
  answers (h ++ ODeactivate :: repeat OTick 525) = [false; false] ++ repeat false 524 ++ [true].
Proof. vm_compute. auto. Qed.
