(** Lemmas about checked access and outcomes. *)
From Coq Require Import List NArith ZArith Arith Bool Lia.
From Verif Require Import Base.
Import ListNotations.

Lemma upd_length : forall A (l : list A) i x, length (upd l i x) = length l.
Proof. induction l; destruct i; simpl; intros; auto. Qed.

Lemma nth_error_upd_same : forall A (l : list A) i x,
  i < length l -> nth_error (upd l i x) i = Some x.
Proof.
  induction l; destruct i; simpl; intros; try lia; auto. apply IHl; lia.
Qed.

Lemma nth_error_upd_other : forall A (l : list A) i j x,
  i <> j -> nth_error (upd l i x) j = nth_error l j.
Proof.
  induction l; destruct i; destruct j; simpl; intros; try congruence; auto.
Qed.

Lemma nth_error_upd : forall A (l : list A) i j x,
  nth_error (upd l i x) j = if (i =? j) && (i <? length l) then Some x else nth_error l j.
Proof.
  intros. destruct (Nat.eqb_spec i j); simpl.
  - subst. destruct (Nat.ltb_spec j (length l)).
    + apply nth_error_upd_same; auto.
    + rewrite (proj2 (nth_error_None l j)) by lia.
      apply nth_error_None. rewrite upd_length; auto.
  - apply nth_error_upd_other; auto.
Qed.

Lemma upd_upd : forall A (l : list A) i x y, upd (upd l i x) i y = upd l i y.
Proof. induction l; destruct i; simpl; intros; f_equal; auto. Qed.

Lemma upd_self : forall A (l : list A) i x, nth_error l i = Some x -> upd l i x = l.
Proof. induction l; destruct i; simpl; intros; try congruence. f_equal; auto. Qed.

Lemma upd_comm : forall A (l : list A) i j x y,
  i <> j -> upd (upd l i x) j y = upd (upd l j y) i x.
Proof.
  induction l; destruct i; destruct j; simpl; intros; try congruence; auto.
  f_equal; auto.
Qed.

Lemma nth_error_Some_lt : forall A (l : list A) i x, nth_error l i = Some x -> i < length l.
Proof. intros. apply nth_error_Some. congruence. Qed.

Lemma nth_error_ex : forall A (l : list A) i, i < length l -> exists x, nth_error l i = Some x.
Proof.
  intros. destruct (nth_error l i) eqn:E; eauto. apply nth_error_None in E; lia.
Qed.

Lemma lget_ok : forall A u (l : list A) i x, lget u l i = Ok x <-> nth_error l i = Some x.
Proof. unfold lget; intros; destruct (nth_error l i); split; intros H; inversion H; auto. Qed.

Lemma lget_ex : forall A u (l : list A) i, i < length l -> exists x, lget u l i = Ok x /\ nth_error l i = Some x.
Proof.
  intros. destruct (nth_error_ex _ _ _ H) as [x Hx]. exists x; split; auto. apply lget_ok; auto.
Qed.

Lemma lset_ok : forall A u (l : list A) i x, i < length l -> lset u l i x = Ok (upd l i x).
Proof. unfold lset; intros. destruct (Nat.ltb_spec i (length l)); auto; lia. Qed.

Lemma lset_inv : forall A u (l : list A) i x l',
  lset u l i x = Ok l' -> i < length l /\ l' = upd l i x.
Proof.
  unfold lset; intros. destruct (Nat.ltb_spec i (length l)); inversion H; auto.
Qed.

Lemma lset_bad : forall A u (l : list A) i x u', lset u l i x = Bad u' -> u' = u /\ length l <= i.
Proof.
  unfold lset; intros. destruct (Nat.ltb_spec i (length l)); inversion H; auto.
Qed.

Lemma bind_ok : forall A B (x : outcome A) (k : A -> outcome B) b,
  bind x k = Ok b <-> exists a, x = Ok a /\ k a = Ok b.
Proof.
  intros; destruct x; simpl; split; intros.
  - eauto.
  - destruct H as [a' [H1 H2]]. inversion H1; subst; auto.
  - discriminate.
  - destruct H as [a' [H1 H2]]; discriminate.
Qed.

Lemma bind_bad : forall A B (x : outcome A) (k : A -> outcome B) u,
  bind x k = Bad u <-> (x = Bad u \/ exists a, x = Ok a /\ k a = Bad u).
Proof.
  intros; destruct x; simpl; split; intros.
  - right; eauto.
  - destruct H as [H | [a' [H1 H2]]]; [discriminate | inversion H1; subst; auto].
  - inversion H; subst; auto.
  - destruct H as [H | [a' [H1 H2]]]; [inversion H; auto | discriminate].
Qed.

Ltac inv H := inversion H; subst; clear H.

(** Decompose hypotheses [bind ... = Ok ...]. *)
Ltac ok_inv :=
  repeat match goal with
  | H : bind _ _ = Ok _ |- _ =>
      apply bind_ok in H; let a := fresh "a" in let H1 := fresh "H" in
      let H2 := fresh "H" in destruct H as [a [H1 H2]]
  | H : Ok _ = Ok _ |- _ => inversion H; subst; clear H
  | H : Bad _ = Ok _ |- _ => discriminate H
  | H : lget _ _ _ = Ok _ |- _ => apply lget_ok in H
  | H : lset _ _ _ _ = Ok _ |- _ => apply lset_inv in H; destruct H as [? ?]; subst
  end.

Lemma nth_error_repeat_lt : forall A (x : A) n i, i < n -> nth_error (repeat x n) i = Some x.
Proof. induction n; destruct i; simpl; intros; try lia; auto. apply IHn; lia. Qed.

Lemma nth_error_repeat_inv : forall A (x y : A) n i, nth_error (repeat x n) i = Some y -> y = x.
Proof. induction n; destruct i; simpl; intros; try congruence; eauto. Qed.

Lemma Forall_upd : forall A (P : A -> Prop) l i x, Forall P l -> P x -> Forall P (upd l i x).
Proof.
  induction l; destruct i; simpl; intros; auto; inv H; constructor; auto.
Qed.

Lemma Forall_nth_error : forall A (P : A -> Prop) l i x,
  Forall P l -> nth_error l i = Some x -> P x.
Proof. intros. rewrite Forall_forall in H. apply H. eapply nth_error_In; eauto. Qed.

Lemma NoDup_app_remove_l : forall A (l l' : list A), NoDup (l ++ l') -> NoDup l'.
Proof. induction l; cbn; intros; auto. inv H. auto. Qed.

Lemma NoDup_app_remove_r : forall A (l l' : list A), NoDup (l ++ l') -> NoDup l.
Proof.
  induction l; cbn; intros; [constructor|]. inv H. constructor; eauto.
  intros X. apply H2. apply in_or_app; auto.
Qed.

Lemma NoDup_app_disjoint : forall A (l l' : list A) x, NoDup (l ++ l') -> In x l -> In x l' -> False.
Proof.
  induction l; cbn; intros; auto. inv H. destruct H0.
  - subst. apply H4. apply in_or_app; auto.
  - eapply IHl; eauto.
Qed.
