(** The buffer module initialised again and again (C137). *)
From Coq Require Import List NArith ZArith Arith Bool Lia.
From Coq Require Import ZifyBool ZifyNat ZifyN.
From Verif Require Import Base Lib Buffer BufferSpec BufferProofs.
Import ListNotations.
Local Open Scope Z_scope.
Local Open Scope outcome_scope.

(** All functions of asdf_buffer.c: [BOp] asdf_buffer.h 58-73, [BInit]
    asdf_buffer.c 84-88, [BValid] asdf_buffer.c 104-107. *)
Inductive bcall := BOp (o : bop) | BInit | BValid (h : Z).
Inductive banswer := BRes (r : bres) | BNothing | BYes (b : bool).
(** asdf_buffer.c 84-202. *)
Definition bcall_step (o : bcall) (b : bufs) : outcome (banswer * bufs) :=
  match o with
  | BOp o => '(r, b1) <- buf_step o b ;; Ok (BRes r, b1)
  | BInit => Ok (BNothing, buffer_init b)
  | BValid h => Ok (BYes (handle_valid h b), b)
  end.
Fixpoint bcalls (ops : list bcall) (b : bufs) : outcome (list banswer) :=
  match ops with
  | [] => Ok []
  | o :: t => '(a, b1) <- bcall_step o b ;; l <- bcalls t b1 ;; Ok (a :: l)
  end.
Definition bsane (o : bcall) : Prop := match o with BOp o => sane o | _ => True end.

(** Specification: queues by position; initialising leaves none. *)
Fixpoint bspec (ops : list bcall) (l : list fifo) : list banswer :=
  match ops with
  | [] => []
  | BOp o :: t => let '(r, l1) := spec_step o l in BRes r :: bspec t l1
  | BInit :: t => BNothing :: bspec t []
  | BValid h :: t => BYes ((0 <=? h) && (h <? Z.of_nat (length l))) :: bspec t l
  end.

Lemma bcalls_spec : forall ops l b, R l b -> Forall bsane ops -> bcalls ops b = Ok (bspec ops l).
Proof.
  intros ops. induction ops as [|o ops IH]; intros l b HR HS; [reflexivity|]. inv HS. cbn [bcalls bspec]. destruct o as [o| |h]; cbn [bcall_step].
  - destruct (step_refines o l b HR H1) as [b1 [E1 R1]]. rewrite E1. cbn [bind]. rewrite (IH _ _ R1 H2). cbn [bind]. destruct (spec_step o l). reflexivity.
  - cbn [bind]. assert (W : wf_storage b) by (split; apply HR). rewrite (IH _ _ (R_init b W) H2). reflexivity.
  - cbn [bind]. rewrite (IH _ _ HR H2). cbn [bind]. unfold handle_valid. destruct HR as (_&_&HN&_). rewrite HN. reflexivity.
Qed.
Lemma R_zero : R [] bufs_zero.
Proof. unfold R, bufs_zero; cbn. repeat split; auto; lia. Qed.

(** C137.  From power-on, with initialisations anywhere among the calls: the
    queues of the specification, and no trace of anything before an
    initialisation in the answers after it. *)
Theorem C137_buffers_start_afresh : forall ops1 ops2,
  Forall bsane ops1 -> Forall bsane ops2 ->
  exists l1 l2, bcalls ops1 bufs_zero = Ok l1 /\ bcalls ops2 bufs_zero = Ok l2 /\
    l1 = bspec ops1 [] /\ l2 = bspec ops2 [] /\
    bcalls (ops1 ++ BInit :: ops2) bufs_zero = Ok (l1 ++ BNothing :: l2).
Proof.
  intros ops1 ops2 H1 H2. exists (bspec ops1 []), (bspec ops2 []).
  split; [apply bcalls_spec; [exact R_zero|exact H1]|]. split; [apply bcalls_spec; [exact R_zero|exact H2]|]. split; [reflexivity|]. split; [reflexivity|].
  rewrite (bcalls_spec (ops1 ++ BInit :: ops2) [] bufs_zero R_zero).
  - f_equal. generalize (@nil fifo) at 1 2 as l. clear. induction ops1 as [|o ops IH]; intros l; [reflexivity|]. cbn [app bspec]. destruct o as [o| |h].
    + destruct (spec_step o l) as [r l1]. cbn [app]. f_equal. apply IH.
    + cbn [app]. f_equal. apply IH.
    + cbn [app]. f_equal. apply IH.
  - apply Forall_app. split; [exact H1|]. constructor; [exact I|exact H2].
Qed.
Print Assumptions C137_buffers_start_afresh.

(** Codes left in a queue do not come back; old handles are dead until new
    buffers are made. *)
Example C137_example :
  let ops1 := [BOp (BNew 16); BOp (BPut 0 65); BValid 0; BOp (BPut 0 66); BOp (BGet 0)] in
  let ops2 := [BValid 0; BOp (BPut 0 67); BOp (BGet 0); BOp (BNew 8); BOp (BGet 0); BOp (BPut 0 68); BOp (BGet 0)] in
  Forall bsane ops1 /\ Forall bsane ops2 /\
  bcalls (ops1 ++ BInit :: ops2) bufs_zero =
  Ok [BRes (RHandle 0); BRes RUnit; BYes true; BRes RUnit; BRes (RCode 65); BNothing;
      BYes false; BRes RUnit; BRes (RCode 160); BRes (RHandle 0); BRes (RCode 160); BRes RUnit; BRes (RCode 68)].
Proof. cbv zeta. split; [repeat constructor; cbn; lia|]. split; [repeat constructor; cbn; lia|vm_compute; reflexivity]. Qed.
