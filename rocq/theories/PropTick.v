(** C47: tick accounting between the timer interrupt and the main loop. *)
From Coq Require Import List Arith Bool Lia.
From Verif Require Import Tick.
Import ListNotations.

(** ** Specification, on event sequences only *)
Definition is_irq (e : ev) : bool := match e with Irq => true | _ => false end.
Definition is_report (e : ev) : bool := match e with Load true => true | _ => false end.
Definition is_clear (e : ev) : bool := match e with Clear => true | _ => false end.
Definition is_load (e : ev) : bool := match e with Load _ => true | _ => false end.
Definition irqs (t : list ev) : nat := length (filter is_irq t).
Definition reports (t : list ev) : nat := length (filter is_report t).

(** The events since the last clearing of the flag. *)
Fixpoint since_clear (t acc : list ev) : list ev :=
  match t with [] => acc | e :: t => since_clear t (if is_clear e then [] else e :: acc) end.

(** No interrupt in the window between loading and clearing the flag. *)
Fixpoint window_free (t : list ev) (inside : bool) : Prop :=
  match t with
  | [] => True
  | Irq :: t => inside = false /\ window_free t inside
  | Load _ :: t => window_free t true
  | Clear :: t => window_free t false
  | Done :: t => window_free t inside
  end.
(** At most one interrupt between two loads of the flag ([n]: since the last). *)
Fixpoint spaced (t : list ev) (n : nat) : Prop :=
  match t with
  | [] => True
  | Irq :: t => n = 0 /\ spaced t 1
  | Load _ :: t => spaced t 0
  | _ :: t => spaced t n
  end.

(** ** Proofs *)
Lemma mrun_app : forall l1 l2 s, mrun (l1 ++ l2) s =
  (fst (mrun l1 s) ++ fst (mrun l2 (snd (mrun l1 s))), snd (mrun l2 (snd (mrun l1 s)))).
Proof.
  induction l1 as [|w l1 IH]; intros l2 s; cbn [app mrun]. { cbn [fst snd app]. destruct (mrun l2 s); auto. }
  destruct (mstep w s) as [s1 e]. rewrite IH. destruct (mrun l1 s1) as [t s2]. cbn [fst snd]. auto.
Qed.

(** The flag is set only if an interrupt came since the last clearing. *)
Lemma flag_since : forall l s acc t s', mrun l s = (t, s') ->
  (mflag s = true -> In Irq acc) ->
  forall a b, t = a ++ Load true :: b -> In Irq (since_clear a acc).
Proof.
  induction l as [|w l IH]; intros s acc t s' E H a b ET; cbn [mrun] in E.
  { injection E as <- <-. destruct a; discriminate. }
  destruct (mstep w s) as [s1 e] eqn:ES. destruct (mrun l s1) as [t1 s2] eqn:ER. injection E as <- <-.
  destruct a as [|x a]; cbn [app] in ET; injection ET as E1 E2.
  - subst e. cbn [since_clear]. apply H. destruct w; cbn [mstep] in ES; [discriminate|].
    destruct (mpc s); cbn in ES; congruence.
  - subst x. cbn [since_clear]. eapply IH; eauto. clear - ES H.
    destruct w; cbn [mstep] in ES; [injection ES as <- <-; cbn; auto|].
    destruct (mpc s); injection ES as <- <-; cbn [mflag is_clear]; intros; cbn [In]; auto; discriminate.
Qed.

(** Every positive report has had an interrupt since the flag was last cleared;
    hence reports never outnumber interrupts. *)
Theorem C47_report_has_irq_partial : forall l a b, fst (mrun l m0) = a ++ Load true :: b -> In Irq (since_clear a []).
Proof. intros l a b H. destruct (mrun l m0) as [t s'] eqn:E. cbn [fst] in H. eapply flag_since; eauto. discriminate. Qed.
Print Assumptions C47_report_has_irq_partial.

Definition owed (s : mstate) : nat := match mpc s with Got true => 0 | _ => if mflag s then 1 else 0 end.
Lemma reports_le : forall l s, reports (fst (mrun l s)) <= irqs (fst (mrun l s)) + owed s.
Proof.
  induction l as [|w l IH]; intros s; cbn [mrun]; [cbn; lia|].
  destruct (mstep w s) as [s1 e] eqn:ES. specialize (IH s1). destruct (mrun l s1) as [t s2]. cbn [fst] in *. unfold reports, irqs, owed in *.
  destruct s as [[] [|[]|]], w; cbn in ES; injection ES as <- <-; cbn in *; lia.
Qed.
Theorem C47_reports_le_irqs_partial : forall l, reports (fst (mrun l m0)) <= irqs (fst (mrun l m0)).
Proof. intros. pose proof (reports_le l m0). cbn [owed m0 mpc mflag] in H. lia. Qed.
Print Assumptions C47_reports_le_irqs_partial.

(** An interrupt outside the window is reported by the next load. *)
Lemma clear_first : forall l s t s', mrun l s = (t, s') -> mflag s = true -> (forall v, mpc s <> Got v) ->
  forall a v b, t = a ++ Load v :: b -> existsb is_load a = false -> v = true.
Proof.
  induction l as [|w l IH]; intros s t s' E HF HP a v b ET HL; cbn [mrun] in E.
  { injection E as <- <-. destruct a; discriminate. }
  destruct (mstep w s) as [s1 e] eqn:ES. destruct (mrun l s1) as [t1 s2] eqn:ER. injection E as <- <-.
  destruct a as [|x a]; cbn [app] in ET; injection ET as E1 E2.
  - subst e. destruct w; cbn [mstep] in ES; [discriminate|]. destruct (mpc s); cbn in ES; congruence.
  - subst x. cbn [existsb] in HL. apply orb_false_iff in HL. destruct HL as [L1 L2].
    apply (IH s1 t1 s2 ER) with (a := a) (b := b); auto; destruct w; cbn [mstep] in ES.
    + injection ES as <- _. auto.
    + destruct (mpc s) eqn:P; injection ES as <- <-; auto. destruct (HP v0); auto.
    + injection ES as <- _. auto.
    + destruct (mpc s) eqn:P; injection ES as <- <-; cbn in L1; try discriminate.
      destruct (HP v0); auto.
Qed.
Lemma mrun_split : forall t1 t2 l s, fst (mrun l s) = t1 ++ t2 -> exists l1 l2, l = l1 ++ l2 /\ fst (mrun l1 s) = t1 /\ fst (mrun l2 (snd (mrun l1 s))) = t2.
Proof.
  induction t1 as [|e t1 IH]; intros t2 l s H; [exists [], l; auto|].
  destruct l as [|w l]; [discriminate|]. cbn [mrun] in H. destruct (mstep w s) as [s1 e1] eqn:ES. specialize (IH t2 l s1).
  destruct (mrun l s1) as [t s2]. cbn [fst app] in *. injection H as -> H. destruct (IH H) as (l1 & l2 & -> & A & B).
  exists (w :: l1), l2. split; auto. cbn [mrun]. rewrite ES. destruct (mrun l1 s1) as [t' s']. cbn [fst snd] in *. subst. auto.
Qed.

(** The loop is between a load and its clear exactly when the last of these
    two events was a load. *)
Fixpoint inside (t : list ev) (b : bool) : bool :=
  match t with [] => b | Load _ :: t => inside t true | Clear :: t => inside t false | _ :: t => inside t b end.
Lemma inside_pc : forall l s, inside (fst (mrun l s)) (match mpc s with Got _ => true | _ => false end) =
  match mpc (snd (mrun l s)) with Got _ => true | _ => false end.
Proof.
  induction l as [|w l IH]; intros s; auto. cbn [mrun]. destruct (mstep w s) as [s1 e] eqn:ES. specialize (IH s1).
  destruct (mrun l s1) as [t s2]. cbn [fst snd] in *.
  destruct s as [f [|[]|]], w; cbn in ES; injection ES as <- <-; cbn in *; auto.
Qed.

Theorem C47_next_load_reports_partial : forall l a b v c, fst (mrun l m0) = a ++ Irq :: b ++ Load v :: c ->
  existsb is_load b = false -> inside a false = false -> v = true.
Proof.
  intros l a b v c H HB HA. destruct (mrun_split a _ l m0 H) as (l1 & l2 & -> & E1 & E2).
  assert (P := inside_pc l1 m0). rewrite E1 in P. cbn [m0 mpc] in P. rewrite HA in P.
  set (s := snd (mrun l1 m0)) in *. clearbody s. clear H E1.
  destruct l2 as [|w l2]; [discriminate|]. cbn [mrun] in E2. destruct (mstep w s) as [s1 e] eqn:ES.
  destruct (mrun l2 s1) as [t s2] eqn:ER. cbn [fst] in E2. injection E2 as -> E2.
  destruct w; cbn [mstep] in ES; [|destruct (mpc s); discriminate]. injection ES as <-.
  eapply clear_first; eauto. cbn [mpc]. intros v0 E. rewrite E in P. discriminate.
Qed.
Print Assumptions C47_next_load_reports_partial.

(** With no interrupt in the window and at most one per load, every interrupt
    is reported exactly once (the last one possibly still waiting). *)
Lemma exact : forall l s t s' n, mrun l s = (t, s') -> window_free t (match mpc s with Got _ => true | _ => false end) -> spaced t n ->
  (match mpc s with Got v => mflag s = v /\ n = 0 | _ => n = 0 <-> mflag s = false end) ->
  irqs t + owed s = reports t + owed s'.
Proof.
  induction l as [|w l IH]; intros s t s' n E HW HS HI; cbn [mrun] in E; [injection E as <- <-; cbn; lia|].
  destruct (mstep w s) as [s1 e] eqn:ES. destruct (mrun l s1) as [t1 s2] eqn:ER. injection E as <- <-.
  assert (X := fun n => IH s1 t1 s2 n ER). clear IH ER. unfold irqs, reports, owed in *.
  destruct s as [f [|v|]], w; cbn in ES; injection ES as <- <-; cbn in HW, HS, HI, X |- *.
  - destruct HW as [_ HW]. destruct HS as [HS1 HS2]. assert (f = false) by (apply HI; auto). subst f.
    specialize (X 1 HW HS2). cbn. rewrite <- X; [lia|]. split; discriminate.
  - specialize (X 0 HW HS). destruct f; cbn in *; rewrite ?X by auto; lia.
  - destruct HW; discriminate.
  - destruct HI as [-> ->]. destruct v; cbn in *; rewrite <- (X 0 HW HS); try lia; split; auto.
  - destruct HW as [_ HW]. destruct HS as [HS1 HS2]. assert (f = false) by (apply HI; auto). subst f.
    specialize (X 1 HW HS2). cbn. rewrite <- X; [lia|]. split; discriminate.
  - rewrite <- (X n HW HS); auto.
Qed.
Theorem C47_all_reported_partial : forall l t s, mrun l m0 = (t, s) -> window_free t false -> spaced t 0 ->
  irqs t = reports t + owed s /\ owed s <= 1.
Proof.
  intros l t s E HW HS. pose proof (exact l m0 t s 0 E HW HS) as X. cbn [m0 mpc mflag owed] in X.
  rewrite Nat.add_0_r in X. split; [apply X; split; auto|]. unfold owed. destruct (mpc s) as [|[]|], (mflag s); auto.
Qed.
Print Assumptions C47_all_reported_partial.

(** Full statement: every interrupt is followed by a report once the loop polls
    again.  Witness: the interrupt falls between load and clear; however long
    the loop goes on polling, it reports nothing. *)
Lemma idle_poll : forall n s, mflag s = false -> mpc s <> Got true -> mpc s <> Work -> reports (fst (mrun (repeat Main n) s)) = 0.
Proof.
  induction n as [|n IH]; intros s H1 H2 H3; auto. cbn [repeat mrun]. destruct (mstep Main s) as [s1 e] eqn:ES.
  specialize (IH s1). destruct (mrun (repeat Main n) s1) as [t s2]. cbn [fst] in *.
  destruct s as [f p]. cbn [mflag mpc] in *. subst f. destruct p as [|[]|]; cbn in ES; try congruence; injection ES as <- <-;
    unfold reports in *; cbn in *; apply IH; auto; discriminate.
Qed.
Theorem C47_irq_lost_refuted : exists l, irqs (fst (mrun l m0)) = 1 /\
  forall n, reports (fst (mrun (l ++ repeat Main n) m0)) = 0 /\ irqs (fst (mrun (l ++ repeat Main n) m0)) = 1.
Proof.
  exists [Main; Timer; Main]. split; [reflexivity|]. intros n. rewrite mrun_app. cbn [fst].
  set (s := snd (mrun [Main; Timer; Main] m0)). set (t := fst (mrun [Main; Timer; Main] m0)).
  assert (R := idle_poll n s eq_refl). assert (I : irqs (fst (mrun (repeat Main n) s)) = 0).
  { generalize s. clear. induction n as [|n IH]; intros s; auto. cbn [repeat mrun]. destruct (mstep Main s) as [s1 e] eqn:ES.
    specialize (IH s1). destruct (mrun (repeat Main n) s1). cbn [fst] in *. unfold irqs in *. cbn [filter].
    destruct s as [f [|[]|]]; cbn in ES; injection ES as <- <-; auto. }
  unfold reports, irqs in *. rewrite !filter_app, !app_length, I, R by (cbn; discriminate). auto.
Qed.
Print Assumptions C47_irq_lost_refuted.

(** A case with two interrupts, each reported. *)
Example C47_case : exists l s, mrun l m0 = ([Irq; Load true; Clear; Irq; Done; Load true; Clear], s) /\
  window_free (fst (mrun l m0)) false /\ spaced (fst (mrun l m0)) 0.
Proof. exists [Timer; Main; Main; Timer; Main; Main; Main], (mkM false Work). cbn. repeat split. Qed.
