(** Bit-level facts about the AVR register operations. *)
From Coq Require Import List NArith Bool Lia.
From Coq Require Import ZifyBool ZifyN.
From Verif Require Import Avr.
Import ListNotations.
Local Open Scope N_scope.

Definition D (g : regs) (p : port) (b : N) : bool := N.testbit (ddr g p) b.
Definition T (g : regs) (p : port) (b : N) : bool := N.testbit (prt g p) b.
Definition pin (p : port) (b : N) (q : port) (c : N) : bool := port_eqb p q && (b =? c).

Lemma drive_DT : forall g p b, drive g p b =
  if D g p b then (if T g p b then High else Low) else (if T g p b then Pullup else Float).
Proof. reflexivity. Qed.

Lemma port_eqb_eq : forall p q, port_eqb p q = true <-> p = q.
Proof. intros [] []; split; intros; try discriminate; reflexivity. Qed.

Lemma pin_eq : forall p b q c, pin p b q c = true <-> p = q /\ b = c.
Proof. intros. unfold pin. rewrite andb_true_iff, port_eqb_eq, N.eqb_eq. tauto. Qed.

Lemma mod256_bit : forall v c, c < 8 -> N.testbit (v mod 256) c = N.testbit v c.
Proof. intros. change 256 with (2 ^ 8). apply N.mod_pow2_bits_low. auto. Qed.

Lemma D_wr_ddr : forall B p v h q c, c < 8 ->
  D (io (wr B (DDR p) v h)) q c = if port_eqb p q then N.testbit v c else D (io h) q c.
Proof. intros. unfold D, wr. cbn [io store ddr]. unfold updp. destruct (port_eqb p q); auto using mod256_bit. Qed.
Lemma T_wr_ddr : forall B p v h q c, T (io (wr B (DDR p) v h)) q c = T (io h) q c.
Proof. reflexivity. Qed.
Lemma D_wr_prt : forall B p v h q c, D (io (wr B (PORT p) v h)) q c = D (io h) q c.
Proof. reflexivity. Qed.
Lemma T_wr_prt : forall B p v h q c, c < 8 ->
  T (io (wr B (PORT p) v h)) q c = if port_eqb p q then N.testbit v c else T (io h) q c.
Proof. intros. unfold T, wr. cbn [io store prt]. unfold updp. destruct (port_eqb p q); auto using mod256_bit. Qed.
Lemma D_wr_pin : forall B p v h q c, D (io (wr B (PIN p) v h)) q c = D (io h) q c.
Proof. reflexivity. Qed.
Lemma T_wr_pin : forall B p v h q c, c < 8 ->
  T (io (wr B (PIN p) v h)) q c = xorb (T (io h) q c) (port_eqb p q && N.testbit v c).
Proof.
  intros. unfold T, wr. cbn [io store prt]. unfold updp. destruct (port_eqb p q) eqn:E; cbn [andb].
  - apply port_eqb_eq in E. subst q. rewrite N.lxor_spec, mod256_bit by auto. auto.
  - rewrite xorb_false_r. auto.
Qed.

Lemma D_set_ddr : forall B p b h q c, c < 8 -> D (io (set_bit B (DDR p) b h)) q c = pin p b q c || D (io h) q c.
Proof.
  intros. unfold set_bit, pin. rewrite D_wr_ddr by auto. cbn [ld]. rewrite N.lor_spec, N.pow2_bits_eqb.
  destruct (port_eqb p q) eqn:E; auto. apply port_eqb_eq in E. subst q. apply orb_comm.
Qed.
Lemma T_set_ddr : forall B p b h q c, T (io (set_bit B (DDR p) b h)) q c = T (io h) q c.
Proof. reflexivity. Qed.
Lemma D_set_prt : forall B p b h q c, D (io (set_bit B (PORT p) b h)) q c = D (io h) q c.
Proof. reflexivity. Qed.
Lemma T_set_prt : forall B p b h q c, c < 8 -> T (io (set_bit B (PORT p) b h)) q c = pin p b q c || T (io h) q c.
Proof.
  intros. unfold set_bit, pin. rewrite T_wr_prt by auto. cbn [ld]. rewrite N.lor_spec, N.pow2_bits_eqb.
  destruct (port_eqb p q) eqn:E; auto. apply port_eqb_eq in E. subst q. apply orb_comm.
Qed.
Lemma D_clr_ddr : forall B p b h q c, c < 8 -> D (io (clear_bit B (DDR p) b h)) q c = negb (pin p b q c) && D (io h) q c.
Proof.
  intros. unfold clear_bit, pin. rewrite D_wr_ddr by auto. cbn [ld]. rewrite N.ldiff_spec, N.pow2_bits_eqb.
  destruct (port_eqb p q) eqn:E; auto. apply port_eqb_eq in E. subst q. apply andb_comm.
Qed.
Lemma T_clr_ddr : forall B p b h q c, T (io (clear_bit B (DDR p) b h)) q c = T (io h) q c.
Proof. reflexivity. Qed.
Lemma D_clr_prt : forall B p b h q c, D (io (clear_bit B (PORT p) b h)) q c = D (io h) q c.
Proof. reflexivity. Qed.
Lemma T_clr_prt : forall B p b h q c, c < 8 -> T (io (clear_bit B (PORT p) b h)) q c = negb (pin p b q c) && T (io h) q c.
Proof.
  intros. unfold clear_bit, pin. rewrite T_wr_prt by auto. cbn [ld]. rewrite N.ldiff_spec, N.pow2_bits_eqb.
  destruct (port_eqb p q) eqn:E; auto. apply port_eqb_eq in E. subst q. apply andb_comm.
Qed.
Lemma D_set_pin : forall B p b h q c, D (io (set_bit B (PIN p) b h)) q c = D (io h) q c.
Proof. reflexivity. Qed.
(** Single-bit writes: one bit toggles.  Read-modify-write: so do all bits that read as one. *)
Lemma T_set_pin : forall B p b h q c, c < 8 -> T (io (set_bit B (PIN p) b h)) q c =
  xorb (T (io h) q c) (pin p b q c || (b_rmw B && port_eqb p q && N.testbit (ld B (PIN p) h) c)).
Proof.
  intros. unfold set_bit, pin. rewrite T_wr_pin by auto. destruct (b_rmw B).
  - rewrite N.lor_spec, N.pow2_bits_eqb. destruct (port_eqb p q); auto. rewrite !andb_true_l. f_equal. apply orb_comm.
  - rewrite N.pow2_bits_eqb, orb_false_r. auto.
Qed.

(** Reading back, and reading pins. *)
Lemma ld_ddr : forall B p h c, N.testbit (ld B (DDR p) h) c = D (io h) p c.
Proof. reflexivity. Qed.
Lemma ld_prt : forall B p h c, N.testbit (ld B (PORT p) h) c = T (io h) p c.
Proof. reflexivity. Qed.
Lemma ld_pin : forall B p h c, N.testbit (ld B (PIN p) h) c =
  if D (io h) p c then T (io h) p c else N.testbit (b_ext B (io h) (sr h) p) c.
Proof.
  intros. cbn [ld]. unfold levels, D, T. rewrite N.lor_spec, N.land_spec, N.ldiff_spec.
  destruct (N.testbit (ddr (io h) p) c), (N.testbit (prt (io h) p) c), (N.testbit (b_ext B (io h) (sr h) p) c); reflexivity.
Qed.
Lemma level_driven : forall g x p c, D g p c = true -> level g x p c = T g p c.
Proof.
  intros g x p c H. unfold level, levels. rewrite N.lor_spec, N.land_spec, N.ldiff_spec. fold (D g p c) (T g p c). rewrite H.
  rewrite andb_true_r, andb_false_r, orb_false_r. auto.
Qed.

(** History of register states. *)
Lemma hist_wr : forall B r v h, hist (wr B r v h) = io (wr B r v h) :: hist h.
Proof. reflexivity. Qed.
Lemma hist_set : forall B r b h, hist (set_bit B r b h) = io (set_bit B r b h) :: hist h.
Proof. intros B [] b h; reflexivity. Qed.
Lemma hist_clr : forall B r b h, hist (clear_bit B r b h) = io (clear_bit B r b h) :: hist h.
Proof. reflexivity. Qed.

(** [h'] follows [h] and in every state in between, and at the end, [P] holds. *)
Definition along (P : regs -> Prop) (h h' : hw) : Prop :=
  exists l, hist h' = l ++ hist h /\ Forall P l.
Lemma along_refl : forall P h h', hist h' = hist h -> along P h h'.
Proof. intros. exists []. split; auto. Qed.
Lemma along_trans : forall P h h1 h2, along P h h1 -> along P h1 h2 -> along P h h2.
Proof.
  intros P h h1 h2 [l1 [E1 F1]] [l2 [E2 F2]]. exists (l2 ++ l1). rewrite E2, E1, app_assoc. split; auto.
  apply Forall_app. auto.
Qed.
Lemma along_weaken : forall (P Q : regs -> Prop) h h', (forall g, P g -> Q g) -> along P h h' -> along Q h h'.
Proof. intros P Q h h' H [l [E F]]. exists l. split; auto. eapply Forall_impl; eauto. Qed.
Lemma along_wr : forall (P : regs -> Prop) B r v h, P (io (wr B r v h)) -> along P h (wr B r v h).
Proof. intros. exists [io (wr B r v h)]. split; auto. Qed.
Lemma along_set : forall (P : regs -> Prop) B r b h, P (io (set_bit B r b h)) -> along P h (set_bit B r b h).
Proof. intros. exists [io (set_bit B r b h)]. split; auto. rewrite hist_set. auto. Qed.
Lemma along_clr : forall (P : regs -> Prop) B r b h, P (io (clear_bit B r b h)) -> along P h (clear_bit B r b h).
Proof. intros. exists [io (clear_bit B r b h)]. split; auto. Qed.

(** Only pins in [S] differ. *)
Definition same_but (S : port -> N -> bool) (g g' : regs) : Prop :=
  forall p b, b < 8 -> S p b = false -> D g' p b = D g p b /\ T g' p b = T g p b.
Definition only (S : port -> N -> bool) (h h' : hw) : Prop :=
  same_but S (io h) (io h') /\ along (same_but S (io h)) h h'.

Lemma same_but_refl : forall S g, same_but S g g.
Proof. intros S g p b _ _. auto. Qed.
Lemma same_but_trans : forall S g g1 g2, same_but S g g1 -> same_but S g1 g2 -> same_but S g g2.
Proof. intros S g g1 g2 H1 H2 p b Hb HS. destruct (H1 p b Hb HS) as [A B], (H2 p b Hb HS) as [C E]. split; congruence. Qed.
Lemma same_but_drive : forall S g g' p b, same_but S g g' -> b < 8 -> S p b = false -> drive g' p b = drive g p b.
Proof. intros S g g' p b H Hb HS. destruct (H p b Hb HS) as [A B]. rewrite !drive_DT, A, B. auto. Qed.
Lemma only_refl : forall S h h', io h' = io h -> hist h' = hist h -> only S h h'.
Proof. intros. split; [rewrite H; apply same_but_refl | apply along_refl; auto]. Qed.
Lemma only_trans : forall S h h1 h2, only S h h1 -> only S h1 h2 -> only S h h2.
Proof.
  intros S h h1 h2 [A1 B1] [A2 B2]. split; [eapply same_but_trans; eauto|].
  eapply along_trans; [exact B1|]. eapply along_weaken; [|exact B2]. intros. eapply same_but_trans; eauto.
Qed.
Lemma only_set_prt : forall (S : port -> N -> bool) B p b h, S p b = true -> only S h (set_bit B (PORT p) b h).
Proof.
  intros S B p b h H. assert (X : same_but S (io h) (io (set_bit B (PORT p) b h))).
  { intros q c Hc HS. rewrite D_set_prt, T_set_prt by auto. destruct (pin p b q c) eqn:E; auto. apply pin_eq in E. destruct E. congruence. }
  split; auto using along_set.
Qed.
Lemma only_set_ddr : forall (S : port -> N -> bool) B p b h, S p b = true -> only S h (set_bit B (DDR p) b h).
Proof.
  intros S B p b h H. assert (X : same_but S (io h) (io (set_bit B (DDR p) b h))).
  { intros q c Hc HS. rewrite T_set_ddr, D_set_ddr by auto. destruct (pin p b q c) eqn:E; auto. apply pin_eq in E. destruct E. congruence. }
  split; auto using along_set.
Qed.
Lemma only_clr_prt : forall (S : port -> N -> bool) B p b h, S p b = true -> only S h (clear_bit B (PORT p) b h).
Proof.
  intros S B p b h H. assert (X : same_but S (io h) (io (clear_bit B (PORT p) b h))).
  { intros q c Hc HS. rewrite D_clr_prt, T_clr_prt by auto. destruct (pin p b q c) eqn:E; auto. apply pin_eq in E. destruct E. congruence. }
  split; auto using along_clr.
Qed.
Lemma only_clr_ddr : forall (S : port -> N -> bool) B p b h, S p b = true -> only S h (clear_bit B (DDR p) b h).
Proof.
  intros S B p b h H. assert (X : same_but S (io h) (io (clear_bit B (DDR p) b h))).
  { intros q c Hc HS. rewrite T_clr_ddr, D_clr_ddr by auto. destruct (pin p b q c) eqn:E; auto. apply pin_eq in E. destruct E. congruence. }
  split; auto using along_clr.
Qed.
Lemma only_set_pin : forall (S : port -> N -> bool) B p b h, b_rmw B = false -> S p b = true -> only S h (set_bit B (PIN p) b h).
Proof.
  intros S B p b h HR H. assert (X : same_but S (io h) (io (set_bit B (PIN p) b h))).
  { intros q c Hc HS. rewrite D_set_pin, T_set_pin, HR by auto. rewrite orb_false_r. destruct (pin p b q c) eqn:E; [|rewrite xorb_false_r; auto].
    apply pin_eq in E. destruct E. congruence. }
  split; auto using along_set.
Qed.
Lemma only_wr_prt : forall (S : port -> N -> bool) B p v h,
  (forall c, c < 8 -> S p c = false -> N.testbit v c = T (io h) p c) -> only S h (wr B (PORT p) v h).
Proof.
  intros S B p v h H. assert (X : same_but S (io h) (io (wr B (PORT p) v h))).
  { intros q c Hc HS. rewrite D_wr_prt, T_wr_prt by auto. destruct (port_eqb p q) eqn:E; auto. apply port_eqb_eq in E. subst q. auto. }
  split; auto using along_wr.
Qed.
Lemma only_wr_ddr : forall (S : port -> N -> bool) B p v h,
  (forall c, c < 8 -> S p c = false -> N.testbit v c = D (io h) p c) -> only S h (wr B (DDR p) v h).
Proof.
  intros S B p v h H. assert (X : same_but S (io h) (io (wr B (DDR p) v h))).
  { intros q c Hc HS. rewrite T_wr_ddr, D_wr_ddr by auto. destruct (port_eqb p q) eqn:E; auto. apply port_eqb_eq in E. subst q. auto. }
  split; auto using along_wr.
Qed.
Lemma only_more : forall (S S' : port -> N -> bool) h h', (forall p b, S p b = true -> S' p b = true) -> only S h h' -> only S' h h'.
Proof.
  intros S S' h h' H [A B]. assert (X : forall g g', same_but S g g' -> same_but S' g g').
  { intros g g' Y p b Hb HS. apply Y; auto. destruct (S p b) eqn:E; auto. rewrite (H _ _ E) in HS. discriminate. }
  split; auto. eapply along_weaken; [|exact B]. auto.
Qed.

(** Non-port state is not touched by port writes. *)
Definition rest (h : hw) := (clkps h, clken h, tccra h, tccrb h, ocra h, timsk h, inten h, flag h, dpol h).
Lemma rest_wr : forall B r v h, rest (wr B r v h) = rest h.
Proof. reflexivity. Qed.
Lemma rest_set : forall B r b h, rest (set_bit B r b h) = rest h.
Proof. intros B [] b h; reflexivity. Qed.
Lemma rest_clr : forall B r b h, rest (clear_bit B r b h) = rest h.
Proof. reflexivity. Qed.

Global Hint Rewrite D_wr_ddr T_wr_ddr D_wr_prt T_wr_prt D_wr_pin T_wr_pin D_set_ddr T_set_ddr D_set_prt T_set_prt
  D_clr_ddr T_clr_ddr D_clr_prt T_clr_prt D_set_pin T_set_pin using (first [assumption | reflexivity]) : avr.

(** Splits a composed operation into single register writes. *)
Ltac each :=
  lazymatch goal with
  | |- only _ ?h ?h => apply only_refl; reflexivity
  | |- only _ ?h (set_bit ?B (PORT ?p) ?b ?h1) => apply (only_trans _ h h1); [each | apply only_set_prt; try reflexivity]
  | |- only _ ?h (set_bit ?B (DDR ?p) ?b ?h1) => apply (only_trans _ h h1); [each | apply only_set_ddr; try reflexivity]
  | |- only _ ?h (clear_bit ?B (PORT ?p) ?b ?h1) => apply (only_trans _ h h1); [each | apply only_clr_prt; try reflexivity]
  | |- only _ ?h (clear_bit ?B (DDR ?p) ?b ?h1) => apply (only_trans _ h h1); [each | apply only_clr_ddr; try reflexivity]
  | |- only _ ?h (set_bit ?B (PIN ?p) ?b ?h1) => apply (only_trans _ h h1); [each | apply only_set_pin; try reflexivity]
  | |- only _ ?h (wr ?B (PORT ?p) ?v ?h1) => apply (only_trans _ h h1); [each | apply only_wr_prt]
  | |- only _ ?h (wr ?B (DDR ?p) ?v ?h1) => apply (only_trans _ h h1); [each | apply only_wr_ddr]
  | |- only _ _ (if ?c then _ else _) => destruct c; each
  | |- _ => idtac
  end.
