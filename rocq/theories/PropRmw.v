(** The unoptimised build: exactly what sending a code does to the pins (C55). *)
From Coq Require Import List NArith Arith Bool Lia.
From Coq Require Import ZifyBool ZifyNat ZifyN.
From Verif Require Import Devices Avr ArchLib.
From Verif Require Arch328p Arch2560 PropArch328 PropArch2560.
Import ListNotations.
Local Open Scope N_scope.

(** Two read-modify-write updates of the same bit of a toggle register, while the
    levels from outside stay the same: an output of that port other than the bit
    itself ends up low, everything else as before.  In between, the bit is the
    other way round and every other output is low already. *)
Lemma toggled_twice : forall B p b h, b_rmw B = true -> b < 8 ->
  let h1 := set_bit B (PIN p) b h in let h2 := set_bit B (PIN p) b h1 in
  (forall c, c < 8 -> D (io h) p c = false -> N.testbit (b_ext B (io h1) (sr h1) p) c = N.testbit (b_ext B (io h) (sr h) p) c) ->
  forall q c, c < 8 ->
    D (io h1) q c = D (io h) q c /\ D (io h2) q c = D (io h) q c /\
    (pin p b q c = true -> T (io h1) q c = negb (T (io h) q c) /\ T (io h2) q c = T (io h) q c) /\
    (q <> p -> T (io h1) q c = T (io h) q c /\ T (io h2) q c = T (io h) q c) /\
    (q = p -> c <> b -> D (io h) q c = true -> T (io h1) q c = false /\ T (io h2) q c = false) /\
    (q = p -> c <> b -> D (io h) q c = false -> T (io h2) q c = T (io h) q c).
Proof.
  intros B p b h HB Hb h1 h2 HX q c Hc. split; [reflexivity|]. split; [reflexivity|].
  assert (T1 : T (io h1) q c = xorb (T (io h) q c) (pin p b q c || (port_eqb p q && N.testbit (ld B (PIN p) h) c))).
  { unfold h1. rewrite T_set_pin, HB by auto. reflexivity. }
  assert (T2 : T (io h2) q c = xorb (T (io h1) q c) (pin p b q c || (port_eqb p q && N.testbit (ld B (PIN p) h1) c))).
  { unfold h2. rewrite T_set_pin, HB by auto. reflexivity. }
  split. { intros E. rewrite T2, T1, E. destruct (T (io h) q c); auto. }
  split. { intros N. assert (E : port_eqb p q = false) by (apply not_true_is_false; rewrite port_eqb_eq; congruence).
    rewrite T2, T1. unfold pin. rewrite E. cbn [andb orb]. rewrite !xorb_false_r. auto. }
  assert (E : forall q, q = p -> c <> b -> pin p b q c = false /\ port_eqb p q = true).
  { intros q0 -> N. unfold pin. replace (b =? c) with false by (symmetry; apply N.eqb_neq; congruence).
    rewrite andb_false_r. split; auto. apply port_eqb_eq. auto. }
  split; intros EQ N HD; destruct (E q EQ N) as [E1 E2]; rewrite E1, E2 in T1, T2; cbn [andb orb] in T1, T2; subst q;
    rewrite ld_pin in T1, T2; change (D (io h1)) with (D (io h)) in T2; rewrite HD in T1, T2.
  - rewrite T1 in T2. rewrite T2, T1. destruct (T (io h) p c); auto.
  - rewrite (HX c Hc HD) in T2. rewrite T2, T1. destruct (T (io h) p c), (N.testbit (b_ext B (io h) (sr h) p) c); auto.
Qed.

(** ** ATmega328p *)
Theorem C55_what_sending_does_328p_partial : forall ser x h0 l m c, clken h0 = false -> c < 256 ->
  let h := Arch328p.steps (PropArch328.mk true ser x) (Arch328p.OCall EvArchInit :: l) h0 in
  exists g1 g2 g3, hist (Arch328p.send_code (PropArch328.mk true ser x m) c h) = g3 :: g2 :: g1 :: hist h /\
    io (Arch328p.send_code (PropArch328.mk true ser x m) c h) = g3 /\
    (drive (io h) PB 6 = Low \/ drive (io h) PB 6 = High) /\
    drive g1 PB 6 = drive (io h) PB 6 /\ drive g2 PB 6 = PropArch328.other (drive (io h) PB 6) /\ drive g3 PB 6 = drive (io h) PB 6 /\
    Forall (fun g => forall b, b < 8 -> drive g PD b = if N.testbit c b then High else Low) [g1; g2; g3] /\
    (forall p b, b < 8 -> p <> PD -> ~ (p = PB /\ b = 6) ->
       drive g3 p b = match p, drive (io h) p b with PB, High => Low | _, d => d end).
Proof.
  intros ser x h0 l m c CE Hc h.
  assert (C : PropArch328.Cfg (io h)) by apply PropArch328.cfg_running.
  assert (DP : dpol h = 0) by (pose proof (PropArch328.rest_running (PropArch328.mk true ser x) l h0 CE) as X; fold h in X; unfold rest, PropArch328.rest_init in X; congruence).
  clearbody h. set (B := PropArch328.mk true ser x m).
  unfold Arch328p.send_code. cbv zeta. rewrite DP, N.lxor_0_r. set (h1 := wr B (PORT PD) c h).
  set (h2 := set_bit B (PIN PB) 6 h1). set (h3 := set_bit B (PIN PB) 6 h2).
  exists (io h1), (io h2), (io h3). split; [unfold h3; rewrite hist_set; unfold h2; rewrite hist_set; reflexivity|]. split; [reflexivity|].
  assert (T1 : forall p b, b < 8 -> T (io h1) p b = if port_eqb PD p then N.testbit c b else T (io h) p b)
    by (intros; unfold h1; autorewrite with avr; auto).
  assert (D1 : forall p b, D (io h1) p b = D (io h) p b) by reflexivity.
  assert (SR : sr h2 = sr h1).
  { change (sr h2) with (Arch328p.shift166 m ser x (io h1) (io h2) (sr h1)). unfold Arch328p.shift166.
    assert (L2 : level (io h2) x PB 2 = false).
    { rewrite level_driven by exact (PropArch328.cf_clk _ C). unfold h2. rewrite T_set_pin by reflexivity.
      rewrite ld_pin, (D1 PB 2), (PropArch328.cf_clk _ C), T1 by reflexivity. cbn [port_eqb]. rewrite (PropArch328.cf_low _ C), !andb_false_r. reflexivity. }
    rewrite L2, andb_false_r. reflexivity. }
  pose proof (toggled_twice B PB 6 h1 eq_refl eq_refl) as TT. cbv zeta in TT. fold h2 in TT. fold h3 in TT.
  assert (HX : forall c, c < 8 -> D (io h1) PB c = false -> N.testbit (b_ext B (io h2) (sr h2) PB) c = N.testbit (b_ext B (io h1) (sr h1) PB) c)
    by (intros; rewrite SR; reflexivity).
  specialize (TT HX).
  assert (ST := PropArch328.cf_str _ C). assert (DA := PropArch328.cf_data _ C).
  split; [apply PropArch328.D_true_drive; exact ST|].
  destruct (TT PB 6 eq_refl) as (A1&A2&A3&_). destruct (A3 eq_refl) as [A4 A5]. rewrite D1 in A1, A2. rewrite T1 in A4, A5 by reflexivity. cbn [port_eqb] in A4, A5.
  split; [rewrite !drive_DT, D1, T1 by reflexivity; reflexivity|].
  split; [rewrite !drive_DT, A1, A4, ST; destruct (T (io h) PB 6); reflexivity|].
  split; [rewrite !drive_DT, A2, A5; reflexivity|].
  split.
  { assert (F : forall b, b < 8 -> drive (io h1) PD b = (if N.testbit c b then High else Low) /\
        drive (io h2) PD b = (if N.testbit c b then High else Low) /\ drive (io h3) PD b = (if N.testbit c b then High else Low)).
    { intros b Hb. destruct (TT PD b Hb) as (B1&B2&_&B3&_). destruct B3 as [B3 B4]; [discriminate|].
      rewrite !drive_DT, B1, B2, B3, B4, D1, T1, DA by auto. cbn [port_eqb]. auto. }
    repeat constructor; intros b Hb; apply F; exact Hb. }
  intros p b Hb NP NB. destruct (TT p b Hb) as (B1&B2&_&B3&B4&B5). rewrite !drive_DT, B2, D1.
  assert (PE : p = PB \/ p <> PB) by (destruct p; auto; right; discriminate).
  destruct PE as [-> | NE].
  - assert (b <> 6) by (intros ->; auto). rewrite D1 in B4, B5. rewrite T1 in B5 by auto. cbn [port_eqb] in B5.
    destruct (D (io h) PB b).
    + destruct B4 as [_ B4]; auto. rewrite B4. destruct (T (io h) PB b); reflexivity.
    + rewrite B5 by auto. destruct (T (io h) PB b); reflexivity.
  - destruct (B3 NE) as [_ B6]. rewrite B6, T1 by auto.
    replace (port_eqb PD p) with false by (symmetry; apply not_true_is_false; rewrite port_eqb_eq; congruence).
    destruct p; auto; congruence.
Qed.
Print Assumptions C55_what_sending_does_328p_partial.

(** A lit LED2 goes out, the row outputs and the other ports stay. *)
Example C55_case_328p :
  let h := Arch328p.steps (PropArch328.mk true false (fun _ => 0)) [Arch328p.OCall EvArchInit; Arch328p.OCall (EvOut 11 1); Arch328p.OCall (EvOut 1 1)] PropArch328.hw0 in
  let h' := Arch328p.send_code (PropArch328.mk true false (fun _ => 0) (fun _ => 0)) 65 h in
  (drive (io h) PB 5, drive (io h) PC 5, drive (io h) PB 6) = (High, High, Low) /\
  (drive (io h') PB 5, drive (io h') PC 5, drive (io h') PB 6) = (Low, High, Low).
Proof. vm_compute. auto. Qed.

(** ** ATmega2560 *)
Theorem C55_what_sending_does_2560_partial : forall x h0 l m c, clken h0 = false -> c < 256 ->
  let h := Arch2560.steps (PropArch2560.mk true x) (Arch2560.OCall EvArchInit :: l) h0 in
  exists g1 g2 g3, hist (Arch2560.send_code (PropArch2560.mk true x m) c h) = g3 :: g2 :: g1 :: hist h /\
    io (Arch2560.send_code (PropArch2560.mk true x m) c h) = g3 /\
    (drive (io h) PB 4 = Low \/ drive (io h) PB 4 = High) /\
    drive g1 PB 4 = drive (io h) PB 4 /\ drive g2 PB 4 = PropArch2560.other (drive (io h) PB 4) /\ drive g3 PB 4 = drive (io h) PB 4 /\
    Forall (fun g => forall b, b < 8 -> drive g PH b = if N.testbit c b then High else Low) [g1; g2; g3] /\
    (forall p b, b < 8 -> p <> PH -> ~ (p = PB /\ b = 4) ->
       drive g3 p b = match p, drive (io h) p b with PB, High => Low | _, d => d end).
Proof.
  intros x h0 l m c CE Hc h.
  assert (C : PropArch2560.Cfg (io h)) by apply PropArch2560.cfg_running.
  assert (DP : dpol h = 0) by (pose proof (PropArch2560.rest_running (PropArch2560.mk true x) l h0 CE) as X; fold h in X; unfold rest, PropArch2560.rest_init in X; congruence).
  clearbody h. set (B := PropArch2560.mk true x m).
  unfold Arch2560.send_code. cbv zeta. rewrite DP, N.lxor_0_r. set (h1 := wr B (PORT PH) c h).
  set (h2 := set_bit B (PIN PB) 4 h1). set (h3 := set_bit B (PIN PB) 4 h2).
  exists (io h1), (io h2), (io h3). split; [unfold h3; rewrite hist_set; unfold h2; rewrite hist_set; reflexivity|]. split; [reflexivity|].
  assert (T1 : forall p b, b < 8 -> T (io h1) p b = if port_eqb PH p then N.testbit c b else T (io h) p b)
    by (intros; unfold h1; autorewrite with avr; auto).
  assert (D1 : forall p b, D (io h1) p b = D (io h) p b) by reflexivity.
  pose proof (toggled_twice B PB 4 h1 eq_refl eq_refl) as TT. cbv zeta in TT. fold h2 in TT. fold h3 in TT.
  assert (HX : forall c, c < 8 -> D (io h1) PB c = false -> N.testbit (b_ext B (io h2) (sr h2) PB) c = N.testbit (b_ext B (io h1) (sr h1) PB) c)
    by (intros; reflexivity).
  specialize (TT HX).
  assert (ST := PropArch2560.cf_str _ C). assert (DA := PropArch2560.cf_data _ C).
  split; [apply PropArch2560.D_true_drive; exact ST|].
  destruct (TT PB 4 eq_refl) as (A1&A2&A3&_). destruct (A3 eq_refl) as [A4 A5]. rewrite D1 in A1, A2. rewrite T1 in A4, A5 by reflexivity. cbn [port_eqb] in A4, A5.
  split; [rewrite !drive_DT, D1, T1 by reflexivity; reflexivity|].
  split; [rewrite !drive_DT, A1, A4, ST; destruct (T (io h) PB 4); reflexivity|].
  split; [rewrite !drive_DT, A2, A5; reflexivity|].
  split.
  { assert (F : forall b, b < 8 -> drive (io h1) PH b = (if N.testbit c b then High else Low) /\
        drive (io h2) PH b = (if N.testbit c b then High else Low) /\ drive (io h3) PH b = (if N.testbit c b then High else Low)).
    { intros b Hb. destruct (TT PH b Hb) as (B1&B2&_&B3&_). destruct B3 as [B3 B4]; [discriminate|].
      rewrite !drive_DT, B1, B2, B3, B4, D1, T1, DA by auto. cbn [port_eqb]. auto. }
    repeat constructor; intros b Hb; apply F; exact Hb. }
  intros p b Hb NP NB. destruct (TT p b Hb) as (B1&B2&_&B3&B4&B5). rewrite !drive_DT, B2, D1.
  assert (PE : p = PB \/ p <> PB) by (destruct p; auto; right; discriminate).
  destruct PE as [-> | NE].
  - assert (b <> 4) by (intros ->; auto). rewrite D1 in B4, B5. rewrite T1 in B5 by auto. cbn [port_eqb] in B5.
    destruct (D (io h) PB b).
    + destruct B4 as [_ B4]; auto. rewrite B4. destruct (T (io h) PB b); reflexivity.
    + rewrite B5 by auto. destruct (T (io h) PB b); reflexivity.
  - destruct (B3 NE) as [_ B6]. rewrite B6, T1 by auto.
    replace (port_eqb PH p) with false by (symmetry; apply not_true_is_false; rewrite port_eqb_eq; congruence).
    destruct p; auto; congruence.
Qed.
Print Assumptions C55_what_sending_does_2560_partial.

Example C55_case_2560 :
  let h := Arch2560.steps (PropArch2560.mk true (fun _ => 0)) [Arch2560.OCall EvArchInit; Arch2560.OCall (EvOut 1 1); Arch2560.OCall EvStrobeNeg] PropArch2560.hw0 in
  let h' := Arch2560.send_code (PropArch2560.mk true (fun _ => 0) (fun _ => 0)) 65 h in
  (drive (io h) PB 5, drive (io h) PB 4) = (High, High) /\ (drive (io h') PB 5, drive (io h') PB 4) = (Low, High).
Proof. vm_compute. auto. Qed.
