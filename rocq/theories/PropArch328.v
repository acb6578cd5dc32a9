(** The ATmega328p architecture layer: C42, C44, C45, C46, C48, C54, C55. *)
From Coq Require Import List NArith Arith Bool Lia.
From Coq Require Import ZifyBool ZifyNat ZifyN.
From Verif Require Import Devices Avr ArchLib Arch328p.
Import ListNotations.
Local Open Scope N_scope.

(** ** Specification: which pin belongs to which device, and what the comments
    of the handlers promise about it (asdf_arch_atmega328p.h 208-236;
    asdf_arch_atmega328p.c 225-536). *)
Definition own (d : nat) (p : port) (b : N) : bool :=
  match d with
  | 1%nat | 2%nat | 3%nat => pin PC 5 p b
  | 4%nat => pin PB 3 p b
  | 7%nat | 8%nat | 9%nat => pin PB 7 p b
  | 10%nat => pin PC 4 p b
  | 11%nat => pin PB 5 p b
  | 12%nat => pin PB 4 p b
  | _ => false
  end.
Definition shows (d : nat) (on : bool) : drv :=
  match d with
  | 1%nat | 7%nat | 11%nat | 12%nat => if on then High else Low
  | 4%nat | 10%nat => if on then Low else High
  | 2%nat | 8%nat => if on then Pullup else Low
  | 3%nat | 9%nat => if on then High else Float
  | _ => Float
  end.

(** Pins of the LEDs, outputs, strobe and data: all that the outside sees apart
    from the key matrix. *)
Definition outside (p : port) (b : N) : bool :=
  match p with
  | PD => true
  | PB => (b =? 3) || (b =? 4) || (b =? 5) || (b =? 6) || (b =? 7)
  | PC => (b =? 4) || (b =? 5)
  | _ => false
  end.

(** Idle level of the strobe after a history of calls. *)
Fixpoint idle (l : list op) (s : drv) : drv :=
  match l with
  | [] => s
  | OCall EvArchInit :: l | OCall EvStrobePos :: l => idle l Low
  | OCall EvStrobeNeg :: l => idle l High
  | _ :: l => idle l s
  end.

(** ** What initialisation establishes and every operation keeps *)
Record Cfg (g : regs) : Prop := mkCfg {
  cf_c0 : D g PC 0 = true; cf_c1 : D g PC 1 = true; cf_c2 : D g PC 2 = true; cf_c3 : D g PC 3 = true;
  cf_led1 : D g PC 4 = true; cf_led2 : D g PB 5 = true; cf_led3 : D g PB 4 = true;
  cf_mode : D g PB 1 = true; cf_clk : D g PB 2 = true; cf_low : T g PB 2 = false; cf_col : D g PB 0 = false;
  cf_str : D g PB 6 = true; cf_data : forall b, b < 8 -> D g PD b = true
}.

Ltac opens := unfold handler, led1_set, led2_set, led3_set, out1_set, out1_open_hi_set, out1_open_lo_set, out2_set,
  out2_open_hi_set, out2_open_lo_set, out3_set, out3_open_hi_set, out3_open_lo_set, set_pos_strobe, set_neg_strobe in *; cbv zeta in *.

Ltac bits := cbn [pin port_eqb N.eqb Pos.eqb andb orb negb xorb].

Lemma thirteen : forall (P : nat -> Prop), P 0%nat -> P 1%nat -> P 2%nat -> P 3%nat -> P 4%nat -> P 5%nat -> P 6%nat -> P 7%nat ->
  P 8%nat -> P 9%nat -> P 10%nat -> P 11%nat -> P 12%nat -> forall d, (d < 13)%nat -> P d.
Proof. intros. do 13 (destruct d as [|d]; [assumption|]). exfalso; lia. Qed.
Lemma handler_none : forall B d v h, (13 <= d)%nat -> handler B d v h = h.
Proof. intros. do 13 (destruct d as [|d]; [lia|]). reflexivity. Qed.

Lemma cfg_handler : forall B d v h, Cfg (io h) -> Cfg (io (handler B d v h)).
Proof.
  intros B d v h C. destruct (le_lt_dec 13 d) as [H|H]; [rewrite handler_none; auto|].
  destruct C. revert d H. apply thirteen; opens; destruct (v =? 0); constructor; intros; autorewrite with avr; cbn; auto.
Qed.
Lemma cfg_pos : forall B h, Cfg (io h) -> Cfg (io (set_pos_strobe B h)).
Proof. intros B h C. destruct C. opens. constructor; intros; autorewrite with avr; cbn; auto. Qed.
Lemma cfg_neg : forall B h, Cfg (io h) -> Cfg (io (set_neg_strobe B h)).
Proof. intros B h C. destruct C. opens. constructor; intros; autorewrite with avr; cbn; auto. Qed.
Lemma cfg_send : forall B c h, Cfg (io h) -> Cfg (io (send_code B c h)).
Proof.
  intros B c h C. destruct C. unfold send_code. cbv zeta. constructor; intros; autorewrite with avr; auto.
  rewrite !ld_pin. autorewrite with avr. rewrite !ld_pin. autorewrite with avr. bits.
  rewrite cf_clk0, cf_low0, !andb_false_r. reflexivity.
Qed.

Lemma io_inten : forall x h, io (wr_inten x h) = io h.
Proof. reflexivity. Qed.
Lemma hist_inten : forall x h, hist (wr_inten x h) = hist h.
Proof. reflexivity. Qed.
Lemma io_arch_init : forall B h, exists h0, io h0 = io h /\ hist h0 = hist h /\ sr h0 = sr h /\
  io (arch_init B h) = io (init_column_control B (init_row_outputs B (init_leds B (init_leds B (set_pos_strobe B (wr_dpol 0 (init_ascii_output B h0)))))))
  /\ hist (arch_init B h) = hist (init_column_control B (init_row_outputs B (init_leds B (init_leds B (set_pos_strobe B (wr_dpol 0 (init_ascii_output B h0))))))).
Proof.
  intros. exists (tick_timer_init (init_clock (wr_flag 0 (wr_inten false h)))).
  assert (X : forall h, io (init_clock h) = io h /\ hist (init_clock h) = hist h /\ sr (init_clock h) = sr h).
  { intros. unfold init_clock, wr_clkpr. destruct (_ =? _); auto. destruct (clken h0); auto. }
  destruct (X (wr_flag 0 (wr_inten false h))) as [X1 [X2 X3]].
  split; [exact X1|]. split; [exact X2|]. split; [exact X3|].
  unfold arch_init. cbv zeta. rewrite io_inten, hist_inten. split; reflexivity.
Qed.

Lemma ff_bit : forall b, b < 8 -> N.testbit 255 b = true.
Proof. intros b H. change 255 with (N.ones 8). apply N.ones_spec_low. auto. Qed.

Lemma io_dpol : forall v h, io (wr_dpol v h) = io h.
Proof. reflexivity. Qed.

Lemma cfg_init : forall B h, Cfg (io (arch_init B h)).
Proof.
  intros. destruct (io_arch_init B h) as (h0 & _ & _ & _ & E & _). rewrite E.
  unfold init_column_control, init_row_outputs, init_leds, set_pos_strobe, init_ascii_output. cbv zeta.
  constructor; intros; autorewrite with avr; rewrite ?N.lor_spec, ?ld_ddr; autorewrite with avr; rewrite ?io_dpol; autorewrite with avr;
    bits; rewrite ?orb_true_r; try reflexivity.
  apply ff_bit; auto.
Qed.

(** ** Reading a row *)
Definition matrix_pin (p : port) (b : N) : bool := negb (outside p b).
Definition pulse (B : board) (h : hw) : hw := clear_bit B (PORT PB) 2 (set_bit B (PORT PB) 2 h).

Lemma sr_wr : forall B r v h, sr (wr B r v h) = b_next B (io h) (io (wr B r v h)) (sr h).
Proof. reflexivity. Qed.
Lemma sr_set : forall B p b h, sr (set_bit B (PORT p) b h) = b_next B (io h) (io (set_bit B (PORT p) b h)) (sr h).
Proof. reflexivity. Qed.
Lemma sr_clr : forall B p b h, sr (clear_bit B (PORT p) b h) = b_next B (io h) (io (clear_bit B (PORT p) b h)) (sr h).
Proof. reflexivity. Qed.

Lemma shift_stay : forall m ser x g g' q, D g' PB 2 = true -> T g' PB 2 = false -> shift166 m ser x g g' q = q.
Proof. intros. unfold shift166. rewrite (level_driven g') by auto. rewrite H0, andb_false_r. auto. Qed.
Lemma shift_load : forall m ser x g g' q, D g PB 2 = true -> T g PB 2 = false -> D g' PB 2 = true -> T g' PB 2 = true ->
  D g' PB 1 = true -> T g' PB 1 = false -> shift166 m ser x g g' q = N.lxor (m (row_of g' x) mod 256) 255.
Proof. intros. unfold shift166. rewrite !level_driven by auto. rewrite H0, H2, H4. auto. Qed.
Lemma shift_move : forall m ser x g g' q, D g PB 2 = true -> T g PB 2 = false -> D g' PB 2 = true -> T g' PB 2 = true ->
  D g' PB 1 = true -> T g' PB 1 = true -> shift166 m ser x g g' q = N.lor (N.shiftr q 1) (if ser then 128 else 0).
Proof. intros. unfold shift166. rewrite !level_driven by auto. rewrite H0, H2, H4. auto. Qed.

Lemma same_cfg : forall g g', Cfg g -> (forall p b, D g' p b = D g p b) -> T g' PB 2 = false -> Cfg g'.
Proof. intros g g' C H1 H2. destruct C. constructor; intros; rewrite ?H1; auto. Qed.

Lemma pulse_cfg : forall B h, Cfg (io h) -> Cfg (io (pulse B h)).
Proof.
  intros B h C. apply (same_cfg (io h)); auto. unfold pulse. autorewrite with avr. reflexivity.
Qed.
Lemma pulse_T : forall B h p b, b < 8 -> T (io h) PB 2 = false -> T (io (pulse B h)) p b = T (io h) p b.
Proof.
  intros. unfold pulse. autorewrite with avr. destruct (pin PB 2 p b) eqn:E; auto. apply pin_eq in E. destruct E. subst p b. auto.
Qed.
Lemma pulse_only : forall B h, only matrix_pin h (pulse B h).
Proof. intros. unfold pulse. each. Qed.
Lemma pulse_shift : forall rmw m ser x h, Cfg (io h) -> T (io h) PB 1 = true ->
  sr (pulse (board328 rmw m ser x) h) = N.lor (N.shiftr (sr h) 1) (if ser then 128 else 0).
Proof.
  intros. destruct H. unfold pulse. rewrite sr_clr. cbn [b_next board328]. rewrite shift_stay.
  - rewrite sr_set. cbn [b_next board328]. apply shift_move; autorewrite with avr; bits; auto.
  - autorewrite with avr. auto.
  - autorewrite with avr. reflexivity.
Qed.

Lemma moved_bit : forall q (ser : bool) k, k < 7 -> N.testbit (N.lor (N.shiftr q 1) (if ser then 128 else 0)) k = N.testbit q (k + 1).
Proof.
  intros. rewrite N.lor_spec, N.shiftr_spec'. replace (N.testbit (if ser then 128 else 0) k) with false; [apply orb_false_r|].
  destruct ser; [|rewrite N.bits_0; auto]. change 128 with (2 ^ 7). rewrite N.pow2_bits_eqb. symmetry. apply N.eqb_neq. lia.
Qed.

(** The column pin shows bit 0 of the shift register. *)
Lemma col_pin : forall rmw m ser x h, Cfg (io h) -> N.testbit (ld (board328 rmw m ser x) (PIN PB) h) 0 = N.testbit (sr h) 0.
Proof.
  intros rmw m ser x h C. rewrite ld_pin, (cf_col _ C). cbn [b_ext board328 ext328].
  rewrite N.lor_spec, N.ldiff_spec, N.land_spec. change (N.testbit 1 0) with true. rewrite andb_false_r, andb_true_r. auto.
Qed.

Lemma col_bit : forall w i c, c < 8 -> N.testbit (N.shiftl (N.land (N.shiftr (N.lnot w 16) 0) 1) i) c = (i =? c) && negb (N.testbit w 0).
Proof.
  intros. destruct (N.lt_ge_cases c i).
  - rewrite N.shiftl_spec_low by auto. replace (i =? c) with false by lia. auto.
  - rewrite N.shiftl_spec_high' by auto. rewrite N.land_spec, N.shiftr_spec'. change 1 with (2 ^ 0). rewrite N.pow2_bits_eqb.
    destruct (i =? c) eqn:E.
    + apply N.eqb_eq in E. subst i. rewrite N.sub_diag, N.add_0_r, N.lnot_spec_low by lia. rewrite andb_true_r. auto.
    + apply N.eqb_neq in E. replace (0 =? c - i) with false by lia. rewrite andb_false_r. auto.
Qed.

Lemma read_cols_ok : forall rmw m ser x n i cols h, Cfg (io h) -> T (io h) PB 1 = true -> i + N.of_nat n <= 8 -> cols < 256 ->
  forall r, r = read_cols (board328 rmw m ser x) n i cols h ->
  (forall c, c < 8 -> N.testbit (fst r) c =
     N.testbit cols c || ((i <=? c) && (c <? i + N.of_nat n) && negb (N.testbit (sr h) (c - i)))) /\
  fst r < 256 /\ Cfg (io (snd r)) /\ T (io (snd r)) PB 1 = true /\ only matrix_pin h (snd r).
Proof.
  intros rmw m ser x. induction n as [|n IH]; intros i cols h C M Hn Hc r ->.
  - cbn [read_cols fst snd]. split; [|split; [auto|split; [auto|split; [auto|apply only_refl; auto]]]].
    intros c H. replace ((i <=? c) && (c <? i + N.of_nat 0)) with false by lia. rewrite orb_false_r. auto.
  - cbn [read_cols]. fold (pulse (board328 rmw m ser x) h). set (B := board328 rmw m ser x) in *.
    set (k := N.lor cols _).
    assert (K : forall c, c < 8 -> N.testbit (k mod 256) c = N.testbit cols c || ((i =? c) && negb (N.testbit (sr h) 0))).
    { intros c H. rewrite mod256_bit by auto. unfold k. rewrite N.lor_spec, col_bit by auto. unfold B. rewrite col_pin by auto. auto. }
    assert (CL := cf_low _ C).
    specialize (IH (i + 1) (k mod 256) (pulse B h) (pulse_cfg B h C)
      ltac:(rewrite pulse_T by (auto; reflexivity); auto) ltac:(lia) ltac:(apply N.mod_lt; lia) _ eq_refl).
    destruct IH as (I1 & I2 & I3 & I4 & I5). split; [|split; [auto|split; [auto|split; [auto|]]]].
    + intros c H. rewrite I1, K by auto. unfold B. rewrite pulse_shift by auto.
      destruct (N.eq_dec c i) as [->|NE].
      * rewrite N.eqb_refl, N.sub_diag. replace (i + 1 <=? i) with false by lia. replace (i <=? i) with true by lia.
        replace (i <? i + N.of_nat (S n)) with true by lia. cbn [andb]. rewrite orb_false_r. auto.
      * replace (i =? c) with false by lia. cbn [andb]. rewrite orb_false_r.
        replace (i + 1 <=? c) with (i <=? c) by lia. replace (c <? i + 1 + N.of_nat n) with (c <? i + N.of_nat (S n)) by lia.
        destruct (i <=? c) eqn:E; auto. rewrite moved_bit by lia. replace (c - (i + 1) + 1) with (c - i) by lia. auto.
    + eapply only_trans; [apply pulse_only|exact I5].
Qed.

Lemma fifteen : forall b, N.testbit 15 b = (b <? 4).
Proof. intros. change 15 with (N.ones 4). destruct (b <? 4) eqn:E; [apply N.ones_spec_low | apply N.ones_spec_high]; lia. Qed.

Lemma under4 : forall (P : N -> Prop), P 0 -> P 1 -> P 2 -> P 3 -> forall b, b < 4 -> P b.
Proof.
  intros P H0 H1 H2 H3 b Hb. destruct (N.eq_dec b 0) as [->|]; auto. destruct (N.eq_dec b 1) as [->|]; auto.
  destruct (N.eq_dec b 2) as [->|]; auto. destruct (N.eq_dec b 3) as [->|]; auto. exfalso. lia.
Qed.
Lemma cfg_rows : forall g, Cfg g -> forall b, b < 4 -> D g PC b = true.
Proof. intros g C. destruct C. apply under4; auto. Qed.

Lemma row_of_ok : forall g x row, (forall b, b < 4 -> D g PC b = true) -> (forall b, b < 4 -> T g PC b = N.testbit row b) ->
  row_of g x = N.to_nat (N.land row 15).
Proof.
  intros g x row C H. unfold row_of. f_equal. apply N.bits_inj. intros b. rewrite !N.land_spec, fifteen.
  destruct (b <? 4) eqn:E; [|rewrite !andb_false_r; auto]. apply N.ltb_lt in E. rewrite !andb_true_r. fold (level g x PC b).
  rewrite level_driven; auto.
Qed.

Lemma read_row_ok : forall rmw m ser x row h, Cfg (io h) ->
  forall r, r = read_row (board328 rmw m ser x) row h ->
  (forall c, c < 8 -> N.testbit (fst r) c = N.testbit (m (N.to_nat (N.land row 15))) c) /\ fst r < 256 /\
  Cfg (io (snd r)) /\ T (io (snd r)) PB 1 = true /\ only matrix_pin h (snd r).
Proof.
  intros rmw m ser x row h C r ->. unfold read_row. cbv zeta. set (B := board328 rmw m ser x).
  set (h1 := wr B (PORT PC) _ h).
  assert (R : forall b, b < 8 -> T (io h1) PC b = if b <? 4 then N.testbit row b else T (io h) PC b).
  { intros b Hb. unfold h1. autorewrite with avr. bits. rewrite N.lor_spec, N.ldiff_spec, N.shiftl_0_r, N.land_spec, fifteen, ld_prt.
    destruct (b <? 4); [rewrite andb_false_r, andb_true_r; auto|]. rewrite andb_true_r, andb_false_r, orb_false_r. auto. }
  assert (O1 : only matrix_pin h h1).
  { apply only_wr_prt. intros c Hc HS. rewrite <- (ld_prt B). rewrite N.lor_spec, N.ldiff_spec, N.shiftl_0_r, N.land_spec, fifteen.
    replace (c <? 4) with false; [rewrite andb_true_r, andb_false_r, orb_false_r; auto|].
    unfold matrix_pin, outside in HS. lia. }
  assert (T1 : forall b, b < 8 -> T (io h1) PB b = T (io h) PB b) by (intros; unfold h1; autorewrite with avr; reflexivity).
  assert (C1 : Cfg (io h1)).
  { apply (same_cfg (io h)); auto. rewrite T1 by reflexivity. apply C. }
  clearbody h1.
  set (h2 := clear_bit B (PORT PB) 1 h1). set (h3 := set_bit B (PORT PB) 2 h2). set (h4 := clear_bit B (PORT PB) 2 h3).
  set (h5 := set_bit B (PORT PB) 1 h4).
  assert (C2 : Cfg (io h2)) by (apply (same_cfg (io h1)); auto; unfold h2; autorewrite with avr; rewrite (cf_low _ C1); reflexivity).
  assert (C5 : Cfg (io h5)) by (apply (same_cfg (io h2)); auto; unfold h5, h4, h3; autorewrite with avr; reflexivity).
  assert (M5 : T (io h5) PB 1 = true) by (unfold h5; autorewrite with avr; reflexivity).
  assert (O5 : only matrix_pin h1 h5) by (unfold h5, h4, h3, h2; each).
  assert (S5 : sr h5 = N.lxor (m (N.to_nat (N.land row 15)) mod 256) 255).
  { destruct C2. unfold h5. rewrite sr_set. cbn [b_next B board328]. rewrite shift_stay;
      [|autorewrite with avr; auto | unfold h4; autorewrite with avr; reflexivity].
    unfold h4. rewrite sr_clr. cbn [b_next B board328]. rewrite shift_stay;
      [|autorewrite with avr; unfold h3; autorewrite with avr; auto | autorewrite with avr; reflexivity].
    unfold h3. rewrite sr_set. cbn [b_next B board328]. rewrite shift_load; autorewrite with avr; auto.
    2: { unfold h2. autorewrite with avr. reflexivity. }
    rewrite (row_of_ok _ x row); auto.
    - intros b Hb. autorewrite with avr. apply (cfg_rows _ C1). auto.
    - intros b Hb. assert (H8 : b < 8) by (apply (N.lt_trans _ 4); [exact Hb|reflexivity]).
      rewrite T_set_prt by exact H8. unfold h2. rewrite T_clr_prt by exact H8. bits. rewrite R by exact H8.
      apply N.ltb_lt in Hb. rewrite Hb. auto. }
  destruct (read_cols_ok rmw m ser x 8 0 0 h5 C5 M5 ltac:(lia) ltac:(lia) _ eq_refl) as (I1 & I2 & I3 & I4 & I5).
  split; [|split; [auto|split; [auto|split; [auto|]]]].
  - intros c Hc. rewrite I1, S5 by auto. rewrite N.bits_0, N.sub_0_r. replace ((0 <=? c) && (c <? 0 + N.of_nat 8)) with true by lia.
    cbn [andb orb]. rewrite N.lxor_spec, mod256_bit, ff_bit by auto. rewrite xorb_true_r, negb_involutive. auto.
  - eapply only_trans; [exact O1|]. eapply only_trans; [exact O5|exact I5].
Qed.

(** ** Histories *)
(** A board of which only the pressed keys vary. *)
Definition mk (rmw ser : bool) (x : port -> N) (m : nat -> N) : board := board328 rmw m ser x.

Lemma cfg_call : forall B e h, Cfg (io h) -> Cfg (io (call B e h)).
Proof. intros B [] h C; cbn [call]; auto using cfg_init, cfg_handler, cfg_pos, cfg_neg, cfg_send. Qed.
Lemma cfg_steps : forall rmw ser x l h, Cfg (io h) -> Cfg (io (steps (mk rmw ser x) l h)).
Proof.
  intros rmw ser x. induction l as [|o l IH]; intros h C; auto. cbn [steps]. apply IH. destruct o; cbn [step]; auto using cfg_call.
  apply (read_row_ok rmw m ser x row h C _ eq_refl).
Qed.
Lemma cfg_running : forall rmw ser x l h, Cfg (io (steps (mk rmw ser x) (OCall EvArchInit :: l) h)).
Proof. intros. cbn [steps step]. apply cfg_steps. apply cfg_init. Qed.

Lemma along_pins : forall S P h h', only S h h' -> (forall p b, b < 8 -> P p b = true -> S p b = false) ->
  along (fun g => forall p b, b < 8 -> P p b = true -> drive g p b = drive (io h) p b) h h'.
Proof.
  intros S P h h' [_ A] H. eapply along_weaken; [|exact A]. intros g G p b Hb HP. apply (same_but_drive S); auto.
Qed.

(** ** C42 *)
Theorem C42_read_row_328p : forall rmw ser x h0 l m row, row < 16 ->
  let h := steps (mk rmw ser x) (OCall EvArchInit :: l) h0 in
  let r := read_row (mk rmw ser x m) row h in
  fst r < 256 /\ (forall c, c < 8 -> N.testbit (fst r) c = N.testbit (m (N.to_nat row)) c) /\
  along (fun g => forall p b, b < 8 -> outside p b = true -> drive g p b = drive (io h) p b) h (snd r).
Proof.
  intros rmw ser x h0 l m row HR h r. destruct (read_row_ok rmw m ser x row h (cfg_running _ _ _ _ _) r eq_refl) as (R1 & R2 & _ & _ & R3).
  split; auto. split.
  - intros c Hc. rewrite R1 by auto. do 3 f_equal. change 15 with (N.ones 4). rewrite N.land_ones. apply N.mod_small. auto.
  - apply (along_pins matrix_pin); auto. intros p b _ H. unfold matrix_pin. rewrite H. auto.
Qed.
Print Assumptions C42_read_row_328p.

(** A case: keys 1 and 6 of row 5 closed, read after some calls. *)
Definition hw0 : hw := mkHw (mkRegs (fun _ => 0) (fun _ => 0)) 0xa5 3 false 0 0 0 0 false 0 0 [].
Example C42_case :
  fst (read_row (mk false true (fun _ => 0xff) (fun r => if Nat.eqb r 5 then 0x42 else 0x99)) 5
        (steps (mk false true (fun _ => 0xff)) [OCall EvArchInit; OCall (EvOut 11 1); OCall (EvSend 65)] hw0)) = 0x42.
Proof. vm_compute. reflexivity. Qed.

(** ** C44 *)
Lemma handler_only : forall B d v h, only (own d) h (handler B d v h).
Proof.
  intros B d v h. destruct (le_lt_dec 13 d) as [H|H]; [rewrite handler_none by auto; apply only_refl; auto|].
  revert d H. apply thirteen; opens; try (apply only_refl; reflexivity); destruct (v =? 0); each.
Qed.

Theorem C44_handlers_328p : forall rmw ser x m h0 l d v,
  let h := steps (mk rmw ser x) (OCall EvArchInit :: l) h0 in
  let h' := handler (mk rmw ser x m) d v h in
  along (fun g => forall p b, b < 8 -> own d p b = false -> drive g p b = drive (io h) p b) h h' /\
  (forall p b, b < 8 -> own d p b = false -> drive (io h') p b = drive (io h) p b) /\
  (forall p b, b < 8 -> own d p b = true -> drive (io h') p b = shows d (negb (v =? 0))).
Proof.
  intros rmw ser x m h0 l d v h h'. assert (C : Cfg (io h)) by apply cfg_running. clearbody h.
  assert (O := handler_only (mk rmw ser x m) d v h). fold h' in O. split; [|split].
  - destruct O as [_ A]. eapply along_weaken; [|exact A]. intros g G p b Hb HP. apply (same_but_drive (own d)); auto.
  - destruct O as [A _]. intros. apply (same_but_drive (own d)); auto.
  - intros p b Hb HP. destruct (le_lt_dec 13 d) as [H|H].
    + do 13 (destruct d as [|d]; [lia|]). discriminate.
    + unfold h'. clear h' O. destruct C. generalize (mk rmw ser x m) as B. intros B. rewrite drive_DT. revert HP. pattern d. revert d H.
      apply thirteen; opens; cbn [own shows]; try discriminate; intros HP; apply pin_eq in HP; destruct HP as [<- <-];
        destruct (v =? 0); autorewrite with avr; bits; rewrite ?cf_led4, ?cf_led5, ?cf_led6; reflexivity.
Qed.
Print Assumptions C44_handlers_328p.

Example C44_case :
  let h := steps (mk true false (fun _ => 0)) [OCall EvArchInit; OCall (EvOut 1 1)] hw0 in
  drive (io h) PC 5 = High /\ drive (io (handler (mk true false (fun _ => 0) (fun _ => 0)) 2 1 h)) PC 5 = Pullup /\
  drive (io (handler (mk true false (fun _ => 0) (fun _ => 0)) 10 1 h)) PC 4 = Low.
Proof. vm_compute. auto. Qed.

(** ** C45 *)
(** Pins of the outputs that can be open. *)
Definition out_pin (p : port) (b : N) : bool := pin PC 5 p b || pin PB 7 p b.
Definition not_out (p : port) (b : N) : bool := negb (out_pin p b).

Lemma only_dpol : forall S h v h1, only S h h1 -> only S h (wr_dpol v h1).
Proof. intros S h v h1 [A B]. split; auto. Qed.
Lemma only_io : forall S h0 h h1 h2, io h0 = io h -> hist h0 = hist h -> io h2 = io h1 -> hist h2 = hist h1 -> only S h0 h1 -> only S h h2.
Proof.
  intros S h0 h h1 h2 E1 E2 E3 E4 [A B]. rewrite E1 in A, B. split; [rewrite E3; auto|].
  destruct B as [l [L F]]. exists l. split; auto. congruence.
Qed.

Lemma init_only : forall B h, only not_out h (arch_init B h).
Proof.
  intros. destruct (io_arch_init B h) as (h0 & E1 & E2 & _ & E3 & E4). eapply (only_io _ h0); eauto.
  assert (X : only not_out h0 (set_pos_strobe B (wr_dpol 0 (init_ascii_output B h0)))).
  { unfold set_pos_strobe, init_ascii_output. cbv zeta. each. apply only_dpol. each; intros; cbn in *; discriminate. }
  apply (only_trans _ h0 _ _ X). generalize (set_pos_strobe B (wr_dpol 0 (init_ascii_output B h0))). intros h1.
  unfold init_column_control, init_row_outputs, init_leds. cbv zeta. each.
  - intros c Hc HS. rewrite N.ldiff_spec, ld_prt, fifteen. unfold not_out, out_pin, pin in HS. cbn [port_eqb] in HS.
    replace (c <? 4) with false by lia. apply andb_true_r.
  - intros c Hc HS. rewrite N.lor_spec, ld_ddr, fifteen. unfold not_out, out_pin, pin in HS. cbn [port_eqb] in HS.
    replace (c <? 4) with false by lia. apply orb_false_r.
Qed.
Lemma pos_only : forall B h, only (pin PB 6) h (set_pos_strobe B h).
Proof. intros. unfold set_pos_strobe. each. Qed.
Lemma neg_only : forall B h, only (pin PB 6) h (set_neg_strobe B h).
Proof. intros. unfold set_neg_strobe. each. Qed.
Lemma send_only : forall B c h, b_rmw B = false -> only (fun p b => port_eqb p PD || pin PB 6 p b) h (send_code B c h).
Proof. intros. unfold send_code. cbv zeta. each; auto; cbn; intros; discriminate. Qed.

Lemma not_out_more : forall (S : port -> N -> bool), S PC 5 = false -> S PB 7 = false -> forall p b, S p b = true -> not_out p b = true.
Proof.
  intros S H1 H2 p b H. unfold not_out, out_pin. destruct (pin PC 5 p b) eqn:E1; [apply pin_eq in E1; destruct E1; congruence|].
  destruct (pin PB 7 p b) eqn:E2; [apply pin_eq in E2; destruct E2; congruence|]. auto.
Qed.

(** Everything except the handlers of OUT1 and OUT3 leaves their pins alone. *)
Lemma step_only : forall ser x o h, Cfg (io h) \/ (forall row m, o <> ORead row m) ->
  (forall d v, o = OCall (EvOut d v) -> own d PC 5 = false /\ own d PB 7 = false) -> only not_out h (step (mk false ser x) o h).
Proof.
  intros ser x o h HC HO. destruct o as [e|row m].
  - cbn [step]. destruct e; cbn [call]; try (apply only_refl; reflexivity).
    + apply init_only.
    + destruct (HO d v eq_refl) as [A B]. eapply only_more; [|apply handler_only]. apply not_out_more; auto.
    + eapply only_more; [|apply pos_only]. apply not_out_more; auto.
    + eapply only_more; [|apply neg_only]. apply not_out_more; auto.
    + eapply only_more; [|apply send_only; reflexivity]. apply not_out_more; auto.
  - destruct HC as [HC|HC]; [|exfalso; eapply HC; eauto]. cbn [step].
    eapply only_more; [|apply (read_row_ok false m ser x row h HC _ eq_refl)]. apply not_out_more; reflexivity.
Qed.

(** [d] is the open-high ([hi]) or open-low device of the pin; [l] uses the pin
    in no other mode. *)
Definition only_mode (d : nat) (p : port) (b : N) (l : list op) : Prop :=
  forall d' v, In (OCall (EvOut d' v)) l -> own d' p b = true -> d' = d.

Ltac along1 := first [apply along_set | apply along_clr].
Lemma hi_handler : forall B d v h p b, (d = 2%nat /\ p = PC /\ b = 5) \/ (d = 8%nat /\ p = PB /\ b = 7) ->
  drive (io h) p b <> High -> along (fun g => drive g p b <> High) h (handler B d v h) /\ drive (io (handler B d v h)) p b <> High.
Proof.
  intros B d v h p b H HN. rewrite drive_DT in HN.
  destruct H as [(-> & -> & ->)|(-> & -> & ->)]; opens; destruct (v =? 0);
   (split; [eapply along_trans; [|along1]; [along1|]|]); rewrite drive_DT; autorewrite with avr; bits;
   repeat match goal with |- context [if ?x then _ else _] => destruct x end; try discriminate; try assumption.
Qed.
Lemma lo_handler : forall B d v h p b, (d = 3%nat /\ p = PC /\ b = 5) \/ (d = 9%nat /\ p = PB /\ b = 7) ->
  drive (io h) p b <> Low -> along (fun g => drive g p b <> Low) h (handler B d v h) /\ drive (io (handler B d v h)) p b <> Low.
Proof.
  intros B d v h p b H HN. rewrite drive_DT in HN.
  destruct H as [(-> & -> & ->)|(-> & -> & ->)]; opens; destruct (v =? 0);
   (split; [eapply along_trans; [|along1]; [along1|]|]); rewrite drive_DT; autorewrite with avr; bits;
   repeat match goal with |- context [if ?x then _ else _] => destruct x end; try discriminate; try assumption.
Qed.

Lemma mode_steps : forall ser x d p b bad,
  (forall B v h, drive (io h) p b <> bad ->
     along (fun g => drive g p b <> bad) h (handler B d v h) /\ drive (io (handler B d v h)) p b <> bad) ->
  out_pin p b = true -> b < 8 ->
  forall l h, only_mode d p b l -> Cfg (io h) -> drive (io h) p b <> bad ->
  along (fun g => drive g p b <> bad) h (steps (mk false ser x) l h).
Proof.
  intros ser x d p b bad HH HP Hb. induction l as [|o l IH]; intros h HM C HD; [apply along_refl; auto|].
  cbn [steps]. assert (C' : Cfg (io (step (mk false ser x) o h))) by (apply (cfg_steps false ser x [o]); auto).
  assert (X : along (fun g => drive g p b <> bad) h (step (mk false ser x) o h) /\ drive (io (step (mk false ser x) o h)) p b <> bad).
  { assert (G : only not_out h (step (mk false ser x) o h) ->
      along (fun g => drive g p b <> bad) h (step (mk false ser x) o h) /\ drive (io (step (mk false ser x) o h)) p b <> bad).
    { intros [A A']. assert (N0 : not_out p b = false) by (unfold not_out; rewrite HP; auto). split.
      - eapply along_weaken; [|exact A']. intros g Gg. cbn beta. rewrite (same_but_drive not_out (io h) g); auto.
      - rewrite (same_but_drive not_out (io h)); auto. }
    destruct o as [e|row m]; [|apply G, step_only; auto; discriminate].
    destruct e as [|d' v| | | | | |]; try (apply G, step_only; auto; discriminate).
    destruct (own d' p b) eqn:E.
    - assert (d' = d) by (eapply HM; [left; eauto|auto]). subst d'. cbn [step call]. apply HH. auto.
    - clear G. cbn [step call]. set (B := mk false ser x (fun _ => 0)).
      destruct (handler_only B d' v h) as [A A']. split.
      + eapply along_weaken; [|exact A']. intros g Gg. cbn beta. rewrite (same_but_drive (own d') (io h) g); auto.
      + rewrite (same_but_drive (own d') (io h)); auto. }
  destruct X as [X1 X2]. eapply along_trans; [exact X1|]. apply IH; auto.
  intros d' v HI. apply (HM d' v). right. auto.
Qed.

(** From reset on, whatever else is done, an output used only as open-high
    ([d] = 2, 8) is never driven high and one used only as open-low ([d] = 3,
    9) never driven low, in any state between two register writes. *)
Theorem C45_open_328p : forall ser x h0 l d p b (bad : drv), at_reset h0 ->
  ((d = 2%nat \/ d = 8%nat) /\ bad = High) \/ ((d = 3%nat \/ d = 9%nat) /\ bad = Low) ->
  own d p b = true -> only_mode d p b l ->
  Forall (fun g => drive g p b <> bad) (hist (steps (mk false ser x) (OCall EvArchInit :: l) h0)).
Proof.
  intros ser x h0 l d p b bad (R1 & R2 & R3 & R4 & R5) HD HO HM.
  assert (A1 : along (fun g => drive g p b <> bad) h0 (arch_init (mk false ser x (fun _ => 0)) h0) /\
               drive (io (arch_init (mk false ser x (fun _ => 0)) h0)) p b <> bad).
  { destruct (init_only (mk false ser x (fun _ => 0)) h0) as [A A'].
    assert (N0 : not_out p b = false /\ b < 8).
    { destruct HD as [[[-> | ->] ->]|[[-> | ->] ->]]; cbn [own] in HO; apply pin_eq in HO; destruct HO; subst p b; auto; split; reflexivity. }
    destruct N0 as [N0 Hb].
    assert (Z : drive (io h0) p b <> bad).
    { unfold drive. rewrite R1, R2, N.bits_0. destruct HD as [[_ ->]|[_ ->]]; discriminate. }
    split.
    - eapply along_weaken; [|exact A']. intros g Gg. cbn beta. rewrite (same_but_drive not_out (io h0) g); auto.
    - rewrite (same_but_drive not_out (io h0)); auto. }
  destruct A1 as [A1 A2].
  assert (A3 : along (fun g => drive g p b <> bad) h0 (steps (mk false ser x) (OCall EvArchInit :: l) h0)).
  { cbn [steps step call]. eapply along_trans; [exact A1|]. apply (mode_steps ser x d p b bad); auto using cfg_init.
    - intros B v h HN. destruct HD as [[HD ->]|[HD ->]]; [apply hi_handler | apply lo_handler]; auto;
        destruct HD as [-> | ->]; cbn [own] in HO; apply pin_eq in HO; destruct HO; subst p b; auto.
    - destruct HD as [[[-> | ->] ->]|[[-> | ->] ->]]; cbn [own] in HO; apply pin_eq in HO; destruct HO; subst p b; reflexivity.
    - destruct HD as [[[-> | ->] ->]|[[-> | ->] ->]]; cbn [own] in HO; apply pin_eq in HO; destruct HO; subst p b; reflexivity. }
  destruct A3 as [k [E F]]. rewrite E, R4, app_nil_r. auto.
Qed.
Print Assumptions C45_open_328p.

Example C45_case : at_reset hw0 /\ own 2 PC 5 = true /\ only_mode 2 PC 5 [OCall (EvOut 2 1); OCall (EvOut 2 0); OCall (EvOut 7 1)] /\
  map (fun g => drive g PC 5) (firstn 6 (hist (steps (mk false false (fun _ => 0)) [OCall EvArchInit; OCall (EvOut 2 1); OCall (EvOut 2 0); OCall (EvOut 7 1)] hw0)))
  = [Low; Low; Low; Float; Pullup; Float].
Proof.
  split; [repeat split|]. split; [reflexivity|]. split; [|vm_compute; reflexivity].
  intros d v H O. cbn [In] in H. repeat destruct H as [H|H]; try contradiction; injection H; intros; subst; auto; discriminate.
Qed.

(** ** C46 *)
Definition other (s : drv) : drv := match s with Low => High | High => Low | _ => s end.

Lemma idle_driven : forall l s, s = Low \/ s = High -> idle l s = Low \/ idle l s = High.
Proof. induction l as [|[[]|] l IH]; cbn [idle]; intros s H; auto. Qed.
Lemma drive_strobe_init : forall B h, drive (io (arch_init B h)) PB 6 = Low.
Proof.
  intros. destruct (io_arch_init B h) as (h0 & _ & _ & _ & E & _). rewrite drive_DT, E.
  unfold init_column_control, init_row_outputs, init_leds, set_pos_strobe, init_ascii_output. cbv zeta.
  autorewrite with avr. bits. reflexivity.
Qed.
Lemma D_true_drive : forall g p b, D g p b = true -> drive g p b = Low \/ drive g p b = High.
Proof. intros. rewrite drive_DT, H. destruct (T g p b); auto. Qed.

Lemma send_shape : forall B c h, b_rmw B = false -> exists g1 g2 g3, hist (send_code B c h) = g3 :: g2 :: g1 :: hist h /\ io (send_code B c h) = g3 /\
  (forall p b, b < 8 -> D g1 p b = D (io h) p b /\ D g2 p b = D (io h) p b /\ D g3 p b = D (io h) p b) /\
  (forall b, b < 8 -> T g1 PD b = N.testbit (N.lxor c (dpol h)) b /\ T g2 PD b = N.testbit (N.lxor c (dpol h)) b /\ T g3 PD b = N.testbit (N.lxor c (dpol h)) b) /\
  T g1 PB 6 = T (io h) PB 6 /\ T g2 PB 6 = negb (T (io h) PB 6) /\ T g3 PB 6 = T (io h) PB 6 /\
  (forall p b, b < 8 -> p <> PD -> ~ (p = PB /\ b = 6) -> T g1 p b = T (io h) p b /\ T g2 p b = T (io h) p b /\ T g3 p b = T (io h) p b).
Proof.
  intros B c h HB. unfold send_code. cbv zeta. set (h1 := wr B (PORT PD) _ h). set (h2 := set_bit B (PIN PB) 6 h1).
  exists (io h1), (io h2), (io (set_bit B (PIN PB) 6 h2)). rewrite hist_set. split; [unfold h2; rewrite hist_set; reflexivity|]. split; auto.
  assert (T1 : forall p b, b < 8 -> T (io h1) p b = if port_eqb PD p then N.testbit (N.lxor c (dpol h)) b else T (io h) p b)
    by (intros; unfold h1; autorewrite with avr; auto).
  assert (T2 : forall p b, b < 8 -> T (io h2) p b = xorb (T (io h1) p b) (pin PB 6 p b)).
  { intros. unfold h2. rewrite T_set_pin, HB by auto. cbn [andb]. rewrite orb_false_r. auto. }
  assert (T3 : forall p b, b < 8 -> T (io (set_bit B (PIN PB) 6 h2)) p b = T (io h1) p b).
  { intros. rewrite T_set_pin, HB, T2 by auto. cbn [andb]. rewrite orb_false_r. destruct (T (io h1) p b), (pin PB 6 p b); auto. }
  split; [auto|]. split.
  { intros b Hb. rewrite T3, T2, T1 by auto. bits. rewrite xorb_false_r. auto. }
  rewrite T3, T2, T1 by reflexivity. bits. rewrite xorb_true_r. do 3 (split; auto).
  intros p b Hb H1 H2. rewrite T3, T2, T1 by auto.
  replace (pin PB 6 p b) with false; [rewrite xorb_false_r; destruct p; auto; congruence|].
  symmetry. apply not_true_is_false. rewrite pin_eq. intros [<- <-]. auto.
Qed.

Lemma drive_same : forall g g' p b, D g p b = D g' p b -> T g p b = T g' p b -> drive g p b = drive g' p b.
Proof. intros. rewrite !drive_DT, H, H0. auto. Qed.

Lemma strobe_steps : forall ser x l h, Cfg (io h) -> drive (io (steps (mk false ser x) l h)) PB 6 = idle l (drive (io h) PB 6).
Proof.
  intros ser x. induction l as [|o l IH]; intros h C; auto. cbn [steps].
  rewrite IH by (apply (cfg_steps false ser x [o]); auto).
  assert (ST := cf_str _ C).
  destruct o as [[]|row m]; cbn [step call idle]; auto.
  - rewrite drive_strobe_init. auto.
  - destruct (handler_only (mk false ser x (fun _ => 0)) d v h) as [A _]. f_equal.
    apply (same_but_drive (own d)); auto; [reflexivity|].
    clear. do 13 (destruct d as [|d]; [reflexivity|]). reflexivity.
  - f_equal. rewrite drive_DT. unfold set_pos_strobe. autorewrite with avr. bits. reflexivity.
  - f_equal. rewrite drive_DT. unfold set_neg_strobe. autorewrite with avr. bits. reflexivity.
  - f_equal. destruct (send_shape (mk false ser x (fun _ => 0)) c h eq_refl) as (g1 & g2 & g3 & _ & -> & X1 & _ & _ & _ & X2 & _).
    apply drive_same; auto. apply X1. reflexivity.
  - f_equal. destruct (read_row_ok false m ser x row h C _ eq_refl) as (_ & _ & _ & _ & [A _]).
    apply (same_but_drive matrix_pin); auto. reflexivity.
Qed.

Lemma dpol_set : forall B r b h, dpol (set_bit B r b h) = dpol h.
Proof. intros B [] b h; reflexivity. Qed.
Lemma dpol_clr : forall B r b h, dpol (clear_bit B r b h) = dpol h.
Proof. reflexivity. Qed.
Lemma dpol_wr : forall B r v h, dpol (wr B r v h) = dpol h.
Proof. reflexivity. Qed.
Lemma rest_handler : forall B d v h, rest (handler B d v h) = rest h.
Proof.
  intros. destruct (le_lt_dec 13 d) as [H|H]; [rewrite handler_none; auto|].
  revert d H. apply thirteen; opens; try reflexivity; destruct (v =? 0); rewrite ?rest_set, ?rest_clr, ?rest_set, ?rest_clr; reflexivity.
Qed.
Lemma rest_send : forall B c h, rest (send_code B c h) = rest h.
Proof. intros. unfold send_code. cbv zeta. rewrite !rest_set, rest_wr. auto. Qed.
Lemma rest_cols : forall B n i cols h, rest (snd (read_cols B n i cols h)) = rest h.
Proof. induction n; intros; auto. cbn [read_cols]. rewrite IHn, rest_clr, rest_set. auto. Qed.
Lemma rest_read : forall B row h, rest (snd (read_row B row h)) = rest h.
Proof. intros. unfold read_row. cbv zeta. rewrite rest_cols, rest_set, rest_clr, rest_set, rest_clr, rest_wr. auto. Qed.
Lemma dpol_rest : forall h h', rest h = rest h' -> dpol h = dpol h'.
Proof. unfold rest. congruence. Qed.

Definition rest_init (h : hw) := (clkps h, clken h, 2, 3, 124, 2, true, 0, 0).
Lemma rest_inten : forall x h, rest (wr_inten x h) = (let '(a, b, c, d, e, f, _, g, k) := rest h in (a, b, c, d, e, f, x, g, k)).
Proof. reflexivity. Qed.
Lemma rest_dpol : forall x h, rest (wr_dpol x h) = (let '(a, b, c, d, e, f, i, g, _) := rest h in (a, b, c, d, e, f, i, g, x)).
Proof. reflexivity. Qed.
Lemma rest_timer : forall h, rest (tick_timer_init h) = (let '(a, b, _, _, _, _, i, _, k) := rest h in (a, b, 2, 3, 124, 2, i, 0, k)).
Proof. reflexivity. Qed.
Lemma rest_clock : forall h, clken h = false -> init_clock h = h.
Proof. intros h H. unfold init_clock, wr_clkpr. rewrite H. reflexivity. Qed.
Lemma rest_arch_init : forall B h, clken h = false -> rest (arch_init B h) = rest_init h.
Proof.
  intros B h CE. unfold arch_init. cbv zeta. rewrite rest_inten, rest_clock by exact CE.
  set (h1 := wr_dpol 0 _).
  assert (X : rest (init_column_control B (init_row_outputs B (init_leds B (init_leds B (set_pos_strobe B h1))))) = rest h1).
  { unfold init_column_control, init_row_outputs, init_leds, set_pos_strobe. cbv zeta. repeat rewrite ?rest_set, ?rest_clr, ?rest_wr. auto. }
  rewrite X. unfold h1, init_ascii_output. cbv zeta. rewrite rest_dpol, !rest_wr, rest_timer. reflexivity.
Qed.

Lemma rest_step_call : forall B e h, e <> EvArchInit -> rest (call B e h) = rest h.
Proof.
  intros B [] h H; cbn [call]; auto using rest_handler, rest_send; try congruence.
Qed.

(** After initialisation the registers outside the ports have fixed values,
    except the prescaler, which keeps its value from reset. *)
Lemma rest_steps : forall mk l h, clken h = false -> rest h = rest_init h -> rest (steps mk l h) = rest_init h.
Proof.
  intros mk0. induction l as [|o l IH]; intros h CE R; auto. cbn [steps].
  assert (X : rest (step mk0 o h) = rest_init h).
  { destruct o as [e|row m]; cbn [step]; [|rewrite rest_read; auto].
    destruct e; try (rewrite rest_step_call by discriminate; auto). apply rest_arch_init. auto. }
  assert (Y : clken (step mk0 o h) = clken h) by (unfold rest, rest_init in X; congruence).
  assert (Z : rest_init (step mk0 o h) = rest_init h) by (unfold rest, rest_init in *; congruence).
  rewrite IH; congruence.
Qed.
Lemma rest_running : forall mk l h, clken h = false -> rest (steps mk (OCall EvArchInit :: l) h) = rest_init h.
Proof.
  intros mk0 l h CE. cbn [steps step call]. pose proof (rest_arch_init (mk0 (fun _ => 0)) h CE) as X.
  set (h1 := arch_init _ _) in *. clearbody h1.
  assert (Y : rest_init h1 = rest_init h) by (unfold rest, rest_init in *; congruence).
  rewrite rest_steps; try congruence. unfold rest, rest_init in *; congruence.
Qed.

Theorem C46_strobe_328p : forall ser x h0 l m c, clken h0 = false -> c < 256 ->
  let h := steps (mk false ser x) (OCall EvArchInit :: l) h0 in
  let s := idle (OCall EvArchInit :: l) Low in
  (s = Low \/ s = High) /\ drive (io h) PB 6 = s /\
  exists g1 g2 g3, hist (send_code (mk false ser x m) c h) = g3 :: g2 :: g1 :: hist h /\ io (send_code (mk false ser x m) c h) = g3 /\
    drive g1 PB 6 = s /\ drive g2 PB 6 = other s /\ drive g3 PB 6 = s /\
    Forall (fun g => (forall b, b < 8 -> drive g PD b = if N.testbit c b then High else Low) /\
                     (forall p b, b < 8 -> p <> PD -> ~ (p = PB /\ b = 6) -> drive g p b = drive (io h) p b)) [g1; g2; g3].
Proof.
  intros ser x h0 l m c CE Hc h s.
  assert (C : Cfg (io h)) by apply cfg_running.
  assert (S0 : drive (io h) PB 6 = s).
  { unfold h, s. cbn [steps step call idle]. rewrite strobe_steps by apply cfg_init. rewrite drive_strobe_init. auto. }
  assert (DP : dpol h = 0) by (pose proof (rest_running (mk false ser x) l h0 CE) as X; fold h in X; unfold rest, rest_init in X; congruence).
  split; [apply idle_driven; auto|]. split; auto.
  destruct (send_shape (mk false ser x m) c h eq_refl) as (g1 & g2 & g3 & E1 & E2 & X1 & X2 & Y1 & Y2 & Y3 & X3).
  exists g1, g2, g3. rewrite DP, N.lxor_0_r in X2. clearbody h. assert (ST := cf_str _ C). assert (DA := cf_data _ C).
  destruct (X1 PB 6 eq_refl) as (D1 & D2 & D3).
  split; auto. split; auto. split; [rewrite <- S0; apply drive_same; auto|].
  split. { rewrite <- S0. rewrite !drive_DT, D2, ST, Y2. destruct (T (io h) PB 6); reflexivity. }
  split; [rewrite <- S0; apply drive_same; auto|].
  assert (F : forall g, g = g1 \/ g = g2 \/ g = g3 ->
    (forall b, b < 8 -> drive g PD b = if N.testbit c b then High else Low) /\
    (forall p b, b < 8 -> p <> PD -> ~ (p = PB /\ b = 6) -> drive g p b = drive (io h) p b)).
  { intros g HG. split.
    - intros b H. destruct (X1 PD b H) as (A1 & A2 & A3), (X2 b H) as (B1 & B2 & B3). specialize (DA b H).
      rewrite drive_DT. destruct HG as [-> | [-> | ->]]; [rewrite A1, B1 | rewrite A2, B2 | rewrite A3, B3]; rewrite DA; auto.
    - intros p b H H0 H1. destruct (X1 p b H) as (A1 & A2 & A3), (X3 p b H H0 H1) as (B1 & B2 & B3).
      destruct HG as [-> | [-> | ->]]; apply drive_same; auto. }
  constructor; [apply F; auto|]. constructor; [apply F; auto|]. constructor; [apply F; auto|]. constructor.
Qed.
Print Assumptions C46_strobe_328p.

Example C46_case :
  let l := [OCall EvArchInit; OCall EvStrobeNeg; OCall (EvOut 12 1)] in
  idle l Low = High /\
  map (fun g => (drive g PB 6, drive g PB 4, prt g PD)) (firstn 4 (hist (steps (mk false false (fun _ => 0)) (l ++ [OCall (EvSend 0x41)]) hw0)))
  = [(High, High, 0x41); (Low, High, 0x41); (High, High, 0x41); (High, High, 0)].
Proof. vm_compute. auto. Qed.

(** ** C48, C54 *)
(** `CLKPR = (CLKPCE | SYSCLK_DIV1)` writes 7, not 0x80: the prescaler keeps
    its reset value. *)
Theorem C48_prescaler_328p_partial : forall mk l h0, clken h0 = false ->
  clkps (steps mk (OCall EvArchInit :: l) h0) = clkps h0.
Proof. intros. pose proof (rest_running mk0 l h0 H) as X. unfold rest, rest_init in X. congruence. Qed.
Print Assumptions C48_prescaler_328p_partial.

(** Full statement: forall reset states, the prescaler is 0 (divide by 1) after
    initialisation.  Witness: the CKDIV8 fuse (factory setting) gives 3. *)
Theorem C48_prescaler_328p_refuted : exists h0, at_reset h0 /\
  forall mk l, clkps (steps mk (OCall EvArchInit :: l) h0) = 3.
Proof. exists hw0. split; [repeat split|]. intros. rewrite C48_prescaler_328p_partial; reflexivity. Qed.
Print Assumptions C48_prescaler_328p_refuted.

(** Timer 0 in CTC mode: the flag is raised every (OCR0A + 1) * prescaler * 2^CLKPS
    clock cycles.  Data sheet: Timer/Counter 0, mode and clock select bits. *)
Definition prescale (tb : N) : option N :=
  match tb mod 8 with 1 => Some 1 | 2 => Some 8 | 3 => Some 64 | 4 => Some 256 | 5 => Some 1024 | _ => None end.
Definition tick_cycles (h : hw) : option N :=
  if (tccra h mod 4 =? 2) && negb (N.testbit (tccrb h) 3) && N.testbit (timsk h) 1 && inten h then
    match prescale (tccrb h) with Some k => Some ((ocra h + 1) * k * 2 ^ clkps h) | None => None end
  else None.

Theorem C54_tick_328p : forall mk l h0, clken h0 = false ->
  tick_cycles (steps mk (OCall EvArchInit :: l) h0) = Some (F_CPU / 1000 * 2 ^ clkps h0).
Proof.
  intros. pose proof (rest_running mk0 l h0 H) as X. set (h := steps _ _ _) in *. clearbody h. unfold rest, rest_init in X.
  assert (E1 : tccra h = 2) by congruence. assert (E2 : tccrb h = 3) by congruence. assert (E3 : ocra h = 124) by congruence.
  assert (E4 : timsk h = 2) by congruence. assert (E5 : inten h = true) by congruence. assert (E6 : clkps h = clkps h0) by congruence.
  unfold tick_cycles. rewrite E1, E2, E3, E4, E5, E6. reflexivity.
Qed.
Print Assumptions C54_tick_328p.
Example C54_case : clken hw0 = false /\ tick_cycles (steps (mk false false (fun _ => 0)) [OCall EvArchInit; OCall (EvSend 1)] hw0) = Some 64000.
Proof. vm_compute. auto. Qed.

(** ** C55: the unoptimised build *)
(** There, writing the strobe bit of PINB reads the whole port and writes it
    back, which toggles every pin that is high: a lit LED2 goes out. *)
Theorem C55_unoptimised_328p_refuted : exists ser x h0 l c, at_reset h0 /\ c < 256 /\
  drive (io (steps (mk true ser x) (OCall EvArchInit :: l) h0)) PB 5 = High /\
  drive (io (steps (mk true ser x) (OCall EvArchInit :: l ++ [OCall (EvSend c)]) h0)) PB 5 = Low.
Proof. exists false, (fun _ => 0), hw0, [OCall (EvOut 11 1)], 65. repeat split. Qed.
Print Assumptions C55_unoptimised_328p_refuted.
