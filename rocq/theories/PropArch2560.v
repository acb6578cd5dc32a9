(** The ATmega2560 architecture layer: C43, C44, C45, C46, C48, C54, C55. *)
From Coq Require Import List NArith Arith Bool Lia.
From Coq Require Import ZifyBool ZifyNat ZifyN.
From Verif Require Import Devices Avr ArchLib Arch2560.
Import ListNotations.
Local Open Scope N_scope.

(** ** Specification: which pin belongs to which device, and what the comments
    of the handlers promise about it (asdf_arch_atmega2560.h 282-321;
    asdf_arch_atmega2560.c 226-550; all LEDs light on a low pin). *)
Definition own (d : nat) (p : port) (b : N) : bool :=
  match d with
  | 1%nat | 2%nat | 3%nat => pin PB 5 p b
  | 4%nat | 5%nat | 6%nat => pin PB 6 p b
  | 7%nat | 8%nat | 9%nat => pin PB 7 p b
  | 10%nat => pin PD 5 p b
  | 11%nat => pin PD 6 p b
  | 12%nat => pin PD 7 p b
  | _ => false
  end.
Definition shows (d : nat) (on : bool) : drv :=
  match d with
  | 1%nat | 4%nat | 7%nat => if on then High else Low
  | 10%nat | 11%nat | 12%nat => if on then Low else High
  | 2%nat | 5%nat | 8%nat => if on then Pullup else Low
  | 3%nat | 6%nat | 9%nat => if on then High else Float
  | _ => Float
  end.

(** Pins of the row lines; all others belong to columns, LEDs, outputs, strobe
    and data. *)
Definition row_pin (p : port) (b : N) : bool := match p with PA | PJ => true | _ => false end.

(** Idle level of the strobe after a history of calls. *)
Fixpoint idle (l : list op) (s : drv) : drv :=
  match l with
  | [] => s
  | OCall EvArchInit :: l | OCall EvStrobePos :: l => idle l Low
  | OCall EvStrobeNeg :: l => idle l High
  | _ :: l => idle l s
  end.

(** ** What initialisation establishes and every operation keeps *)
Record Cfg (g : regs) : Prop := mkCfg {
  cf_led1 : D g PD 5 = true; cf_led2 : D g PD 6 = true; cf_led3 : D g PD 7 = true;
  cf_lo : forall b, b < 8 -> D g PJ b = true; cf_hi : forall b, b < 8 -> D g PA b = true;
  cf_col : forall b, b < 8 -> D g PC b = false; cf_pull : forall b, b < 8 -> T g PC b = true;
  cf_str : D g PB 4 = true; cf_data : forall b, b < 8 -> D g PH b = true
}.

Ltac opens := unfold handler, led1_set, led2_set, led3_set, out1_set, out1_open_hi_set, out1_open_lo_set, out2_set,
  out2_open_hi_set, out2_open_lo_set, out3_set, out3_open_hi_set, out3_open_lo_set, set_pos_strobe, set_neg_strobe in *; cbv zeta in *.

Ltac bits := cbn [pin port_eqb N.eqb Pos.eqb andb orb negb xorb].

Lemma thirteen : forall (P : nat -> Prop), P 0%nat -> P 1%nat -> P 2%nat -> P 3%nat -> P 4%nat -> P 5%nat -> P 6%nat -> P 7%nat ->
  P 8%nat -> P 9%nat -> P 10%nat -> P 11%nat -> P 12%nat -> forall d, (d < 13)%nat -> P d.
Proof. intros. do 13 (destruct d as [|d]; [assumption|]). exfalso; lia. Qed.
Lemma handler_none : forall B d v h, (13 <= d)%nat -> handler B d v h = h.
Proof. intros. do 13 (destruct d as [|d]; [lia|]). reflexivity. Qed.

Lemma cfg_handler : forall B d v h, Cfg (io h) -> Cfg (io (handler B d v h)).
Proof.
  intros B d v h C. destruct (le_lt_dec 13 d) as [H|H]; [rewrite handler_none; auto|].
  destruct C. revert d H. apply thirteen; opens; destruct (v =? 0); constructor; intros; autorewrite with avr; cbn; auto.
Qed.
Lemma cfg_pos : forall B h, Cfg (io h) -> Cfg (io (set_pos_strobe B h)).
Proof. intros B h C. destruct C. opens. constructor; intros; autorewrite with avr; cbn; auto. Qed.
Lemma cfg_neg : forall B h, Cfg (io h) -> Cfg (io (set_neg_strobe B h)).
Proof. intros B h C. destruct C. opens. constructor; intros; autorewrite with avr; cbn; auto. Qed.
Lemma cfg_send : forall B c h, Cfg (io h) -> Cfg (io (send_code B c h)).
Proof.
  intros B c h C. destruct C. unfold send_code. cbv zeta. constructor; intros; autorewrite with avr; auto.
  bits. rewrite !andb_false_r. cbn [xorb]. rewrite !xorb_false_r. auto.
Qed.

Lemma io_inten : forall x h, io (wr_inten x h) = io h.
Proof. reflexivity. Qed.
Lemma hist_inten : forall x h, hist (wr_inten x h) = hist h.
Proof. reflexivity. Qed.
Lemma io_arch_init : forall B h, exists h0, io h0 = io h /\ hist h0 = hist h /\ sr h0 = sr h /\
  io (arch_init B h) = io (init_columns B (init_row_outputs B (init_leds B (set_pos_strobe B (wr_dpol 0 (init_ascii_output B h0))))))
  /\ hist (arch_init B h) = hist (init_columns B (init_row_outputs B (init_leds B (set_pos_strobe B (wr_dpol 0 (init_ascii_output B h0)))))).
Proof.
  intros. exists (tick_timer_init (init_clock (wr_flag 0 (wr_inten false h)))).
  assert (X : forall h, io (init_clock h) = io h /\ hist (init_clock h) = hist h /\ sr (init_clock h) = sr h).
  { intros. unfold init_clock, wr_clkpr. destruct (_ =? _); auto. destruct (clken h0); auto. }
  destruct (X (wr_flag 0 (wr_inten false h))) as [X1 [X2 X3]].
  split; [exact X1|]. split; [exact X2|]. split; [exact X3|].
  unfold arch_init. cbv zeta. rewrite io_inten, hist_inten. split; reflexivity.
Qed.

Lemma ff_bit : forall b, b < 8 -> N.testbit 255 b = true.
Proof. intros b H. change 255 with (N.ones 8). apply N.ones_spec_low. auto. Qed.

Lemma io_dpol : forall v h, io (wr_dpol v h) = io h.
Proof. reflexivity. Qed.

Lemma cfg_init : forall B h, Cfg (io (arch_init B h)).
Proof.
  intros. destruct (io_arch_init B h) as (h0 & _ & _ & _ & E & _). rewrite E.
  unfold init_columns, init_row_outputs, init_leds, set_pos_strobe, init_ascii_output. cbv zeta.
  constructor; intros; autorewrite with avr; rewrite ?io_dpol; autorewrite with avr;
    bits; rewrite ?orb_true_r; try reflexivity; auto using ff_bit, N.bits_0.
Qed.

(** ** Reading a row *)
Lemma pulled_bit : forall g m c, N.testbit (pulled g m) c = existsb (fun r => row_low g r && N.testbit (m r) c) (seq 0 16).
Proof.
  intros. unfold pulled. induction (seq 0 16) as [|r l IH]; [apply N.bits_0|]. cbn [fold_right existsb].
  destruct (row_low g r); cbn [andb orb]; [rewrite N.lor_spec, IH; auto|auto].
Qed.
Lemma pulled_one : forall g m c k, (k < 16)%nat -> (forall r, (r < 16)%nat -> row_low g r = (r =? k)%nat) ->
  N.testbit (pulled g m) c = N.testbit (m k) c.
Proof.
  intros g m c k Hk H. rewrite pulled_bit. apply eq_true_iff_eq. rewrite existsb_exists. split.
  - intros (r & HI & E). apply in_seq in HI. rewrite H in E by lia. apply andb_true_iff in E. destruct E as [E1 E2].
    apply Nat.eqb_eq in E1. subst r. auto.
  - intros E. exists k. split; [apply in_seq; lia|]. rewrite H by auto. rewrite Nat.eqb_refl. auto.
Qed.

Lemma same_cfg : forall g g', Cfg g -> (forall p b, D g' p b = D g p b) -> (forall b, b < 8 -> T g' PC b = T g PC b) -> Cfg g'.
Proof. intros g g' C H1 H2. destruct C. constructor; intros; rewrite ?H1, ?H2; auto. Qed.

(** The row word has a zero exactly at the requested row. *)
Lemma row_word : forall row b, row < 32 -> b < 32 -> N.testbit (N.lnot (N.shiftl 1 row) 32) b = negb (row =? b).
Proof.
  intros. rewrite N.lnot_spec_low by auto. f_equal. rewrite N.shiftl_1_l, N.pow2_bits_eqb. auto.
Qed.

Lemma read_row_ok : forall rmw m x row h, row < 16 -> Cfg (io h) ->
  forall r, r = read_row (board2560 rmw m x) row h ->
  (forall c, c < 8 -> N.testbit (fst r) c = N.testbit (m (N.to_nat row)) c) /\ fst r < 256 /\
  Cfg (io (snd r)) /\ (forall k, (k < 16)%nat -> row_low (io (snd r)) k = (k =? N.to_nat row)%nat) /\ only row_pin h (snd r).
Proof.
  intros rmw m x row h HR C r ->. unfold read_row. cbv zeta. set (B := board2560 rmw m x). cbn [fst snd].
  set (w := N.lnot _ 32). set (h1 := wr B (PORT PJ) _ h). set (h2 := wr B (PORT PA) _ h1).
  assert (W : forall b, b < 32 -> N.testbit w b = negb (row =? b)) by (intros; apply row_word; lia).
  assert (TJ : forall b, b < 8 -> T (io h2) PJ b = negb (row =? b)).
  { intros b Hb. unfold h2, h1. autorewrite with avr. bits. rewrite N.land_spec, ff_bit, andb_true_r by auto. apply W. lia. }
  assert (TA : forall b, b < 8 -> T (io h2) PA b = negb (row =? b + 8)).
  { intros b Hb. unfold h2. autorewrite with avr. bits. rewrite N.land_spec, ff_bit, andb_true_r, N.shiftr_spec' by auto. apply W. lia. }
  assert (C2 : Cfg (io h2)).
  { apply (same_cfg (io h)); [exact C| |]; intros; unfold h2, h1; autorewrite with avr; auto. }
  assert (RL : forall k, (k < 16)%nat -> row_low (io h2) k = (k =? N.to_nat row)%nat).
  { intros k Hk. unfold row_low. rewrite drive_DT. pose proof (cf_lo _ C2) as L. pose proof (cf_hi _ C2) as H. clear C C2 W.
    assert (M : N.of_nat (k mod 8) < 8) by (pose proof (Nat.mod_upper_bound k 8); lia).
    destruct (k <? 8)%nat eqn:E.
    - rewrite L, TJ by exact M. rewrite Nat.mod_small by lia. destruct (row =? N.of_nat k) eqn:F; cbn [negb]; symmetry; lia.
    - rewrite H, TA by exact M. replace (k mod 8)%nat with (k - 8)%nat by (apply (Nat.mod_unique k 8 1); lia).
      destruct (row =? N.of_nat (k - 8) + 8) eqn:F; cbn [negb]; symmetry; lia. }
  split; [|split; [apply N.mod_lt; discriminate|split; [auto|split; [auto|]]]].
  - intros c Hc. rewrite mod256_bit, N.lnot_spec_low, ld_pin, (cf_col _ C2) by lia. cbn [B b_ext board2560 ext2560].
    rewrite N.ldiff_spec, N.lor_spec. fold (T (io h2) PC c). rewrite (cf_pull _ C2) by auto. cbn [orb andb].
    rewrite negb_involutive. apply pulled_one; auto. lia.
  - unfold h2, h1. each; cbn; intros; discriminate.
Qed.

(** ** Histories *)
(** A board of which only the pressed keys vary. *)
Definition mk (rmw : bool) (x : port -> N) (m : nat -> N) : board := board2560 rmw m x.
Definition rows_ok (l : list op) : Prop := forall row m, In (ORead row m) l -> row < 16.

Lemma cfg_call : forall B e h, Cfg (io h) -> Cfg (io (call B e h)).
Proof. intros B [] h C; cbn [call]; auto using cfg_init, cfg_handler, cfg_pos, cfg_neg, cfg_send. Qed.
Lemma read_cfg : forall B row h, Cfg (io h) -> Cfg (io (snd (read_row B row h))).
Proof.
  intros. unfold read_row. cbv zeta. cbn [snd]. apply (same_cfg (io h)); [assumption| |]; intros; autorewrite with avr; auto.
Qed.
Lemma read_only : forall B row h, only row_pin h (snd (read_row B row h)).
Proof. intros. unfold read_row. cbv zeta. cbn [snd]. each; cbn; intros; discriminate. Qed.
Lemma cfg_steps : forall rmw x l h, Cfg (io h) -> Cfg (io (steps (mk rmw x) l h)).
Proof.
  intros rmw x. induction l as [|o l IH]; intros h C; auto. cbn [steps]. apply IH. destruct o; cbn [step]; auto using cfg_call, read_cfg.
Qed.
Lemma cfg_running : forall rmw x l h, Cfg (io (steps (mk rmw x) (OCall EvArchInit :: l) h)).
Proof. intros. cbn [steps step]. apply cfg_steps. apply cfg_init. Qed.

(** ** C43 *)
Theorem C43_read_row_2560 : forall rmw x h0 l m row, row < 16 ->
  let h := steps (mk rmw x) (OCall EvArchInit :: l) h0 in
  let r := read_row (mk rmw x m) row h in
  fst r < 256 /\ (forall c, c < 8 -> N.testbit (fst r) c = N.testbit (m (N.to_nat row)) c) /\
  (forall k, (k < 16)%nat -> row_low (io (snd r)) k = (k =? N.to_nat row)%nat) /\
  along (fun g => forall p b, b < 8 -> row_pin p b = false -> drive g p b = drive (io h) p b) h (snd r).
Proof.
  intros rmw x h0 l m row HR h r. destruct (read_row_ok rmw m x row h HR (cfg_running _ _ _ _) r eq_refl) as (R1 & R2 & _ & R4 & [_ R3]).
  split; auto. split; auto. split; auto. eapply along_weaken; [|exact R3]. intros g G p b Hb HP. apply (same_but_drive row_pin); auto.
Qed.
Print Assumptions C43_read_row_2560.

(** A case: keys 1 and 6 of row 11 closed, read after some calls. *)
Definition hw0 : hw := mkHw (mkRegs (fun _ => 0) (fun _ => 0)) 0 3 false 0 0 0 0 false 0 0 [].
Example C43_case :
  fst (read_row (mk false (fun _ => 0) (fun r => if Nat.eqb r 11 then 0x42 else 0x99)) 11
        (steps (mk false (fun _ => 0)) [OCall EvArchInit; OCall (EvOut 11 1); OCall (EvSend 65)] hw0)) = 0x42.
Proof. vm_compute. reflexivity. Qed.

(** ** C44 *)
Lemma handler_only : forall B d v h, only (own d) h (handler B d v h).
Proof.
  intros B d v h. destruct (le_lt_dec 13 d) as [H|H]; [rewrite handler_none by auto; apply only_refl; auto|].
  revert d H. apply thirteen; opens; try (apply only_refl; reflexivity); destruct (v =? 0); each.
Qed.

Theorem C44_handlers_2560 : forall rmw x m h0 l d v,
  let h := steps (mk rmw x) (OCall EvArchInit :: l) h0 in
  let h' := handler (mk rmw x m) d v h in
  along (fun g => forall p b, b < 8 -> own d p b = false -> drive g p b = drive (io h) p b) h h' /\
  (forall p b, b < 8 -> own d p b = false -> drive (io h') p b = drive (io h) p b) /\
  (forall p b, b < 8 -> own d p b = true -> drive (io h') p b = shows d (negb (v =? 0))).
Proof.
  intros rmw x m h0 l d v h h'. assert (C : Cfg (io h)) by apply cfg_running. clearbody h.
  assert (O := handler_only (mk rmw x m) d v h). fold h' in O. split; [|split].
  - destruct O as [_ A]. eapply along_weaken; [|exact A]. intros g G p b Hb HP. apply (same_but_drive (own d)); auto.
  - destruct O as [A _]. intros. apply (same_but_drive (own d)); auto.
  - intros p b Hb HP. destruct (le_lt_dec 13 d) as [H|H].
    + do 13 (destruct d as [|d]; [lia|]). discriminate.
    + unfold h'. clear h' O. destruct C. generalize (mk rmw x m) as B. intros B. rewrite drive_DT. revert HP. pattern d. revert d H.
      apply thirteen; opens; cbn [own shows]; try discriminate; intros HP; apply pin_eq in HP; destruct HP as [<- <-];
        destruct (v =? 0); autorewrite with avr; bits; rewrite ?cf_led4, ?cf_led5, ?cf_led6; reflexivity.
Qed.
Print Assumptions C44_handlers_2560.

Example C44_case :
  let h := steps (mk true (fun _ => 0)) [OCall EvArchInit; OCall (EvOut 1 1)] hw0 in
  drive (io h) PB 5 = High /\ drive (io (handler (mk true (fun _ => 0) (fun _ => 0)) 2 1 h)) PB 5 = Pullup /\
  drive (io (handler (mk true (fun _ => 0) (fun _ => 0)) 10 1 h)) PD 5 = Low.
Proof. vm_compute. auto. Qed.

(** ** C45 *)
(** Pins of the outputs that can be open. *)
Definition out_pin (p : port) (b : N) : bool := pin PB 5 p b || pin PB 6 p b || pin PB 7 p b.
Definition not_out (p : port) (b : N) : bool := negb (out_pin p b).

Lemma only_dpol : forall S h v h1, only S h h1 -> only S h (wr_dpol v h1).
Proof. intros S h v h1 [A B]. split; auto. Qed.
Lemma only_io : forall S h0 h h1 h2, io h0 = io h -> hist h0 = hist h -> io h2 = io h1 -> hist h2 = hist h1 -> only S h0 h1 -> only S h h2.
Proof.
  intros S h0 h h1 h2 E1 E2 E3 E4 [A B]. rewrite E1 in A, B. split; [rewrite E3; auto|].
  destruct B as [l [L F]]. exists l. split; auto. congruence.
Qed.

Lemma init_only : forall B h, only not_out h (arch_init B h).
Proof.
  intros. destruct (io_arch_init B h) as (h0 & E1 & E2 & _ & E3 & E4). eapply (only_io _ h0); eauto.
  unfold init_columns, init_row_outputs, init_leds, set_pos_strobe, init_ascii_output. cbv zeta.
  each; try (apply only_dpol; each); intros; cbn in *; discriminate.
Qed.
Lemma pos_only : forall B h, only (pin PB 4) h (set_pos_strobe B h).
Proof. intros. unfold set_pos_strobe. each. Qed.
Lemma neg_only : forall B h, only (pin PB 4) h (set_neg_strobe B h).
Proof. intros. unfold set_neg_strobe. each. Qed.
Lemma send_only : forall B c h, b_rmw B = false -> only (fun p b => port_eqb p PH || pin PB 4 p b) h (send_code B c h).
Proof. intros. unfold send_code. cbv zeta. each; auto; cbn; intros; discriminate. Qed.

Lemma not_out_more : forall (S : port -> N -> bool), S PB 5 = false -> S PB 6 = false -> S PB 7 = false -> forall p b, S p b = true -> not_out p b = true.
Proof.
  intros S H1 H2 H3 p b H. unfold not_out, out_pin. destruct (pin PB 5 p b) eqn:E1; [apply pin_eq in E1; destruct E1; congruence|].
  destruct (pin PB 6 p b) eqn:E2; [apply pin_eq in E2; destruct E2; congruence|].
  destruct (pin PB 7 p b) eqn:E3; [apply pin_eq in E3; destruct E3; congruence|]. auto.
Qed.

(** Everything except the handlers of OUT1, OUT2 and OUT3 leaves their pins alone. *)
Lemma step_only : forall x o h,
  (forall d v, o = OCall (EvOut d v) -> own d PB 5 = false /\ own d PB 6 = false /\ own d PB 7 = false) -> only not_out h (step (mk false x) o h).
Proof.
  intros x o h HO. destruct o as [e|row m].
  - cbn [step]. destruct e; cbn [call]; try (apply only_refl; reflexivity).
    + apply init_only.
    + destruct (HO d v eq_refl) as (A & B & C). eapply only_more; [|apply handler_only]. apply not_out_more; auto.
    + eapply only_more; [|apply pos_only]. apply not_out_more; auto.
    + eapply only_more; [|apply neg_only]. apply not_out_more; auto.
    + eapply only_more; [|apply send_only; reflexivity]. apply not_out_more; auto.
  - cbn [step]. eapply only_more; [|apply read_only]. apply not_out_more; reflexivity.
Qed.

(** [d] is the open-high ([hi]) or open-low device of the pin; [l] uses the pin
    in no other mode. *)
Definition only_mode (d : nat) (p : port) (b : N) (l : list op) : Prop :=
  forall d' v, In (OCall (EvOut d' v)) l -> own d' p b = true -> d' = d.

Ltac along1 := first [apply along_set | apply along_clr].
Lemma hi_handler : forall B d v h p b, (d = 2%nat /\ p = PB /\ b = 5) \/ (d = 5%nat /\ p = PB /\ b = 6) \/ (d = 8%nat /\ p = PB /\ b = 7) ->
  drive (io h) p b <> High -> along (fun g => drive g p b <> High) h (handler B d v h) /\ drive (io (handler B d v h)) p b <> High.
Proof.
  intros B d v h p b H HN. rewrite drive_DT in HN.
  destruct H as [(-> & -> & ->)|[(-> & -> & ->)|(-> & -> & ->)]]; opens; destruct (v =? 0);
   (split; [eapply along_trans; [|along1]; [along1|]|]); rewrite drive_DT; autorewrite with avr; bits;
   repeat match goal with |- context [if ?x then _ else _] => destruct x end; try discriminate; try assumption.
Qed.
Lemma lo_handler : forall B d v h p b, (d = 3%nat /\ p = PB /\ b = 5) \/ (d = 6%nat /\ p = PB /\ b = 6) \/ (d = 9%nat /\ p = PB /\ b = 7) ->
  drive (io h) p b <> Low -> along (fun g => drive g p b <> Low) h (handler B d v h) /\ drive (io (handler B d v h)) p b <> Low.
Proof.
  intros B d v h p b H HN. rewrite drive_DT in HN.
  destruct H as [(-> & -> & ->)|[(-> & -> & ->)|(-> & -> & ->)]]; opens; destruct (v =? 0);
   (split; [eapply along_trans; [|along1]; [along1|]|]); rewrite drive_DT; autorewrite with avr; bits;
   repeat match goal with |- context [if ?x then _ else _] => destruct x end; try discriminate; try assumption.
Qed.

Lemma mode_steps : forall x d p b bad,
  (forall B v h, drive (io h) p b <> bad ->
     along (fun g => drive g p b <> bad) h (handler B d v h) /\ drive (io (handler B d v h)) p b <> bad) ->
  out_pin p b = true -> b < 8 ->
  forall l h, only_mode d p b l -> Cfg (io h) -> drive (io h) p b <> bad ->
  along (fun g => drive g p b <> bad) h (steps (mk false x) l h).
Proof.
  intros x d p b bad HH HP Hb. induction l as [|o l IH]; intros h HM C HD; [apply along_refl; auto|].
  cbn [steps]. assert (C' : Cfg (io (step (mk false x) o h))) by (apply (cfg_steps false x [o]); auto).
  assert (X : along (fun g => drive g p b <> bad) h (step (mk false x) o h) /\ drive (io (step (mk false x) o h)) p b <> bad).
  { assert (G : only not_out h (step (mk false x) o h) ->
      along (fun g => drive g p b <> bad) h (step (mk false x) o h) /\ drive (io (step (mk false x) o h)) p b <> bad).
    { intros [A A']. assert (N0 : not_out p b = false) by (unfold not_out; rewrite HP; auto). split.
      - eapply along_weaken; [|exact A']. intros g Gg. cbn beta. rewrite (same_but_drive not_out (io h) g); auto.
      - rewrite (same_but_drive not_out (io h)); auto. }
    destruct o as [e|row m]; [|apply G, step_only; discriminate].
    destruct e as [|d' v| | | | | |]; try (apply G, step_only; discriminate).
    destruct (own d' p b) eqn:E.
    - assert (d' = d) by (eapply HM; [left; eauto|auto]). subst d'. cbn [step call]. apply HH. auto.
    - clear G. cbn [step call]. set (B := mk false x (fun _ => 0)).
      destruct (handler_only B d' v h) as [A A']. split.
      + eapply along_weaken; [|exact A']. intros g Gg. cbn beta. rewrite (same_but_drive (own d') (io h) g); auto.
      + rewrite (same_but_drive (own d') (io h)); auto. }
  destruct X as [X1 X2]. eapply along_trans; [exact X1|]. apply IH; auto.
  intros d' v HI. apply (HM d' v). right. auto.
Qed.

(** From reset on, whatever else is done, an output used only as open-high
    ([d] = 2, 5, 8) is never driven high and one used only as open-low ([d] = 3,
    6, 9) never driven low, in any state between two register writes. *)
Theorem C45_open_2560 : forall x h0 l d p b (bad : drv), at_reset h0 ->
  ((d = 2%nat \/ d = 5%nat \/ d = 8%nat) /\ bad = High) \/ ((d = 3%nat \/ d = 6%nat \/ d = 9%nat) /\ bad = Low) ->
  own d p b = true -> only_mode d p b l ->
  Forall (fun g => drive g p b <> bad) (hist (steps (mk false x) (OCall EvArchInit :: l) h0)).
Proof.
  intros x h0 l d p b bad (R1 & R2 & R3 & R4 & R5) HD HO HM.
  assert (A1 : along (fun g => drive g p b <> bad) h0 (arch_init (mk false x (fun _ => 0)) h0) /\
               drive (io (arch_init (mk false x (fun _ => 0)) h0)) p b <> bad).
  { destruct (init_only (mk false x (fun _ => 0)) h0) as [A A'].
    assert (N0 : not_out p b = false /\ b < 8).
    { destruct HD as [[[-> | [-> | ->]] ->]|[[-> | [-> | ->]] ->]]; cbn [own] in HO; apply pin_eq in HO; destruct HO; subst p b; auto; split; reflexivity. }
    destruct N0 as [N0 Hb].
    assert (Z : drive (io h0) p b <> bad).
    { unfold drive. rewrite R1, R2, N.bits_0. destruct HD as [[_ ->]|[_ ->]]; discriminate. }
    split.
    - eapply along_weaken; [|exact A']. intros g Gg. cbn beta. rewrite (same_but_drive not_out (io h0) g); auto.
    - rewrite (same_but_drive not_out (io h0)); auto. }
  destruct A1 as [A1 A2].
  assert (A3 : along (fun g => drive g p b <> bad) h0 (steps (mk false x) (OCall EvArchInit :: l) h0)).
  { cbn [steps step call]. eapply along_trans; [exact A1|]. apply (mode_steps x d p b bad); auto using cfg_init.
    - intros B v h HN. destruct HD as [[HD ->]|[HD ->]]; [apply hi_handler | apply lo_handler]; auto;
        destruct HD as [-> | [-> | ->]]; cbn [own] in HO; apply pin_eq in HO; destruct HO; subst p b; auto.
    - destruct HD as [[[-> | [-> | ->]] ->]|[[-> | [-> | ->]] ->]]; cbn [own] in HO; apply pin_eq in HO; destruct HO; subst p b; reflexivity.
    - destruct HD as [[[-> | [-> | ->]] ->]|[[-> | [-> | ->]] ->]]; cbn [own] in HO; apply pin_eq in HO; destruct HO; subst p b; reflexivity. }
  destruct A3 as [k [E F]]. rewrite E, R4, app_nil_r. auto.
Qed.
Print Assumptions C45_open_2560.

Example C45_case : at_reset hw0 /\ own 5 PB 6 = true /\ only_mode 5 PB 6 [OCall (EvOut 5 1); OCall (EvOut 5 0); OCall (EvOut 7 1)] /\
  map (fun g => drive g PB 6) (firstn 6 (hist (steps (mk false (fun _ => 0)) [OCall EvArchInit; OCall (EvOut 5 1); OCall (EvOut 5 0); OCall (EvOut 7 1)] hw0)))
  = [Low; Low; Low; Float; Pullup; Float].
Proof.
  split; [repeat split|]. split; [reflexivity|]. split; [|vm_compute; reflexivity].
  intros d v H O. cbn [In] in H. repeat destruct H as [H|H]; try contradiction; injection H; intros; subst; auto; discriminate.
Qed.

(** ** C46 *)
Definition other (s : drv) : drv := match s with Low => High | High => Low | _ => s end.

Lemma idle_driven : forall l s, s = Low \/ s = High -> idle l s = Low \/ idle l s = High.
Proof. induction l as [|[[]|] l IH]; cbn [idle]; intros s H; auto. Qed.
Lemma drive_strobe_init : forall B h, drive (io (arch_init B h)) PB 4 = Low.
Proof.
  intros. destruct (io_arch_init B h) as (h0 & _ & _ & _ & E & _). rewrite drive_DT, E.
  unfold init_columns, init_row_outputs, init_leds, set_pos_strobe, init_ascii_output. cbv zeta.
  autorewrite with avr. bits. reflexivity.
Qed.
Lemma D_true_drive : forall g p b, D g p b = true -> drive g p b = Low \/ drive g p b = High.
Proof. intros. rewrite drive_DT, H. destruct (T g p b); auto. Qed.

Lemma send_shape : forall B c h, b_rmw B = false -> exists g1 g2 g3, hist (send_code B c h) = g3 :: g2 :: g1 :: hist h /\ io (send_code B c h) = g3 /\
  (forall p b, b < 8 -> D g1 p b = D (io h) p b /\ D g2 p b = D (io h) p b /\ D g3 p b = D (io h) p b) /\
  (forall b, b < 8 -> T g1 PH b = N.testbit (N.lxor c (dpol h)) b /\ T g2 PH b = N.testbit (N.lxor c (dpol h)) b /\ T g3 PH b = N.testbit (N.lxor c (dpol h)) b) /\
  T g1 PB 4 = T (io h) PB 4 /\ T g2 PB 4 = negb (T (io h) PB 4) /\ T g3 PB 4 = T (io h) PB 4 /\
  (forall p b, b < 8 -> p <> PH -> ~ (p = PB /\ b = 4) -> T g1 p b = T (io h) p b /\ T g2 p b = T (io h) p b /\ T g3 p b = T (io h) p b).
Proof.
  intros B c h HB. unfold send_code. cbv zeta. set (h1 := wr B (PORT PH) _ h). set (h2 := set_bit B (PIN PB) 4 h1).
  exists (io h1), (io h2), (io (set_bit B (PIN PB) 4 h2)). rewrite hist_set. split; [unfold h2; rewrite hist_set; reflexivity|]. split; auto.
  assert (T1 : forall p b, b < 8 -> T (io h1) p b = if port_eqb PH p then N.testbit (N.lxor c (dpol h)) b else T (io h) p b)
    by (intros; unfold h1; autorewrite with avr; auto).
  assert (T2 : forall p b, b < 8 -> T (io h2) p b = xorb (T (io h1) p b) (pin PB 4 p b)).
  { intros. unfold h2. rewrite T_set_pin, HB by auto. cbn [andb]. rewrite orb_false_r. auto. }
  assert (T3 : forall p b, b < 8 -> T (io (set_bit B (PIN PB) 4 h2)) p b = T (io h1) p b).
  { intros. rewrite T_set_pin, HB, T2 by auto. cbn [andb]. rewrite orb_false_r. destruct (T (io h1) p b), (pin PB 4 p b); auto. }
  split; [auto|]. split.
  { intros b Hb. rewrite T3, T2, T1 by auto. bits. rewrite xorb_false_r. auto. }
  rewrite T3, T2, T1 by reflexivity. bits. rewrite xorb_true_r. do 3 (split; auto).
  intros p b Hb H1 H2. rewrite T3, T2, T1 by auto.
  replace (pin PB 4 p b) with false; [rewrite xorb_false_r; destruct p; auto; congruence|].
  symmetry. apply not_true_is_false. rewrite pin_eq. intros [<- <-]. auto.
Qed.

Lemma drive_same : forall g g' p b, D g p b = D g' p b -> T g p b = T g' p b -> drive g p b = drive g' p b.
Proof. intros. rewrite !drive_DT, H, H0. auto. Qed.

Lemma strobe_steps : forall x l h, Cfg (io h) -> drive (io (steps (mk false x) l h)) PB 4 = idle l (drive (io h) PB 4).
Proof.
  intros x. induction l as [|o l IH]; intros h C; auto. cbn [steps].
  rewrite IH by (apply (cfg_steps false x [o]); auto).
  assert (ST := cf_str _ C).
  destruct o as [[]|row m]; cbn [step call idle]; auto.
  - rewrite drive_strobe_init. auto.
  - destruct (handler_only (mk false x (fun _ => 0)) d v h) as [A _]. f_equal.
    apply (same_but_drive (own d)); auto; [reflexivity|].
    clear. do 13 (destruct d as [|d]; [reflexivity|]). reflexivity.
  - f_equal. rewrite drive_DT. unfold set_pos_strobe. autorewrite with avr. bits. reflexivity.
  - f_equal. rewrite drive_DT. unfold set_neg_strobe. autorewrite with avr. bits. reflexivity.
  - f_equal. destruct (send_shape (mk false x (fun _ => 0)) c h eq_refl) as (g1 & g2 & g3 & _ & -> & X1 & _ & _ & _ & X2 & _).
    apply drive_same; auto. apply X1. reflexivity.
Qed.

Lemma dpol_set : forall B r b h, dpol (set_bit B r b h) = dpol h.
Proof. intros B [] b h; reflexivity. Qed.
Lemma dpol_clr : forall B r b h, dpol (clear_bit B r b h) = dpol h.
Proof. reflexivity. Qed.
Lemma dpol_wr : forall B r v h, dpol (wr B r v h) = dpol h.
Proof. reflexivity. Qed.
Lemma rest_handler : forall B d v h, rest (handler B d v h) = rest h.
Proof.
  intros. destruct (le_lt_dec 13 d) as [H|H]; [rewrite handler_none; auto|].
  revert d H. apply thirteen; opens; try reflexivity; destruct (v =? 0); rewrite ?rest_set, ?rest_clr, ?rest_set, ?rest_clr; reflexivity.
Qed.
Lemma rest_send : forall B c h, rest (send_code B c h) = rest h.
Proof. intros. unfold send_code. cbv zeta. rewrite !rest_set, rest_wr. auto. Qed.
Lemma rest_read : forall B row h, rest (snd (read_row B row h)) = rest h.
Proof. intros. unfold read_row. cbv zeta. cbn [snd]. rewrite !rest_wr. auto. Qed.
Lemma dpol_rest : forall h h', rest h = rest h' -> dpol h = dpol h'.
Proof. unfold rest. congruence. Qed.

Definition rest_init (h : hw) := (clkps h, clken h, 2, 3, 249, 2, true, 0, 0).
Lemma rest_inten : forall x h, rest (wr_inten x h) = (let '(a, b, c, d, e, f, _, g, k) := rest h in (a, b, c, d, e, f, x, g, k)).
Proof. reflexivity. Qed.
Lemma rest_dpol : forall x h, rest (wr_dpol x h) = (let '(a, b, c, d, e, f, i, g, _) := rest h in (a, b, c, d, e, f, i, g, x)).
Proof. reflexivity. Qed.
Lemma rest_timer : forall h, rest (tick_timer_init h) = (let '(a, b, _, _, _, _, i, _, k) := rest h in (a, b, 2, 3, 249, 2, i, 0, k)).
Proof. reflexivity. Qed.
Lemma rest_clock : forall h, clken h = false -> init_clock h = h.
Proof. intros h H. unfold init_clock, wr_clkpr. rewrite H. reflexivity. Qed.
Lemma rest_arch_init : forall B h, clken h = false -> rest (arch_init B h) = rest_init h.
Proof.
  intros B h CE. unfold arch_init. cbv zeta. rewrite rest_inten, rest_clock by exact CE.
  set (h1 := wr_dpol 0 _).
  assert (X : rest (init_columns B (init_row_outputs B (init_leds B (set_pos_strobe B h1)))) = rest h1).
  { unfold init_columns, init_row_outputs, init_leds, set_pos_strobe. cbv zeta. repeat rewrite ?rest_set, ?rest_clr, ?rest_wr. auto. }
  rewrite X. unfold h1, init_ascii_output. cbv zeta. rewrite rest_dpol, !rest_wr, rest_timer. reflexivity.
Qed.

Lemma rest_step_call : forall B e h, e <> EvArchInit -> rest (call B e h) = rest h.
Proof.
  intros B [] h H; cbn [call]; auto using rest_handler, rest_send; try congruence.
Qed.

(** After initialisation the registers outside the ports have fixed values,
    except the prescaler, which keeps its value from reset. *)
Lemma rest_steps : forall mk l h, clken h = false -> rest h = rest_init h -> rest (steps mk l h) = rest_init h.
Proof.
  intros mk0. induction l as [|o l IH]; intros h CE R; auto. cbn [steps].
  assert (X : rest (step mk0 o h) = rest_init h).
  { destruct o as [e|row m]; cbn [step]; [|rewrite rest_read; auto].
    destruct e; try (rewrite rest_step_call by discriminate; auto). apply rest_arch_init. auto. }
  assert (Y : clken (step mk0 o h) = clken h) by (unfold rest, rest_init in X; congruence).
  assert (Z : rest_init (step mk0 o h) = rest_init h) by (unfold rest, rest_init in *; congruence).
  rewrite IH; congruence.
Qed.
Lemma rest_running : forall mk l h, clken h = false -> rest (steps mk (OCall EvArchInit :: l) h) = rest_init h.
Proof.
  intros mk0 l h CE. cbn [steps step call]. pose proof (rest_arch_init (mk0 (fun _ => 0)) h CE) as X.
  set (h1 := arch_init _ _) in *. clearbody h1.
  assert (Y : rest_init h1 = rest_init h) by (unfold rest, rest_init in *; congruence).
  rewrite rest_steps; try congruence. unfold rest, rest_init in *; congruence.
Qed.

Theorem C46_strobe_2560 : forall x h0 l m c, clken h0 = false -> c < 256 ->
  let h := steps (mk false x) (OCall EvArchInit :: l) h0 in
  let s := idle (OCall EvArchInit :: l) Low in
  (s = Low \/ s = High) /\ drive (io h) PB 4 = s /\
  exists g1 g2 g3, hist (send_code (mk false x m) c h) = g3 :: g2 :: g1 :: hist h /\ io (send_code (mk false x m) c h) = g3 /\
    drive g1 PB 4 = s /\ drive g2 PB 4 = other s /\ drive g3 PB 4 = s /\
    Forall (fun g => (forall b, b < 8 -> drive g PH b = if N.testbit c b then High else Low) /\
                     (forall p b, b < 8 -> p <> PH -> ~ (p = PB /\ b = 4) -> drive g p b = drive (io h) p b)) [g1; g2; g3].
Proof.
  intros x h0 l m c CE Hc h s.
  assert (C : Cfg (io h)) by apply cfg_running.
  assert (S0 : drive (io h) PB 4 = s).
  { unfold h, s. cbn [steps step call idle]. rewrite strobe_steps by apply cfg_init. rewrite drive_strobe_init. auto. }
  assert (DP : dpol h = 0) by (pose proof (rest_running (mk false x) l h0 CE) as X; fold h in X; unfold rest, rest_init in X; congruence).
  split; [apply idle_driven; auto|]. split; auto.
  destruct (send_shape (mk false x m) c h eq_refl) as (g1 & g2 & g3 & E1 & E2 & X1 & X2 & Y1 & Y2 & Y3 & X3).
  exists g1, g2, g3. rewrite DP, N.lxor_0_r in X2. clearbody h. assert (ST := cf_str _ C). assert (DA := cf_data _ C).
  destruct (X1 PB 4 eq_refl) as (D1 & D2 & D3).
  split; auto. split; auto. split; [rewrite <- S0; apply drive_same; auto|].
  split. { rewrite <- S0. rewrite !drive_DT, D2, ST, Y2. destruct (T (io h) PB 4); reflexivity. }
  split; [rewrite <- S0; apply drive_same; auto|].
  assert (F : forall g, g = g1 \/ g = g2 \/ g = g3 ->
    (forall b, b < 8 -> drive g PH b = if N.testbit c b then High else Low) /\
    (forall p b, b < 8 -> p <> PH -> ~ (p = PB /\ b = 4) -> drive g p b = drive (io h) p b)).
  { intros g HG. split.
    - intros b H. destruct (X1 PH b H) as (A1 & A2 & A3), (X2 b H) as (B1 & B2 & B3). specialize (DA b H).
      rewrite drive_DT. destruct HG as [-> | [-> | ->]]; [rewrite A1, B1 | rewrite A2, B2 | rewrite A3, B3]; rewrite DA; auto.
    - intros p b H H0 H1. destruct (X1 p b H) as (A1 & A2 & A3), (X3 p b H H0 H1) as (B1 & B2 & B3).
      destruct HG as [-> | [-> | ->]]; apply drive_same; auto. }
  constructor; [apply F; auto|]. constructor; [apply F; auto|]. constructor; [apply F; auto|]. constructor.
Qed.
Print Assumptions C46_strobe_2560.

Example C46_case :
  let l := [OCall EvArchInit; OCall EvStrobeNeg; OCall (EvOut 12 1)] in
  idle l Low = High /\
  map (fun g => (drive g PB 4, drive g PD 7, prt g PH)) (firstn 4 (hist (steps (mk false (fun _ => 0)) (l ++ [OCall (EvSend 0x41)]) hw0)))
  = [(High, Low, 0x41); (Low, Low, 0x41); (High, Low, 0x41); (High, Low, 0)].
Proof. vm_compute. auto. Qed.

(** ** C48, C54 *)
(** `CLKPR = (CLKPCE | SYSCLK_DIV1)` writes 7, not 0x80: the prescaler keeps
    its reset value. *)
Theorem C48_prescaler_2560_partial : forall mk l h0, clken h0 = false ->
  clkps (steps mk (OCall EvArchInit :: l) h0) = clkps h0.
Proof. intros. pose proof (rest_running mk0 l h0 H) as X. unfold rest, rest_init in X. congruence. Qed.
Print Assumptions C48_prescaler_2560_partial.

(** Full statement: forall reset states, the prescaler is 0 (divide by 1) after
    initialisation.  Witness: the CKDIV8 fuse (factory setting) gives 3. *)
Theorem C48_prescaler_2560_refuted : exists h0, at_reset h0 /\
  forall mk l, clkps (steps mk (OCall EvArchInit :: l) h0) = 3.
Proof. exists hw0. split; [repeat split|]. intros. rewrite C48_prescaler_2560_partial; reflexivity. Qed.
Print Assumptions C48_prescaler_2560_refuted.

(** Timer 0 in CTC mode: the flag is raised every (OCR0A + 1) * prescaler * 2^CLKPS
    clock cycles.  Data sheet: Timer/Counter 0, mode and clock select bits. *)
Definition prescale (tb : N) : option N :=
  match tb mod 8 with 1 => Some 1 | 2 => Some 8 | 3 => Some 64 | 4 => Some 256 | 5 => Some 1024 | _ => None end.
Definition tick_cycles (h : hw) : option N :=
  if (tccra h mod 4 =? 2) && negb (N.testbit (tccrb h) 3) && N.testbit (timsk h) 1 && inten h then
    match prescale (tccrb h) with Some k => Some ((ocra h + 1) * k * 2 ^ clkps h) | None => None end
  else None.

Theorem C54_tick_2560 : forall mk l h0, clken h0 = false ->
  tick_cycles (steps mk (OCall EvArchInit :: l) h0) = Some (F_CPU / 1000 * 2 ^ clkps h0).
Proof.
  intros. pose proof (rest_running mk0 l h0 H) as X. set (h := steps _ _ _) in *. clearbody h. unfold rest, rest_init in X.
  assert (E1 : tccra h = 2) by congruence. assert (E2 : tccrb h = 3) by congruence. assert (E3 : ocra h = 249) by congruence.
  assert (E4 : timsk h = 2) by congruence. assert (E5 : inten h = true) by congruence. assert (E6 : clkps h = clkps h0) by congruence.
  unfold tick_cycles. rewrite E1, E2, E3, E4, E5, E6. reflexivity.
Qed.
Print Assumptions C54_tick_2560.
Example C54_case : clken hw0 = false /\ tick_cycles (steps (mk false (fun _ => 0)) [OCall EvArchInit; OCall (EvSend 1)] hw0) = Some 128000.
Proof. vm_compute. auto. Qed.

(** ** C55: the unoptimised build *)
(** There, writing the strobe bit of PINB reads the whole port and writes it
    back, which toggles every pin that is high: a high OUT1 goes low. *)
Theorem C55_unoptimised_2560_refuted : exists x h0 l c, at_reset h0 /\ c < 256 /\
  drive (io (steps (mk true x) (OCall EvArchInit :: l) h0)) PB 5 = High /\
  drive (io (steps (mk true x) (OCall EvArchInit :: l ++ [OCall (EvSend c)]) h0)) PB 5 = Low.
Proof. exists (fun _ => 0), hw0, [OCall (EvOut 1 1)], 65. repeat split. Qed.
Print Assumptions C55_unoptimised_2560_refuted.
