(** C56 on the ATmega328p: what the host latches, for any sequence of calls. *)
From Coq Require Import List NArith Arith Bool Lia.
From Verif Require Import Devices Avr ArchLib Arch328p PropArch328 Host.
Import ListNotations.
Local Open Scope N_scope.

(** The calls among the operations. *)
Definition calls (l : list op) : list event := flat_map (fun o => match o with OCall e => [e] | ORead _ _ => [] end) l.

(** ** Proof *)
Notation latch rise h := (latched rise PB 6 PD (hist h)).
Record Inv (h : hw) (idle : drv) (data : N) : Prop := mkInv {
  iv_cfg : Cfg (io h); iv_en : clken h = false; iv_pol : dpol h = 0; iv_top : top h;
  iv_idle : drive (io h) PB 6 = idle; iv_data : lines (io h) PD = lines_of data
}.

Lemma strobe_own : forall d, own d PB 6 = false.
Proof. intros. do 13 (destruct d as [|d]; [reflexivity|]). reflexivity. Qed.
Lemma data_own : forall d b, own d PD b = false.
Proof. intros. do 13 (destruct d as [|d]; [reflexivity|]). reflexivity. Qed.
Lemma handler_top : forall B d v h, top h -> top (handler B d v h).
Proof.
  intros B d v h H. destruct (le_lt_dec 13 d) as [L|L]; [rewrite handler_none; auto|].
  revert d L. apply thirteen; opens; auto; try destruct (v =? 0); auto using top_set, top_clr.
Qed.
Lemma read_top : forall B row h, top (snd (read_row B row h)).
Proof. intros. unfold read_row. cbv zeta. cbn [read_cols snd]. apply top_clr. Qed.

(** A change to idle level [lvl], from any state. *)
Lemma pos_latch : forall rise B h, top h ->
  latch rise (set_pos_strobe B h) = latch rise h ++ spurious (edge rise (drive (io h) PB 6) Low) (lines (io h) PD) /\
  drive (io (set_pos_strobe B h)) PB 6 = Low /\ lines (io (set_pos_strobe B h)) PD = lines (io h) PD.
Proof.
  intros rise B h [t E]. unfold set_pos_strobe. cbv zeta. set (h1 := clear_bit B (PORT PB) 6 h).
  assert (L1 : lines (io h1) PD = lines (io h) PD) by (apply (lines_same (pin PB 6)); [apply only_clr_prt; reflexivity | reflexivity]).
  assert (L2 : lines (io (set_bit B (DDR PB) 6 h1)) PD = lines (io h1) PD) by (apply (lines_same (pin PB 6)); [apply only_set_ddr; reflexivity | reflexivity]).
  assert (S1 : drive (io h1) PB 6 = if D (io h) PB 6 then Low else Float).
  { rewrite drive_DT. unfold h1. autorewrite with avr. bits. auto. }
  assert (S2 : drive (io (set_bit B (DDR PB) 6 h1)) PB 6 = Low).
  { rewrite drive_DT. unfold h1. autorewrite with avr. bits. auto. }
  split; [|split; congruence]. rewrite hist_set. unfold h1 at 2. rewrite hist_clr. fold h1. rewrite E.
  rewrite !latched_step, S2, S1, L1, L2, L1. rewrite <- app_assoc. f_equal.
  rewrite drive_DT. destruct (D (io h) PB 6), (T (io h) PB 6), rise; reflexivity.
Qed.
Lemma neg_latch : forall rise B h, top h -> D (io h) PB 6 = true ->
  latch rise (set_neg_strobe B h) = latch rise h ++ spurious (edge rise (drive (io h) PB 6) High) (lines (io h) PD) /\
  drive (io (set_neg_strobe B h)) PB 6 = High /\ lines (io (set_neg_strobe B h)) PD = lines (io h) PD.
Proof.
  intros rise B h [t E] HD. unfold set_neg_strobe. cbv zeta. set (h1 := set_bit B (PORT PB) 6 h).
  assert (L1 : lines (io h1) PD = lines (io h) PD) by (apply (lines_same (pin PB 6)); [apply only_set_prt; reflexivity | reflexivity]).
  assert (L2 : lines (io (set_bit B (DDR PB) 6 h1)) PD = lines (io h1) PD) by (apply (lines_same (pin PB 6)); [apply only_set_ddr; reflexivity | reflexivity]).
  assert (S1 : drive (io h1) PB 6 = High).
  { rewrite drive_DT. unfold h1. autorewrite with avr. rewrite HD. bits. auto. }
  assert (S2 : drive (io (set_bit B (DDR PB) 6 h1)) PB 6 = High).
  { rewrite drive_DT. unfold h1. autorewrite with avr. bits. auto. }
  split; [|split; congruence]. rewrite hist_set. unfold h1 at 2. rewrite hist_set. fold h1. rewrite E.
  rewrite !latched_step, S2, S1, L1, L2, L1, edge_same. apply app_nil_r.
Qed.

Lemma send_latch : forall rise B c h, b_rmw B = false -> Cfg (io h) -> dpol h = 0 -> top h ->
  latch rise (send_code B c h) = latch rise h ++ [lines_of c] /\
  drive (io (send_code B c h)) PB 6 = drive (io h) PB 6 /\ lines (io (send_code B c h)) PD = lines_of c.
Proof.
  intros rise B c h HB C DP [t E].
  destruct (send_shape B c h HB) as (g1 & g2 & g3 & E1 & E2 & X1 & X2 & Y1 & Y2 & Y3 & _).
  rewrite DP, N.lxor_0_r in X2. assert (ST := cf_str _ C). assert (DA := cf_data _ C). clear C.
  destruct (X1 PB 6 eq_refl) as (D1 & D2 & D3).
  assert (L1 : lines g1 PD = lines_of c) by (apply lines_DT; intros b Hb; [rewrite <- (DA b Hb)|]; apply X1 || apply X2; auto).
  assert (L2 : lines g2 PD = lines_of c) by (apply lines_DT; intros b Hb; [rewrite <- (DA b Hb)|]; apply X1 || apply X2; auto).
  assert (L3 : lines g3 PD = lines_of c) by (apply lines_DT; intros b Hb; [rewrite <- (DA b Hb)|]; apply X1 || apply X2; auto).
  rewrite E2, E1, E, !latched_step, !drive_DT, D1, D2, D3, ST, Y1, Y2, Y3, L1, L2, L3.
  split; [|split]; auto. destruct (T (io h) PB 6), rise; cbn [negb edge spurious app]; rewrite ?app_nil_r; auto.
Qed.

(** Initialisation, from any state in which something has been written, and
    from reset. *)
Definition after_strobe (B : board) (h : hw) : hw := init_column_control B (init_row_outputs B (init_leds B (init_leds B h))).
Lemma after_only : forall B h, only (fun p b => negb (port_eqb p PD || pin PB 6 p b)) h (after_strobe B h).
Proof.
  intros. unfold after_strobe, init_column_control, init_row_outputs, init_leds. cbv zeta. each; intros c Hc; cbn; discriminate.
Qed.
Lemma after_top : forall B h, top (after_strobe B h).
Proof. intros. apply top_clr. Qed.
Lemma ascii_only : forall B h, only (fun p _ => port_eqb p PD) h (init_ascii_output B h).
Proof. intros. unfold init_ascii_output. cbv zeta. each; intros c Hc; cbn; discriminate. Qed.
Lemma ascii_top : forall B h, top (init_ascii_output B h).
Proof. intros. apply top_wr. Qed.
Lemma ascii_lines : forall B h, dpol h = 0 -> lines (io (init_ascii_output B h)) PD = lines_of 0.
Proof.
  intros B h H. unfold init_ascii_output. cbv zeta. rewrite H. apply lines_DT; intros b Hb; autorewrite with avr; bits;
    [apply ff_bit; auto | reflexivity].
Qed.

Lemma init_latch : forall rise B h, clken h = false -> dpol h = 0 ->
  (top h \/ (hist h = [] /\ drive (io h) PB 6 = Float)) ->
  latch rise (arch_init B h) = latch rise h ++ spurious (edge rise (drive (io h) PB 6) Low) (lines_of 0) /\
  Inv (arch_init B h) Low 0.
Proof.
  intros rise B h CE DP HT.
  assert (X : exists h1, (exists h0', io h0' = io h /\ hist h0' = hist h /\ dpol h0' = 0 /\ h1 = init_ascii_output B h0') /\
    io (arch_init B h) = io (after_strobe B (set_pos_strobe B (wr_dpol 0 h1))) /\
    hist (arch_init B h) = hist (after_strobe B (set_pos_strobe B (wr_dpol 0 h1)))).
  { exists (init_ascii_output B (tick_timer_init (init_clock (wr_flag 0 (wr_inten false h))))). split.
    - exists (tick_timer_init (init_clock (wr_flag 0 (wr_inten false h)))). rewrite rest_clock by exact CE. repeat split; auto.
    - unfold arch_init, after_strobe. cbv zeta. rewrite io_inten, hist_inten. split; reflexivity. }
  destruct X as (h1 & (h0 & A1 & A2 & A3 & A4) & E1 & E2).
  assert (L1 : lines (io h1) PD = lines_of 0) by (rewrite A4; apply ascii_lines; auto).
  assert (T1 : top h1) by (rewrite A4; apply ascii_top).
  assert (O1 := ascii_only B h0). rewrite <- A4 in O1.
  assert (S1 : drive (io h1) PB 6 = drive (io h) PB 6).
  { rewrite <- A1. apply (same_but_drive (fun p _ => port_eqb p PD)); [apply O1 | reflexivity | reflexivity]. }
  assert (H1 : latch rise h1 = latch rise h).
  { destruct HT as [[t Et]|[Eh Ef]].
    - replace (hist h) with (hist h0) by auto. apply (only_still rise (fun p _ => port_eqb p PD)); auto; [reflexivity|].
      exists t. rewrite A1, A2. auto.
    - rewrite Eh. destruct O1 as [_ [seg [Es Fs]]]. rewrite Es, A2, Eh, app_nil_r. apply latched_none.
      eapply Forall_impl; [|exact Fs]. intros g G. cbn beta. rewrite (same_but_drive _ _ g PB 6 G) by reflexivity.
      rewrite A1, Ef. discriminate. }
  set (h2 := wr_dpol 0 h1) in *. assert (T2 : top h2) by exact T1.
  destruct (pos_latch rise B h2 T2) as (P1 & P2 & P3).
  change (io h2) with (io h1) in P1, P3. change (hist h2) with (hist h1) in P1.
  set (h3 := set_pos_strobe B h2) in *. assert (T3 : top h3) by apply top_set.
  assert (O3 := after_only B h3).
  rewrite E2, (only_still rise _ PB 6 PD h3 _ O3) by (auto; reflexivity).
  rewrite P1, H1, S1, L1. split; auto. constructor.
  - apply cfg_init.
  - pose proof (rest_arch_init B h CE) as R. unfold rest, rest_init in R. congruence.
  - pose proof (rest_arch_init B h CE) as R. unfold rest, rest_init in R. congruence.
  - destruct (after_top B h3) as [t Et]. exists t. rewrite E1, E2. auto.
  - rewrite E1. rewrite <- P2. apply (same_but_drive (fun p b => negb (port_eqb p PD || pin PB 6 p b))); [apply O3 | reflexivity | reflexivity].
  - rewrite E1. rewrite <- L1, <- P3. apply (lines_same (fun p b => negb (port_eqb p PD || pin PB 6 p b))); [apply O3 | reflexivity].
Qed.

Lemma keep_inv : forall h h' idle data, Inv h idle data -> Cfg (io h') -> rest h' = rest h -> top h' ->
  drive (io h') PB 6 = idle -> lines (io h') PD = lines_of data -> forall data', data' = data -> Inv h' idle data'.
Proof. intros h h' idle data [] C R T1 T2 T3 data' ->. unfold rest in R. constructor; auto; congruence. Qed.

Lemma hear_steps : forall rise ser x l h idle data, Inv h idle data ->
  latch rise (steps (mk false ser x) l h) = latch rise h ++ map lines_of (hear rise idle data (calls l)).
Proof.
  intros rise ser x. induction l as [|o l IH]; intros h idle data I; [cbn; rewrite app_nil_r; auto|].
  assert (C := iv_cfg _ _ _ I). assert (TP := iv_top _ _ _ I). assert (ID := iv_idle _ _ _ I). assert (DA := iv_data _ _ _ I).
  cbn [steps]. destruct o as [e|row m].
  - cbn [step]. set (B := mk false ser x (fun _ => 0)). unfold calls. cbn [flat_map app]. fold (calls l).
    destruct e; cbn [call hear].
    + destruct (init_latch rise B h (iv_en _ _ _ I) (iv_pol _ _ _ I) (or_introl TP)) as [E I'].
      rewrite (IH _ _ _ I'), E, ID, <- app_assoc. destruct (edge rise idle Low); reflexivity.
    + assert (O := handler_only B d v h).
      rewrite (IH _ idle data).
      * f_equal. apply (only_still rise (own d)); auto using strobe_own. reflexivity.
      * apply (keep_inv h _ idle data I (cfg_handler _ _ _ _ C) (rest_handler _ _ _ _) (handler_top _ _ _ _ TP)); [| |reflexivity].
        -- rewrite <- ID. apply (same_but_drive (own d)); [apply O | reflexivity | apply strobe_own].
        -- rewrite <- DA. apply (lines_same (own d)); [apply O | intros; apply data_own].
    + apply IH. auto.
    + apply IH. auto.
    + apply IH. auto.
    + destruct (pos_latch rise B h TP) as (E1 & E2 & E3). rewrite (IH _ Low data).
      * rewrite E1, DA, ID, <- app_assoc. destruct (edge rise idle Low); reflexivity.
      * destruct I. constructor; auto using cfg_pos; try congruence. apply top_set.
    + destruct (neg_latch rise B h TP (cf_str _ C)) as (E1 & E2 & E3). rewrite (IH _ High data).
      * rewrite E1, DA, ID, <- app_assoc. destruct (edge rise idle High); reflexivity.
      * destruct I. constructor; auto using cfg_neg; try congruence. apply top_set.
    + destruct (send_latch rise B c h eq_refl C (iv_pol _ _ _ I) TP) as (E1 & E2 & E3). rewrite (IH _ idle c).
      * rewrite E1, <- app_assoc. reflexivity.
      * assert (R := rest_send B c h). unfold rest in R. destruct I. constructor; auto using cfg_send; try congruence. apply top_set.
  - cbn [step]. set (B := mk false ser x m).
    destruct (read_row_ok false m ser x row h C _ eq_refl) as (_ & _ & C' & _ & O).
    assert (R := rest_read B row h). change (board328 false m ser x) with B in C', O.
    rewrite (IH _ idle data).
    + f_equal. apply (only_still rise matrix_pin); auto; reflexivity.
    + apply (keep_inv h _ idle data I C' R (read_top _ _ _)); [| |reflexivity].
      * rewrite <- ID. apply (same_but_drive matrix_pin); [apply O | reflexivity | reflexivity].
      * rewrite <- DA. apply (lines_same matrix_pin); [apply O | reflexivity].
Qed.

(** From reset on, after initialisation and any calls and row reads, the host
    has latched the codes of all sends, in order, plus one spurious code per
    change of the strobe's idle level in the direction of its edge: the last
    code on a polarity call, zero on a re-initialisation. *)
Theorem C56_latch_328p : forall rise ser x h0 l, at_reset h0 ->
  latched rise PB 6 PD (hist (steps (mk false ser x) (OCall EvArchInit :: l) h0)) = map lines_of (hear rise Low 0 (calls l)).
Proof.
  intros rise ser x h0 l (R1 & R2 & R3 & R4 & R5). cbn [steps step call].
  destruct (init_latch rise (mk false ser x (fun _ => 0)) h0 R3 R5) as [E I].
  { right. split; auto. unfold drive. rewrite R1, R2. reflexivity. }
  rewrite (hear_steps rise ser x l _ Low 0 I), E, R4.
  replace (drive (io h0) PB 6) with Float by (unfold drive; rewrite R1, R2; reflexivity). destruct rise; reflexivity.
Qed.
Print Assumptions C56_latch_328p.

(** A host latching on rising edges: two codes, a switch to negative strobe
    (spurious), another code. *)
Example C56_case : at_reset hw0 /\
  latched true PB 6 PD (hist (steps (mk false false (fun _ => 0)) [OCall EvArchInit; OCall (EvSend 65); ORead 3 (fun _ => 7); OCall (EvSend 66); OCall EvStrobeNeg; OCall (EvSend 67)] hw0))
  = map lines_of [65; 66; 66; 67].
Proof. split; [repeat split | vm_compute; reflexivity]. Qed.
