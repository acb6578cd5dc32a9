(** C69-C71: the row reader for a polled OSI keyboard (ATmega2560). *)
From Coq Require Import List NArith Arith Bool Lia.
From Coq Require Import ZifyBool ZifyNat ZifyN.
From Verif Require Import Devices Avr ArchLib Arch2560 PropArch2560.
Import ListNotations.
Local Open Scope N_scope.

(** ** The keyboard (environment).  It is enabled by a low KBE line (PA1).  While
    enabled, the rising edge of RW (PA2) stores what the processor drives on
    the bus (port C); while enabled with RW high it drives the bus with the keys of
    the stored rows, one bit per pressed key.  Rows 8-15 are contacts of the
    processor board, as on the plain board; [x] are the levels of lines nobody
    drives or pulls. *)
Definition is_low (g : regs) (b : N) : bool := match drive g PA b with Low => true | _ => false end.
Definition is_high (g : regs) (b : N) : bool := match drive g PA b with High => true | _ => false end.
Definition talks (g : regs) : bool := is_low g 1 && is_high g 2.
Definition osi_keys (m : nat -> N) (q : N) : N :=
  fold_right (fun r acc => if N.testbit q (N.of_nat r) then N.lor (m r) acc else acc) 0 (seq 0 8).
Definition osi_contacts (m : nat -> N) (r : nat) : N := if (r <? 8)%nat then 0 else m r.
Definition osi_board (rmw : bool) (x : port -> N) (m : nat -> N) : board :=
  mkBoard rmw
    (fun g g' q => if is_low g 1 && is_low g 2 && is_high g' 2 then N.land (prt g PC) (ddr g PC) else q)
    (fun g q p => match p with
                  | PC => if talks g then osi_keys m q else ext2560 (osi_contacts m) x g PC
                  | _ => x p
                  end).

(** Histories with reads of the OSI keyboard; [m]: keys and contacts closed at the time. *)
Inductive oop := OPlain (o : op) | OOsi (row : N) (m : nat -> N).
Definition ostep (mk : (nat -> N) -> board) (o : oop) (h : hw) : hw :=
  match o with OPlain o => step mk o h | OOsi row m => snd (osi_read_row (mk m) row h) end.
Definition osteps (mk : (nat -> N) -> board) (l : list oop) (h : hw) : hw := fold_left (fun h o => ostep mk o h) l h.

(** ** The lines of port A, among them KBE and RW, stay outputs *)
Definition kbe_out (g : regs) : Prop := forall b, b < 8 -> D g PA b = true.

Lemma kbe_of_cfg : forall g, Cfg g -> kbe_out g.
Proof. intros g C. exact (cf_hi _ C). Qed.
Lemma own_PA : forall d b, own d PA b = false.
Proof. intros d b. do 13 (destruct d as [|d]; [reflexivity|]). reflexivity. Qed.
Lemma kbe_call : forall B e h, kbe_out (io h) -> kbe_out (io (call B e h)).
Proof.
  intros B [] h K b Hb; cbn [call]; auto.
  - apply (cf_hi _ (cfg_init B h)). exact Hb.
  - destruct (handler_only B d v h) as [H _]. rewrite (proj1 (H PA b Hb (own_PA d b))). auto.
  - unfold set_pos_strobe. cbv zeta. autorewrite with avr. cbn. auto.
  - unfold set_neg_strobe. cbv zeta. autorewrite with avr. cbn. auto.
  - unfold send_code. cbv zeta. autorewrite with avr. cbn. auto.
Qed.
Lemma kbe_read : forall B row h, kbe_out (io h) -> kbe_out (io (snd (read_row B row h))).
Proof. intros B row h K b Hb. unfold read_row. cbv zeta. cbn [snd]. autorewrite with avr. auto. Qed.
Lemma kbe_osi : forall B row h, kbe_out (io h) -> kbe_out (io (snd (osi_read_row B row h))).
Proof.
  intros B row h K b Hb. unfold osi_read_row. destruct (7 <? row); [apply kbe_read; assumption|].
  cbv zeta. cbn [snd]. autorewrite with avr. cbn. auto.
Qed.
Lemma kbe_steps : forall mk l h, kbe_out (io h) -> kbe_out (io (osteps mk l h)).
Proof.
  intros mk l. induction l as [|o l IH]; intros h K; [exact K|]. cbn [osteps fold_left]. apply IH.
  destruct o as [[e|row m]|row m]; cbn [ostep step]; auto using kbe_call, kbe_read, kbe_osi.
Qed.
Lemma kbe_running : forall mk l h, kbe_out (io (osteps mk (OPlain (OCall EvArchInit) :: l) h)).
Proof. intros. cbn [osteps fold_left ostep step call]. apply kbe_steps. apply kbe_of_cfg. apply cfg_init. Qed.

Lemma is_low_DT : forall g b, is_low g b = D g PA b && negb (T g PA b).
Proof. intros. unfold is_low. rewrite drive_DT. destruct (D g PA b), (T g PA b); reflexivity. Qed.
Lemma is_high_DT : forall g b, is_high g b = D g PA b && T g PA b.
Proof. intros. unfold is_high. rewrite drive_DT. destruct (D g PA b), (T g PA b); reflexivity. Qed.

Lemma osi_keys_one : forall m q k c, (k < 8)%nat -> (forall r, (r < 8)%nat -> N.testbit q (N.of_nat r) = (r =? k)%nat) ->
  N.testbit (osi_keys m q) c = N.testbit (m k) c.
Proof.
  intros m q k c Hk H.
  assert (E : forall l, N.testbit (fold_right (fun r acc => if N.testbit q (N.of_nat r) then N.lor (m r) acc else acc) 0 l) c =
                existsb (fun r => N.testbit q (N.of_nat r) && N.testbit (m r) c) l).
  { induction l as [|r l IH]; [apply N.bits_0|]. cbn [fold_right existsb].
    destruct (N.testbit q (N.of_nat r)); cbn [andb orb]; [rewrite N.lor_spec, IH; auto|auto]. }
  unfold osi_keys. rewrite E. apply eq_true_iff_eq. rewrite existsb_exists. split.
  - intros (r & HI & X). apply in_seq in HI. rewrite H in X by lia. apply andb_true_iff in X. destruct X as [X1 X2].
    apply Nat.eqb_eq in X1. subst r. exact X2.
  - intros X. exists k. split; [apply in_seq; lia|]. rewrite H, Nat.eqb_refl by exact Hk. exact X.
Qed.

(** The registers and the stored rows after an OSI read. *)
Lemma osi_read : forall rmw x m row h, row < 8 -> kbe_out (io h) ->
  let h' := snd (osi_read_row (osi_board rmw x m) row h) in
  sr h' = N.shiftl 1 row mod 256 /\ talks (io h') = true /\
  (forall b, b < 8 -> D (io h') PC b = false) /\
  (forall b, b < 8 -> T (io h') PC b = (row =? b)) /\
  fst (osi_read_row (osi_board rmw x m) row h) = ld (osi_board rmw x m) (PIN PC) h' mod 256.
Proof.
  intros rmw x m row h HR KB. pose proof (KB 1 eq_refl) as K1. pose proof (KB 2 eq_refl) as K2. unfold osi_read_row.
  destruct (N.ltb_spec 7 row) as [C|_]; [lia|]. cbv zeta. cbn [fst snd]. set (B := osi_board rmw x m).
  set (h1 := clear_bit B (PORT PA) 1 h). set (h2 := wr B (DDR PC) 255 h1). set (h3 := wr B (PORT PC) (N.shiftl 1 row) h2).
  set (h4 := clear_bit B (PORT PA) 2 h3). set (h5 := set_bit B (PORT PA) 2 h4). set (h6 := wr B (DDR PC) 0 h5).
  assert (L1 : is_low (io h4) 1 = true).
  { rewrite is_low_DT. unfold h4, h3, h2, h1. autorewrite with avr. rewrite K1. reflexivity. }
  assert (L2 : is_low (io h4) 2 = true).
  { rewrite is_low_DT. unfold h4, h3, h2, h1. autorewrite with avr. rewrite K2. reflexivity. }
  assert (H5 : is_high (io h5) 2 = true).
  { rewrite is_high_DT. unfold h5, h4, h3, h2, h1. autorewrite with avr. rewrite K2. reflexivity. }
  assert (S5 : sr h5 = N.shiftl 1 row mod 256).
  { unfold h5, set_bit, wr. cbn [sr]. unfold B at 1. cbn [b_next osi_board].
    change (store (PORT PA) (N.lor (ld B (PORT PA) h4) (2 ^ 2)) (io h4)) with (io h5). rewrite L1, L2, H5. cbn [andb].
    change (prt (io h4) PC) with (N.shiftl 1 row mod 256). change (ddr (io h4) PC) with (N.ones 8).
    rewrite N.land_ones. apply N.mod_small. change (2 ^ 8) with 256. apply N.mod_lt. discriminate. }
  split; [|split; [|split; [|split; [|reflexivity]]]].
  - unfold h6, wr. cbn [sr]. unfold B at 1. cbn [b_next osi_board].
    destruct (is_low (io h5) 2) eqn:E; [|rewrite andb_false_r; exact S5].
    exfalso. rewrite is_low_DT in E. rewrite is_high_DT in H5. destruct (D (io h5) PA 2), (T (io h5) PA 2); discriminate.
  - unfold talks. rewrite is_low_DT, is_high_DT. unfold h6, h5, h4, h3, h2, h1. autorewrite with avr. rewrite K1, K2. reflexivity.
  - intros b Hb. unfold h6. rewrite D_wr_ddr by exact Hb. cbn [port_eqb]. apply N.bits_0.
  - intros b Hb. unfold h6, h5, h4. rewrite T_wr_ddr, T_set_prt, T_clr_prt by exact Hb.
    cbn [pin port_eqb andb orb negb]. unfold h3. rewrite T_wr_prt by exact Hb. cbn [port_eqb].
    rewrite N.shiftl_1_l. apply N.pow2_bits_eqb.
Qed.

Lemma row_bits : forall row r, row < 8 -> (r < 8)%nat ->
  N.testbit (N.shiftl 1 row mod 256) (N.of_nat r) = (r =? N.to_nat row)%nat.
Proof.
  intros row r H1 H2. rewrite mod256_bit by lia. rewrite N.shiftl_1_l, N.pow2_bits_eqb.
  destruct (N.eqb_spec row (N.of_nat r)), (Nat.eqb_spec r (N.to_nat row)); auto; lia.
Qed.

(** ** C69 *)
Theorem C69_osi_row : forall rmw x l h0 m row, row < 8 ->
  let h := osteps (osi_board rmw x) (OPlain (OCall EvArchInit) :: l) h0 in
  let r := osi_read_row (osi_board rmw x m) row h in
  fst r < 256 /\ forall c, c < 8 -> N.testbit (fst r) c = N.testbit (m (N.to_nat row)) c.
Proof.
  intros rmw x l h0 m row HR h r.
  destruct (osi_read rmw x m row h HR (kbe_running _ _ _)) as (S & TK & DD & _ & E). fold r in S, TK, DD, E.
  split; [rewrite E; apply N.mod_lt; discriminate|]. intros c Hc. rewrite E, mod256_bit, ld_pin, DD by exact Hc.
  cbn [b_ext osi_board]. rewrite TK, S. apply osi_keys_one; [lia|]. intros k Hk. apply row_bits; assumption.
Qed.
Print Assumptions C69_osi_row.

Example C69_case :
  fst (osi_read_row (osi_board false (fun _ => 0) (fun r => if Nat.eqb r 5 then 0x42 else 0x99)) 5
        (osteps (osi_board false (fun _ => 0)) [OPlain (OCall EvArchInit); OOsi 3 (fun _ => 7); OPlain (ORead 8 (fun _ => 1))] hw0)) = 0x42.
Proof. vm_compute. reflexivity. Qed.

(** ** C70 *)
(** The full claim: a row on the processor board (8-15, the switches are row 8) reads
    right also after OSI reads.  What holds: the column whose number is the OSI
    row read last; all other columns are left without a pull-up and an open
    contact reads as the floating level. *)
Theorem C70_switches_after_osi_partial : forall rmw x l h0 m0 m k,
  k < 8 ->
  let h := snd (osi_read_row (osi_board rmw x m0) k (osteps (osi_board rmw x) (OPlain (OCall EvArchInit) :: l) h0)) in
  forall c, c < 8 -> N.testbit (fst (read_row (osi_board rmw x m) 8 h)) c =
    N.testbit (m 8%nat) c || (negb (c =? k) && negb (N.testbit (x PC) c)).
Proof.
  intros rmw x l h0 m0 m k Hk h c Hc.
  destruct (osi_read rmw x m0 k _ Hk (kbe_running (osi_board rmw x) l h0)) as (_ & _ & DD & TT & _).
  assert (DA : kbe_out (io h)) by (apply kbe_osi; apply kbe_running).
  fold h in DD, TT. clearbody h. clear l h0 m0.
  unfold read_row. cbv zeta. cbn [fst snd]. set (B := osi_board rmw x m).
  set (h1 := wr B (PORT PJ) _ h). set (h2 := wr B (PORT PA) _ h1).
  assert (TA : forall b, b < 8 -> T (io h2) PA b = negb (b =? 0)).
  { intros b Hb. unfold h2. rewrite T_wr_prt by exact Hb. cbn [port_eqb]. rewrite N.land_spec, ff_bit, andb_true_r, N.shiftr_spec' by exact Hb.
    rewrite row_word by lia. f_equal. destruct (N.eqb_spec 8 (b + 8)), (N.eqb_spec b 0); auto; lia. }
  assert (DA2 : forall b, b < 8 -> D (io h2) PA b = true) by (intros; unfold h2, h1; rewrite !D_wr_prt; auto).
  assert (TC : T (io h2) PC c = (k =? c)) by (unfold h2, h1; autorewrite with avr; cbn [port_eqb]; auto).
  assert (DC : D (io h2) PC c = false) by (unfold h2, h1; autorewrite with avr; auto).
  rewrite mod256_bit, N.lnot_spec_low, ld_pin, DC by lia. unfold B at 1. cbn [b_ext osi_board].
  replace (talks (io h2)) with false.
  2:{ symmetry. unfold talks. rewrite is_low_DT, DA2, TA by lia. reflexivity. }
  cbn [ext2560]. rewrite N.ldiff_spec, N.lor_spec. fold (T (io h2) PC c). rewrite TC, pulled_bit.
  assert (P : existsb (fun r => row_low (io h2) r && N.testbit (osi_contacts m r) c) (seq 0 16) = N.testbit (m 8%nat) c).
  { apply eq_true_iff_eq. rewrite existsb_exists. split.
    - intros (r & HI & E). apply in_seq in HI. apply andb_true_iff in E. destruct E as [E1 E].
      destruct (Nat.eq_dec r 8) as [-> | N]; [exact E|]. exfalso. unfold osi_contacts in E.
      destruct (r <? 8)%nat eqn:R; [rewrite N.bits_0 in E; discriminate E|]. unfold row_low in E1. rewrite R, drive_DT in E1.
      assert (R8 : (r mod 8 = r - 8)%nat) by (symmetry; apply (Nat.mod_unique r 8 1); lia).
      rewrite R8, DA2, TA in E1 by lia. destruct (N.of_nat (r - 8) =? 0) eqn:Z; [lia|discriminate E1].
    - intros E. exists 8%nat. split; [apply in_seq; lia|]. cbn [osi_contacts Nat.ltb Nat.leb]. rewrite E, andb_true_r.
      unfold row_low. cbn [Nat.ltb Nat.leb]. rewrite drive_DT. change (N.of_nat (8 mod 8)) with 0.
      rewrite DA2, TA by lia. reflexivity. }
  rewrite P, (N.eqb_sym k c). destruct (N.testbit (m 8%nat) c), (c =? k), (N.testbit (x PC) c); reflexivity.
Qed.
Print Assumptions C70_switches_after_osi_partial.

(** No switch is closed, yet after reading OSI row 3 all but one read as closed. *)
Theorem C70_switches_after_osi_refuted : exists x l h0 m, at_reset h0 /\ (forall r, m r = 0) /\
  let h := osteps (osi_board false x) (OPlain (OCall EvArchInit) :: l) h0 in
  fst (read_row (osi_board false x m) 8 h) = 0 /\
  fst (read_row (osi_board false x m) 8 (snd (osi_read_row (osi_board false x m) 3 h))) = 0xf7.
Proof.
  exists (fun _ => 0), [], hw0, (fun _ => 0). split; [repeat split|]. split; [reflexivity|]. vm_compute. auto.
Qed.
Print Assumptions C70_switches_after_osi_refuted.

Example C70_case : let B := osi_board true (fun _ => 1) in
  fst (read_row (B (fun r => if Nat.eqb r 8 then 6 else 0xff)) 8
    (snd (osi_read_row (B (fun _ => 9)) 2 (osteps B [OPlain (OCall EvArchInit); OOsi 6 (fun _ => 1)] hw0)))) = 0xfe.
Proof. vm_compute. reflexivity. Qed.

(** ** C71 *)
(** Processor and keyboard both drive the bus. *)
Definition both_drive (g : regs) : Prop := talks g = true /\ exists b, b < 8 /\ D g PC b = true.

(** The full claim: no state during an OSI read has both driving.  It is false
    for every read after the first: the keyboard is still enabled with RW high
    when the port is made an output. *)
Theorem C71_bus_contention_refuted : forall rmw x l h0 m0 m k row, k < 8 -> row < 8 ->
  let h := snd (osi_read_row (osi_board rmw x m0) k (osteps (osi_board rmw x) (OPlain (OCall EvArchInit) :: l) h0)) in
  let h' := snd (osi_read_row (osi_board rmw x m) row h) in
  exists during, hist h' = during ++ hist h /\ exists g, In g during /\ both_drive g.
Proof.
  intros rmw x l h0 m0 m k row Hk HR h h'.
  pose proof (kbe_running (osi_board rmw x) l h0) as KB.
  destruct (osi_read rmw x m0 k _ Hk KB) as (_ & TK & _). fold h in TK.
  assert (KH : kbe_out (io h)) by (apply kbe_osi; exact KB). clearbody h. pose proof (KH 1 eq_refl) as K1. pose proof (KH 2 eq_refl) as K2.
  unfold h', osi_read_row. destruct (N.ltb_spec 7 row) as [C|_]; [lia|]. cbv zeta. cbn [snd].
  set (B := osi_board rmw x m).
  set (h1 := clear_bit B (PORT PA) 1 h). set (h2 := wr B (DDR PC) 255 h1). set (h3 := wr B (PORT PC) (N.shiftl 1 row) h2).
  set (h4 := clear_bit B (PORT PA) 2 h3). set (h5 := set_bit B (PORT PA) 2 h4). set (h6 := wr B (DDR PC) 0 h5).
  exists [io h6; io h5; io h4; io h3; io h2; io h1]. split; [reflexivity|].
  exists (io h2). split; [cbn [In]; auto 10|]. unfold talks in TK. apply andb_true_iff in TK. destruct TK as [_ TK].
  rewrite is_high_DT, K2 in TK. cbn [andb] in TK. split.
  - unfold talks. rewrite is_low_DT, is_high_DT. unfold h2, h1. autorewrite with avr. rewrite K1, K2, TK. reflexivity.
  - exists 0. split; [lia|]. reflexivity.
Qed.
Print Assumptions C71_bus_contention_refuted.

Example C71_case : exists g, both_drive g /\
  In g (hist (snd (osi_read_row (osi_board false (fun _ => 0) (fun _ => 0)) 1
    (osteps (osi_board false (fun _ => 0)) [OPlain (OCall EvArchInit); OOsi 0 (fun _ => 0)] hw0)))).
Proof.
  destruct (C71_bus_contention_refuted false (fun _ => 0) [] hw0 (fun _ => 0) (fun _ => 0) 0 1 eq_refl eq_refl) as (d & E & g & G & BD).
  exists g. split; [exact BD|].
  change (osteps (osi_board false (fun _ => 0)) [OPlain (OCall EvArchInit); OOsi 0 (fun _ => 0)] hw0) with
    (snd (osi_read_row (osi_board false (fun _ => 0) (fun _ => 0)) 0 (osteps (osi_board false (fun _ => 0)) [OPlain (OCall EvArchInit)] hw0))).
  rewrite E. apply in_or_app. left. exact G.
Qed.

(** What holds: after the read the processor does not drive the bus, and the
    row number is on the bus, driven by the processor alone (RW low), before
    the keyboard stores it. *)
Theorem C71_bus_contention_partial : forall rmw x l h0 m row, row < 8 ->
  let h := osteps (osi_board rmw x) (OPlain (OCall EvArchInit) :: l) h0 in
  let h' := snd (osi_read_row (osi_board rmw x m) row h) in
  ~ both_drive (io h') /\ exists during, hist h' = during ++ hist h /\
    exists g, In g during /\ is_low g 1 = true /\ is_low g 2 = true /\
              forall b, b < 8 -> D g PC b = true /\ T g PC b = (row =? b).
Proof.
  intros rmw x l h0 m row HR h h'.
  pose proof (kbe_running (osi_board rmw x) l h0) as KB. fold h in KB.
  destruct (osi_read rmw x m row h HR KB) as (_ & _ & DD & _). fold h' in DD. split.
  - intros (_ & b & Hb & E). rewrite DD in E by exact Hb. discriminate E.
  - clearbody h. pose proof (KB 1 eq_refl) as K1. pose proof (KB 2 eq_refl) as K2. unfold h', osi_read_row in *. destruct (N.ltb_spec 7 row) as [C|_]; [lia|]. cbv zeta in *. cbn [snd] in *.
    set (B := osi_board rmw x m) in *.
    set (h1 := clear_bit B (PORT PA) 1 h) in *. set (h2 := wr B (DDR PC) 255 h1) in *. set (h3 := wr B (PORT PC) (N.shiftl 1 row) h2) in *.
    set (h4 := clear_bit B (PORT PA) 2 h3) in *. set (h5 := set_bit B (PORT PA) 2 h4) in *. set (h6 := wr B (DDR PC) 0 h5) in *.
    exists [io h6; io h5; io h4; io h3; io h2; io h1]. split; [reflexivity|].
    exists (io h4). split; [cbn [In]; auto 10|]. rewrite !is_low_DT. split; [|split].
    + unfold h4, h3, h2, h1. autorewrite with avr. rewrite K1. reflexivity.
    + unfold h4, h3, h2, h1. autorewrite with avr. rewrite K2. reflexivity.
    + intros b Hb. split.
      * unfold h4, h3, h2. rewrite D_clr_prt, D_wr_prt, D_wr_ddr by exact Hb. cbn [port_eqb]. apply ff_bit. exact Hb.
      * unfold h4, h3. rewrite T_clr_prt, T_wr_prt by exact Hb. cbn [pin port_eqb andb negb]. rewrite N.shiftl_1_l. apply N.pow2_bits_eqb.
Qed.
Print Assumptions C71_bus_contention_partial.
