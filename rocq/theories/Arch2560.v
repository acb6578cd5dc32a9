(** Model of Arch/asdf_arch_atmega2560.c on the ATmega2560 ASCII interface board. *)
From Coq Require Import List NArith Arith Bool.
From Verif Require Import Devices Avr.
Import ListNotations.
Local Open Scope N_scope.

(** ** The board (hardware/interface-ascii-atmega2560): rows 0-7 are the pins of
    port J, rows 8-15 those of port A; the columns are the pins of port C.  A
    column line is pulled low by a closed contact to a row that is driven low;
    otherwise the pull-up makes it high (a pin without its pull-up reads [x]).  Contacts have diodes.
    [m] gives the closed contacts per row, [x] the levels on all other input
    pins. *)
Definition row_low (g : regs) (r : nat) : bool :=
  match drive g (if (r <? 8)%nat then PJ else PA) (N.of_nat (r mod 8)) with Low => true | _ => false end.
Definition pulled (g : regs) (m : nat -> N) : N :=
  fold_right (fun r acc => if row_low g r then N.lor (m r) acc else acc) 0 (seq 0 16).
Definition ext2560 (m : nat -> N) (x : port -> N) (g : regs) (p : port) : N :=
  match p with
  | PC => N.ldiff (N.lor (prt g PC) (x PC)) (pulled g m)
  | _ => x p
  end.
Definition board2560 (rmw : bool) (m : nat -> N) (x : port -> N) : board :=
  mkBoard rmw (fun _ _ q => q) (fun g _ => ext2560 m x g).

(** asdf_arch_atmega2560.c 133-139.  The combined word
    TIMER0_WFM_CTC | TIMER0_DIV64 | TIMER0_INT_ON_COMA (.h) puts WGM01 into
    TCCR0A, CS01 and CS00 into TCCR0B and OCIE0A into TIMSK0. *)
Definition timer0_config (h : hw) : hw :=
  let h := wr_tccrb 0 h in
  let h := wr_tccra (2 ^ WGM01) h in
  let h := wr_timsk (2 ^ OCIE0A) h in
  wr_tccrb (N.lor (2 ^ CS01) (2 ^ CS00)) h.

(** asdf_arch_atmega2560.c 155-166; TICK_COUNT: .h 349. *)
Definition TICK_COUNT := 249.
Definition F_CPU := 16000000.
Definition tick_timer_init (h : hw) : hw :=
  timer0_config (wr_ocra TICK_COUNT (wr_flag 0 h)).

(** asdf_arch_atmega2560.c 201-204: CLKPR = (CLKPCE | SYSCLK_DIV1), where
    SYSCLK_DIV1 = 0 (.h 43). *)
Definition init_clock (h : hw) : hw := wr_clkpr (N.lor CLKPCE 0) h.

(** asdf_arch_atmega2560.c 219-224. *)
Definition init_leds (B : board) (h : hw) : hw :=
  let h := set_bit B (DDR PD) 5 h in
  let h := set_bit B (DDR PD) 6 h in
  set_bit B (DDR PD) 7 h.

(** asdf_arch_atmega2560.c 242-250. *)
Definition led1_set (B : board) (v : N) (h : hw) : hw :=
  if v =? 0 then
    set_bit B (PORT PD) 5 h
  else
    clear_bit B (PORT PD) 5 h.

(** asdf_arch_atmega2560.c 267-275. *)
Definition led2_set (B : board) (v : N) (h : hw) : hw :=
  if v =? 0 then
    set_bit B (PORT PD) 6 h
  else
    clear_bit B (PORT PD) 6 h.

(** asdf_arch_atmega2560.c 292-300. *)
Definition led3_set (B : board) (v : N) (h : hw) : hw :=
  if v =? 0 then
    set_bit B (PORT PD) 7 h
  else
    clear_bit B (PORT PD) 7 h.

(** asdf_arch_atmega2560.c 335-344. *)
Definition out1_set (B : board) (v : N) (h : hw) : hw :=
  let h := if v =? 0 then clear_bit B (PORT PB) 5 h else set_bit B (PORT PB) 5 h in
  set_bit B (DDR PB) 5 h.

(** asdf_arch_atmega2560.c 360-370. *)
Definition out1_open_hi_set (B : board) (v : N) (h : hw) : hw :=
  if v =? 0 then
    let h := clear_bit B (PORT PB) 5 h in
    set_bit B (DDR PB) 5 h
  else
    let h := clear_bit B (DDR PB) 5 h in
    set_bit B (PORT PB) 5 h.

(** asdf_arch_atmega2560.c 386-396. *)
Definition out1_open_lo_set (B : board) (v : N) (h : hw) : hw :=
  if v =? 0 then
    let h := clear_bit B (DDR PB) 5 h in
    clear_bit B (PORT PB) 5 h
  else
    let h := set_bit B (PORT PB) 5 h in
    set_bit B (DDR PB) 5 h.

(** asdf_arch_atmega2560.c 412-421. *)
Definition out2_set (B : board) (v : N) (h : hw) : hw :=
  let h := if v =? 0 then clear_bit B (PORT PB) 6 h else set_bit B (PORT PB) 6 h in
  set_bit B (DDR PB) 6 h.

(** asdf_arch_atmega2560.c 437-447. *)
Definition out2_open_hi_set (B : board) (v : N) (h : hw) : hw :=
  if v =? 0 then
    let h := clear_bit B (PORT PB) 6 h in
    set_bit B (DDR PB) 6 h
  else
    let h := clear_bit B (DDR PB) 6 h in
    set_bit B (PORT PB) 6 h.

(** asdf_arch_atmega2560.c 463-473. *)
Definition out2_open_lo_set (B : board) (v : N) (h : hw) : hw :=
  if v =? 0 then
    let h := clear_bit B (DDR PB) 6 h in
    clear_bit B (PORT PB) 6 h
  else
    let h := set_bit B (PORT PB) 6 h in
    set_bit B (DDR PB) 6 h.

(** asdf_arch_atmega2560.c 489-498. *)
Definition out3_set (B : board) (v : N) (h : hw) : hw :=
  let h := if v =? 0 then clear_bit B (PORT PB) 7 h else set_bit B (PORT PB) 7 h in
  set_bit B (DDR PB) 7 h.

(** asdf_arch_atmega2560.c 514-524. *)
Definition out3_open_hi_set (B : board) (v : N) (h : hw) : hw :=
  if v =? 0 then
    let h := clear_bit B (PORT PB) 7 h in
    set_bit B (DDR PB) 7 h
  else
    let h := clear_bit B (DDR PB) 7 h in
    set_bit B (PORT PB) 7 h.

(** asdf_arch_atmega2560.c 540-550. *)
Definition out3_open_lo_set (B : board) (v : N) (h : hw) : hw :=
  if v =? 0 then
    let h := clear_bit B (DDR PB) 7 h in
    clear_bit B (PORT PB) 7 h
  else
    let h := set_bit B (PORT PB) 7 h in
    set_bit B (DDR PB) 7 h.

(** asdf_arch_atmega2560.c 565-569. *)
Definition set_pos_strobe (B : board) (h : hw) : hw :=
  let h := clear_bit B (PORT PB) 4 h in
  set_bit B (DDR PB) 4 h.

(** asdf_arch_atmega2560.c 583-587. *)
Definition set_neg_strobe (B : board) (h : hw) : hw :=
  let h := set_bit B (PORT PB) 4 h in
  set_bit B (DDR PB) 4 h.

(** asdf_arch_atmega2560.c 601-606. *)
Definition init_ascii_output (B : board) (h : hw) : hw :=
  let h := wr B (PORT PH) (dpol h) h in
  wr B (DDR PH) 0xff h.

(** asdf_arch_atmega2560.c 620-624. *)
Definition init_columns (B : board) (h : hw) : hw :=
  let h := wr B (DDR PC) 0 h in
  wr B (PORT PC) 0xff h.

(** asdf_arch_atmega2560.c 638-642. *)
Definition init_row_outputs (B : board) (h : hw) : hw :=
  let h := wr B (DDR PA) 0xff h in
  wr B (DDR PJ) 0xff h.

(** asdf_arch_atmega2560.c 715-747.  ASDF_DEFAULT_STROBE_POLARITY =
    ASDF_POSITIVE_POLARITY and ASDF_DEFAULT_DATA_POLARITY = 0
    (asdf_config.h 34-41). *)
Definition arch_init (B : board) (h : hw) : hw :=
  let h := wr_inten false h in
  let h := wr_flag 0 h in
  let h := init_clock h in
  let h := tick_timer_init h in
  let h := init_ascii_output B h in
  let h := wr_dpol 0 h in
  let h := set_pos_strobe B h in
  let h := init_leds B h in
  let h := init_row_outputs B h in
  let h := init_columns B h in
  wr_inten true h.

(** asdf_arch_atmega2560.c 773-783.  [rows] is a 32-bit word; the result is
    converted to uint8_t. *)
Definition read_row (B : board) (row : N) (h : hw) : N * hw :=
  let rows := N.lnot (N.shiftl 1 row) 32 in
  let h := wr B (PORT PJ) (N.land rows 0xff) h in
  let h := wr B (PORT PA) (N.land (N.shiftr rows 8) 0xff) h in
  (N.lnot (ld B (PIN PC) h) 16 mod 256, h).

(** asdf_arch_atmega2560.c 805-832 (not called by the firmware; the statements
    after the inner return are unreachable).  ASDF_OSI_KBE and ASDF_OSI_RW are
    bits 1 and 2 of the high row port (.h 326-332). *)
Definition osi_read_row (B : board) (row : N) (h : hw) : N * hw :=
  if 7 <? row then read_row B row h
  else
    let h := clear_bit B (PORT PA) 1 h in
    let h := wr B (DDR PC) 0xff h in
    let h := wr B (PORT PC) (N.shiftl 1 row) h in
    let h := clear_bit B (PORT PA) 2 h in
    let h := set_bit B (PORT PA) 2 h in
    let h := wr B (DDR PC) 0 h in
    (ld B (PIN PC) h mod 256, h).

(** asdf_arch_atmega2560.c 854-865; the delay does not touch registers. *)
Definition send_code (B : board) (c : N) (h : hw) : hw :=
  let h := wr B (PORT PH) (N.lxor c (dpol h)) h in
  let h := set_bit B (PIN PB) 4 h in
  set_bit B (PIN PB) 4 h.

(** asdf_physical.c 50-64: the handler of each physical device; NO_OUT has
    asdf_arch_null_output. *)
Definition handler (B : board) (d : nat) (v : N) (h : hw) : hw :=
  match d with
  | 1%nat => out1_set B v h
  | 2%nat => out1_open_hi_set B v h
  | 3%nat => out1_open_lo_set B v h
  | 4%nat => out2_set B v h
  | 5%nat => out2_open_hi_set B v h
  | 6%nat => out2_open_lo_set B v h
  | 7%nat => out3_set B v h
  | 8%nat => out3_open_hi_set B v h
  | 9%nat => out3_open_lo_set B v h
  | 10%nat => led1_set B v h
  | 11%nat => led2_set B v h
  | 12%nat => led3_set B v h
  | _ => h
  end.

(** One call into the architecture layer.  Delays do not touch registers. *)
Definition call (B : board) (e : event) (h : hw) : hw :=
  match e with
  | EvArchInit => arch_init B h
  | EvOut d v => handler B d v h
  | EvPulseShort | EvPulseLong | EvDelayMs _ => h
  | EvStrobePos => set_pos_strobe B h
  | EvStrobeNeg => set_neg_strobe B h
  | EvSend c => send_code B c h
  end.

(** A history of calls and row reads; [m] is what is pressed at the time of the
    read, on a board described by [mk]. *)
Inductive op := OCall (e : event) | ORead (row : N) (m : nat -> N).
Definition step (mk : (nat -> N) -> board) (o : op) (h : hw) : hw :=
  match o with
  | OCall e => call (mk (fun _ => 0)) e h
  | ORead row m => snd (read_row (mk m) row h)
  end.
Fixpoint steps (mk : (nat -> N) -> board) (l : list op) (h : hw) : hw :=
  match l with [] => h | o :: l => steps mk l (step mk o h) end.
