(** Model of Arch/asdf_arch_atmega328p.c on the ASCII interface board. *)
From Coq Require Import List NArith Arith Bool.
From Verif Require Import Devices Avr.
Import ListNotations.
Local Open Scope N_scope.

(** ** The board (hardware/interface-ascii): two 74LS138 decode PC3..PC0 into
    one active row; a 74LS166 shift register loads the eight column lines on a
    rising clock edge (PB2) while SH/LD (PB1) is low and shifts towards its
    output (PB0) while SH/LD is high.  A closed contact of the active row pulls
    its column line low; contacts have diodes, so rows do not influence each
    other.  [m] gives the closed contacts per row, [ser] the serial input,
    [x] the levels on all other input pins. *)
Definition row_of (g : regs) (x : port -> N) : nat := N.to_nat (N.land (levels g x PC) 0x0f).
Definition ext328 (x : port -> N) (q : N) (p : port) : N :=
  match p with PB => N.lor (N.ldiff (x PB) 1) (N.land q 1) | _ => x p end.
Definition shift166 (m : nat -> N) (ser : bool) (x : port -> N) (g g' : regs) (q : N) : N :=
  if negb (level g x PB 2) && level g' x PB 2 then
    if level g' x PB 1 then N.lor (N.shiftr q 1) (if ser then 128 else 0)
    else N.lxor (m (row_of g' x) mod 256) 255
  else q.
Definition board328 (rmw : bool) (m : nat -> N) (ser : bool) (x : port -> N) : board :=
  mkBoard rmw (shift166 m ser x) (fun _ q => ext328 x q).

(** asdf_arch_atmega328p.c 132-138.  The combined word
    TIMER0_WFM_CTC | TIMER0_DIV64 | TIMER0_INT_ON_COMA (.h) puts WGM01 into
    TCCR0A, CS01 and CS00 into TCCR0B and OCIE0A into TIMSK0. *)
Definition timer0_config (h : hw) : hw :=
  let h := wr_tccrb 0 h in
  let h := wr_tccra (2 ^ WGM01) h in
  let h := wr_timsk (2 ^ OCIE0A) h in
  wr_tccrb (N.lor (2 ^ CS01) (2 ^ CS00)) h.

(** asdf_arch_atmega328p.c 154-165; TICK_COUNT: .h 253. *)
Definition TICK_COUNT := 124.
Definition F_CPU := 8000000.
Definition tick_timer_init (h : hw) : hw :=
  timer0_config (wr_ocra TICK_COUNT (wr_flag 0 h)).

(** asdf_arch_atmega328p.c 200-203: CLKPR = (CLKPCE | SYSCLK_DIV1), where
    SYSCLK_DIV1 = 0 (.h 42). *)
Definition init_clock (h : hw) : hw := wr_clkpr (N.lor CLKPCE 0) h.

(** asdf_arch_atmega328p.c 218-223. *)
Definition init_leds (B : board) (h : hw) : hw :=
  let h := set_bit B (DDR PC) 4 h in
  let h := set_bit B (DDR PB) 5 h in
  set_bit B (DDR PB) 4 h.

(** asdf_arch_atmega328p.c 241-249. *)
Definition led1_set (B : board) (v : N) (h : hw) : hw :=
  if v =? 0 then
    set_bit B (PORT PC) 4 h
  else
    clear_bit B (PORT PC) 4 h.

(** asdf_arch_atmega328p.c 266-274. *)
Definition led2_set (B : board) (v : N) (h : hw) : hw :=
  if v =? 0 then
    clear_bit B (PORT PB) 5 h
  else
    set_bit B (PORT PB) 5 h.

(** asdf_arch_atmega328p.c 291-299. *)
Definition led3_set (B : board) (v : N) (h : hw) : hw :=
  if v =? 0 then
    clear_bit B (PORT PB) 4 h
  else
    set_bit B (PORT PB) 4 h.

(** asdf_arch_atmega328p.c 315-324. *)
Definition out1_set (B : board) (v : N) (h : hw) : hw :=
  let h := if v =? 0 then clear_bit B (PORT PC) 5 h else set_bit B (PORT PC) 5 h in
  set_bit B (DDR PC) 5 h.

(** asdf_arch_atmega328p.c 340-350. *)
Definition out1_open_hi_set (B : board) (v : N) (h : hw) : hw :=
  if v =? 0 then
    let h := clear_bit B (PORT PC) 5 h in
    set_bit B (DDR PC) 5 h
  else
    let h := clear_bit B (DDR PC) 5 h in
    set_bit B (PORT PC) 5 h.

(** asdf_arch_atmega328p.c 366-376. *)
Definition out1_open_lo_set (B : board) (v : N) (h : hw) : hw :=
  if v =? 0 then
    let h := clear_bit B (DDR PC) 5 h in
    clear_bit B (PORT PC) 5 h
  else
    let h := set_bit B (PORT PC) 5 h in
    set_bit B (DDR PC) 5 h.

(** asdf_arch_atmega328p.c 393-402. *)
Definition out2_set (B : board) (v : N) (h : hw) : hw :=
  let h := if v =? 0 then set_bit B (PORT PB) 3 h else clear_bit B (PORT PB) 3 h in
  set_bit B (DDR PB) 3 h.

(** asdf_arch_atmega328p.c 437-440 and 456-459: both call asdf_arch_null_output (418-421), which does nothing. *)
Definition out2_open_hi_set (B : board) (v : N) (h : hw) : hw := h.
Definition out2_open_lo_set (B : board) (v : N) (h : hw) : hw := h.

(** asdf_arch_atmega328p.c 475-484. *)
Definition out3_set (B : board) (v : N) (h : hw) : hw :=
  let h := if v =? 0 then clear_bit B (PORT PB) 7 h else set_bit B (PORT PB) 7 h in
  set_bit B (DDR PB) 7 h.

(** asdf_arch_atmega328p.c 500-510. *)
Definition out3_open_hi_set (B : board) (v : N) (h : hw) : hw :=
  if v =? 0 then
    let h := clear_bit B (PORT PB) 7 h in
    set_bit B (DDR PB) 7 h
  else
    let h := clear_bit B (DDR PB) 7 h in
    set_bit B (PORT PB) 7 h.

(** asdf_arch_atmega328p.c 526-536. *)
Definition out3_open_lo_set (B : board) (v : N) (h : hw) : hw :=
  if v =? 0 then
    let h := clear_bit B (DDR PB) 7 h in
    clear_bit B (PORT PB) 7 h
  else
    let h := set_bit B (PORT PB) 7 h in
    set_bit B (DDR PB) 7 h.

(** asdf_arch_atmega328p.c 551-555. *)
Definition set_pos_strobe (B : board) (h : hw) : hw :=
  let h := clear_bit B (PORT PB) 6 h in
  set_bit B (DDR PB) 6 h.

(** asdf_arch_atmega328p.c 569-573. *)
Definition set_neg_strobe (B : board) (h : hw) : hw :=
  let h := set_bit B (PORT PB) 6 h in
  set_bit B (DDR PB) 6 h.

(** asdf_arch_atmega328p.c 587-593. *)
Definition init_ascii_output (B : board) (h : hw) : hw :=
  let h := wr B (PORT PD) (dpol h) h in
  wr B (DDR PD) 0xff h.

(** asdf_arch_atmega328p.c 608-622. *)
Definition init_column_control (B : board) (h : hw) : hw :=
  let h := clear_bit B (PORT PB) 2 h in
  let h := set_bit B (DDR PB) 2 h in
  let h := set_bit B (PORT PB) 1 h in
  let h := set_bit B (DDR PB) 1 h in
  let h := clear_bit B (DDR PB) 0 h in
  clear_bit B (PORT PB) 0 h.

(** asdf_arch_atmega328p.c 636-640. *)
Definition init_row_outputs (B : board) (h : hw) : hw :=
  let h := wr B (PORT PC) (N.ldiff (ld B (PORT PC) h) 0x0f) h in
  wr B (DDR PC) (N.lor (ld B (DDR PC) h) 0x0f) h.

(** asdf_arch_atmega328p.c 711-747.  ASDF_DEFAULT_STROBE_POLARITY =
    ASDF_POSITIVE_POLARITY and ASDF_DEFAULT_DATA_POLARITY = 0
    (asdf_config.h 34-41). *)
Definition arch_init (B : board) (h : hw) : hw :=
  let h := wr_inten false h in
  let h := wr_flag 0 h in
  let h := init_clock h in
  let h := tick_timer_init h in
  let h := init_ascii_output B h in
  let h := wr_dpol 0 h in
  let h := set_pos_strobe B h in
  let h := init_leds B h in
  let h := init_leds B h in
  let h := init_row_outputs B h in
  let h := init_column_control B h in
  wr_inten true h.

(** asdf_arch_atmega328p.c 788-799: the loop over the columns. *)
Fixpoint read_cols (B : board) (n : nat) (i : N) (cols : N) (h : hw) : N * hw :=
  match n with
  | O => (cols, h)
  | S k =>
    let cols := N.lor cols (N.shiftl (N.land (N.shiftr (N.lnot (ld B (PIN PB) h) 16) 0) 1) i) in
    let h := set_bit B (PORT PB) 2 h in
    let h := clear_bit B (PORT PB) 2 h in
    read_cols B k (i + 1) (cols mod 256) h
  end.

(** asdf_arch_atmega328p.c 770-801. *)
Definition read_row (B : board) (row : N) (h : hw) : N * hw :=
  let h := wr B (PORT PC) (N.lor (N.ldiff (ld B (PORT PC) h) 0x0f) (N.shiftl (N.land row 0x0f) 0)) h in
  let h := clear_bit B (PORT PB) 1 h in
  let h := set_bit B (PORT PB) 2 h in
  let h := clear_bit B (PORT PB) 2 h in
  let h := set_bit B (PORT PB) 1 h in
  read_cols B 8 0 0 h.

(** asdf_arch_atmega328p.c 823-834; the delay does not touch registers. *)
Definition send_code (B : board) (c : N) (h : hw) : hw :=
  let h := wr B (PORT PD) (N.lxor c (dpol h)) h in
  let h := set_bit B (PIN PB) 6 h in
  set_bit B (PIN PB) 6 h.

(** asdf_physical.c 50-64: the handler of each physical device; NO_OUT has
    asdf_arch_null_output. *)
Definition handler (B : board) (d : nat) (v : N) (h : hw) : hw :=
  match d with
  | 1%nat => out1_set B v h
  | 2%nat => out1_open_hi_set B v h
  | 3%nat => out1_open_lo_set B v h
  | 4%nat => out2_set B v h
  | 5%nat => out2_open_hi_set B v h
  | 6%nat => out2_open_lo_set B v h
  | 7%nat => out3_set B v h
  | 8%nat => out3_open_hi_set B v h
  | 9%nat => out3_open_lo_set B v h
  | 10%nat => led1_set B v h
  | 11%nat => led2_set B v h
  | 12%nat => led3_set B v h
  | _ => h
  end.

(** One call into the architecture layer.  Delays do not touch registers. *)
Definition call (B : board) (e : event) (h : hw) : hw :=
  match e with
  | EvArchInit => arch_init B h
  | EvOut d v => handler B d v h
  | EvPulseShort | EvPulseLong | EvDelayMs _ => h
  | EvStrobePos => set_pos_strobe B h
  | EvStrobeNeg => set_neg_strobe B h
  | EvSend c => send_code B c h
  end.

(** A history of calls and row reads; [m] is what is pressed at the time of the
    read, on a board described by [mk]. *)
Inductive op := OCall (e : event) | ORead (row : N) (m : nat -> N).
Definition step (mk : (nat -> N) -> board) (o : op) (h : hw) : hw :=
  match o with
  | OCall e => call (mk (fun _ => 0)) e h
  | ORead row m => snd (read_row (mk m) row h)
  end.
Fixpoint steps (mk : (nat -> N) -> board) (l : list op) (h : hw) : hw :=
  match l with [] => h | o :: l => steps mk l (step mk o h) end.
