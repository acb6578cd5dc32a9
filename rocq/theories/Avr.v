(** The part of an AVR microcontroller the firmware uses: port registers, the
    clock prescaler register, timer 0 registers, and a ghost record of every
    state the port registers pass through.

    The hardware behaviour follows the ATmega328P and ATmega2560 data sheets
    (chapters I/O-Ports, System Clock, 8-bit Timer/Counter0); bit numbers come from avr/io.h.  Neither is
    part of /repo, so this file belongs to the trusted base. *)
From Coq Require Import List NArith Bool.
Import ListNotations.
Local Open Scope N_scope.

(** The ports used (asdf_arch_atmega328p.h, asdf_arch_atmega2560.h). *)
Inductive port := PA | PB | PC | PD | PH | PJ.
Definition port_eqb (p q : port) : bool :=
  match p, q with
  | PA, PA | PB, PB | PC, PC | PD, PD | PH, PH | PJ, PJ => true
  | _, _ => false
  end.

(** DDRx and PORTx, all ports. *)
Record regs := mkRegs { ddr : port -> N; prt : port -> N }.
Definition updp (f : port -> N) (p : port) (v : N) : port -> N := fun q => if port_eqb p q then v else f q.

(** What a pin does to the wire it is connected to. *)
Inductive drv := Low | High | Pullup | Float.
Definition drive (g : regs) (p : port) (b : N) : drv :=
  if N.testbit (ddr g p) b
  then (if N.testbit (prt g p) b then High else Low)
  else (if N.testbit (prt g p) b then Pullup else Float).

(** Registers a program can name. *)
Inductive reg := DDR (p : port) | PORT (p : port) | PIN (p : port).

(** Writing a one to a bit of PINx toggles the bit of PORTx. *)
Definition store (r : reg) (v : N) (g : regs) : regs :=
  match r with
  | DDR p => mkRegs (updp (ddr g) p (v mod 256)) (prt g)
  | PORT p => mkRegs (ddr g) (updp (prt g) p (v mod 256))
  | PIN p => mkRegs (ddr g) (updp (prt g) p (N.lxor (prt g p) (v mod 256)))
  end.

(** Levels on the pins of a port: an output pin has the level it drives, an
    input pin the level the outside ([x]) puts on it. *)
Definition levels (g : regs) (x : port -> N) (p : port) : N :=
  N.lor (N.land (prt g p) (ddr g p)) (N.ldiff (x p) (ddr g p)).
Definition level (g : regs) (x : port -> N) (p : port) (b : N) : bool := N.testbit (levels g x p) b.

(** All registers used, with the static variables of the architecture files
    (asdf_arch_atmega328p.c 45-47, asdf_arch_atmega2560.c 46-49). *)
Record hw := mkHw {
  io : regs;
  sr : N;                    (* contents of a shift register on the board *)
  clkps : N; clken : bool;   (* clock prescaler; change enable (CLKPCE) in effect *)
  tccra : N; tccrb : N; ocra : N; timsk : N; (* timer 0 *)
  inten : bool;              (* global interrupt enable *)
  flag : N;                  (* the variable tick *)
  dpol : N;                  (* the variable data_polarity *)
  hist : list regs           (* ghost: port registers after every write, newest first *)
}.

(** The board around the microcontroller, and how the compiler translates
    single-bit updates of a port. *)
Record board := mkBoard {
  b_rmw : bool;                              (* read, modify, write instead of SBI/CBI *)
  b_next : regs -> regs -> N -> N;           (* shift register, on a change of the pins *)
  b_ext : regs -> N -> port -> N             (* levels put on input pins *)
}.

(** Data sheets, I/O-Ports: writing and reading a port register. *)
Definition wr (B : board) (r : reg) (v : N) (h : hw) : hw :=
  let g := store r v (io h) in
  mkHw g (b_next B (io h) g (sr h)) (clkps h) (clken h) (tccra h) (tccrb h) (ocra h) (timsk h)
       (inten h) (flag h) (dpol h) (g :: hist h).

Definition ld (B : board) (r : reg) (h : hw) : N :=
  match r with
  | DDR p => ddr (io h) p
  | PORT p => prt (io h) p
  | PIN p => levels (io h) (b_ext B (io h) (sr h)) p
  end.

(** `*port |= (1 << bit)` and `*port &= ~(1 << bit)` (asdf_arch_atmega328p.c
    85-88 and 106-109, asdf_arch_atmega2560.c 86-89 and 107-110).  Inlined with
    a constant low I/O address (-O1, -Os) they are the SBI and CBI
    instructions, which write one bit; SBI on a PINx register therefore
    toggles one bit only.  Compiled as a function (-O0) they read the register,
    set the bit and write the whole register back. *)
Definition set_bit (B : board) (r : reg) (b : N) (h : hw) : hw :=
  match r with
  | PIN _ => wr B r (if b_rmw B then N.lor (ld B r h) (2 ^ b) else 2 ^ b) h
  | _ => wr B r (N.lor (ld B r h) (2 ^ b)) h
  end.
Definition clear_bit (B : board) (r : reg) (b : N) (h : hw) : hw :=
  wr B r (N.ldiff (ld B r h) (2 ^ b)) h.

(** Writing CLKPR: the value 0x80 (CLKPCE alone) enables a change; while
    enabled, the next write sets the prescaler; otherwise a write has no
    effect.  (The four-cycle limit is not modelled: the change enable lasts
    until the next write.) *)
Definition wr_clkpr (v : N) (h : hw) : hw :=
  if v mod 256 =? 0x80 then
    mkHw (io h) (sr h) (clkps h) true (tccra h) (tccrb h) (ocra h) (timsk h) (inten h) (flag h) (dpol h) (hist h)
  else if clken h then
    mkHw (io h) (sr h) (v mod 16) false (tccra h) (tccrb h) (ocra h) (timsk h) (inten h) (flag h) (dpol h) (hist h)
  else h.

(** Timer 0: TCCR0A, TCCR0B, OCR0A, TIMSK0 (asdf_arch_atmega328p.c 132-165,
    asdf_arch_atmega2560.c 133-166). *)
Definition wr_tccra (v : N) (h : hw) : hw :=
  mkHw (io h) (sr h) (clkps h) (clken h) (v mod 256) (tccrb h) (ocra h) (timsk h) (inten h) (flag h) (dpol h) (hist h).
Definition wr_tccrb (v : N) (h : hw) : hw :=
  mkHw (io h) (sr h) (clkps h) (clken h) (tccra h) (v mod 256) (ocra h) (timsk h) (inten h) (flag h) (dpol h) (hist h).
Definition wr_ocra (v : N) (h : hw) : hw :=
  mkHw (io h) (sr h) (clkps h) (clken h) (tccra h) (tccrb h) (v mod 256) (timsk h) (inten h) (flag h) (dpol h) (hist h).
Definition wr_timsk (v : N) (h : hw) : hw :=
  mkHw (io h) (sr h) (clkps h) (clken h) (tccra h) (tccrb h) (ocra h) (v mod 256) (inten h) (flag h) (dpol h) (hist h).
(** Global interrupt enable (sei), and the variables of the architecture file
    (asdf_arch_atmega328p.c 45-47, asdf_arch_atmega2560.c 46-49). *)
Definition wr_inten (x : bool) (h : hw) : hw :=
  mkHw (io h) (sr h) (clkps h) (clken h) (tccra h) (tccrb h) (ocra h) (timsk h) x (flag h) (dpol h) (hist h).
Definition wr_flag (x : N) (h : hw) : hw :=
  mkHw (io h) (sr h) (clkps h) (clken h) (tccra h) (tccrb h) (ocra h) (timsk h) (inten h) x (dpol h) (hist h).
Definition wr_dpol (x : N) (h : hw) : hw :=
  mkHw (io h) (sr h) (clkps h) (clken h) (tccra h) (tccrb h) (ocra h) (timsk h) (inten h) (flag h) x (hist h).

(** avr/io.h: bit numbers. *)
Definition CLKPCE := 7.
Definition WGM01 := 1.
Definition CS00 := 0.
Definition CS01 := 1.
Definition OCIE0A := 1.

(** Port registers at reset: all pins inputs, no pull-ups.  The rest of the
    state is arbitrary, except that a prescaler change is not enabled. *)
Definition at_reset (h : hw) : Prop :=
  (forall p, ddr (io h) p = 0) /\ (forall p, prt (io h) p = 0) /\ clken h = false /\ hist h = [] /\ dpol h = 0.
