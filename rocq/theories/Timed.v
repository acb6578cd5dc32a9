(** The firmware in real time: the main loop of main.c 61-80 driven by the 1 ms
    interrupt (Arch/asdf_arch_atmega328p.c 64-67, 181-186; atmega2560.c 65-68,
    182-187), with keys that move as time passes.

    Time is counted in timer interrupts, one per millisecond.  Simplification:
    computing, the strobe pulse and the short output pulse (10 us each,
    asdf_arch_atmega328p.h 38, asdf_config.h 78) take no time, so interrupts fall
    only into the waiting loop of main.c and into the delays of whole
    milliseconds; what can happen when an interrupt falls between load and clear
    of the flag is the subject of Tick.v. *)
From Coq Require Import List NArith Arith Bool.
From Verif Require Import Base Lib Buffer Repeat Devices Modifiers Hook KeymapData Asdf System.
Import ListNotations.
Local Open Scope outcome_scope.

(** [now]: interrupts since power-on; [flag]: the flag set by the interrupt;
    [stamps]: the codes sent with their times, newest first. *)
Record clk := mkClk { now : nat; flag : bool; stamps : list (nat * N) }.
Definition clk0 : clk := mkClk 0 false [].

(** A delay of [n] ms contains [n] interrupts. *)
Definition pause (n : nat) (c : clk) : clk := mkClk (now c + n) (flag c || (0 <? n)) (stamps c).

(** What an architecture call does to the clock: asdf_arch_delay_ms
    (atmega328p.c 692-697, atmega2560.c 696-701), asdf_arch_pulse_delay_long
    (675-678, 679-682; ASDF_PULSE_DELAY_LONG_MS = 50, asdf_config.h 81),
    asdf_arch_init (717, 721: tick = 0), asdf_arch_send_code. *)
Definition spend (e : event) (c : clk) : clk :=
  match e with
  | EvDelayMs d => pause (N.to_nat d) c
  | EvPulseLong => pause 50 c
  | EvArchInit => mkClk (now c) false (stamps c)
  | EvSend x => mkClk (now c) (flag c) ((now c, x) :: stamps c)
  | _ => c
  end.

(** main.c 66-68: `if (asdf_arch_tick())` is passed at once if an interrupt
    occurred since the flag was cleared last, otherwise after the next one. *)
Definition wait (c : clk) : clk := mkClk (if flag c then now c else S (now c)) false (stamps c).

(** [W t row]: the closed keys of row [row] at time [t].  The clock alone, and a
    board together with the clock. *)
Definition watch (W : nat -> nat -> N) : machine clk :=
  mkMachine _ spend (fun _ row c => (W (now c) (N.to_nat row), c)).
Definition timed {H} (M : machine H) (W : nat -> nat -> N) : machine (H * clk) :=
  mkMachine _ (fun e x => (m_call M e (fst x), spend e (snd x)))
    (fun _ row x => let (v, h) := m_read M (W (now (snd x))) row (fst x) in (v, (h, snd x))).

(** main.c 66-79: [n] passes of the loop body, each after a wait. *)
Fixpoint passes {H} (w : H -> H) (M : machine H) (n : nat) (s : kb) (h : H) : outcome (kb * H) :=
  match n with
  | O => Ok (s, h)
  | S k => '(s1, h1) <- sys_tick M (fun _ _ => 0%N) s (w h) ;; passes w M k s1 h1
  end.
(** main.c 61-80, from power-on. *)
Definition live {H} (w : H -> H) (M : machine H) (n : nat) (h : H) : outcome (kb * H) :=
  s <- boot ;; passes w M n s (perform M kb_zero s h).

(** The firmware with its clock, and on the two boards. *)
Definition real (W : nat -> nat -> N) (n : nat) : outcome (kb * clk) := live wait (watch W) n clk0.
Definition real_on {H} (M : machine H) (W : nat -> nat -> N) (n : nat) (h : H) : outcome (kb * (H * clk)) :=
  live (fun x => (fst x, wait (snd x))) (timed M W) n (h, clk0).
