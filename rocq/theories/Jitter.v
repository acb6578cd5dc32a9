(** The firmware in real time with computing that takes time: as Timed.v, but
    timer interrupts may occur anywhere.

    The program is cut into pieces: between two architecture calls or row reads,
    before the flag is loaded, and between the load and the clear of the flag
    (main.c 66-68; asdf_arch_tick, Arch/asdf_arch_atmega328p.c 181-186,
    atmega2560.c 182-187).  [P i] is the number of interrupts that occur during
    the [i]-th piece, counted from power-on.  [P] is arbitrary: the theorems hold
    however long each piece takes.  With [P] zero everywhere this is Timed.v.
    Simplification: an interrupt during an architecture call or row read counts
    as one just before it; a delay of n ms spans n interrupts (more, if P says
    so). *)
From Coq Require Import List NArith Arith Bool.
From Verif Require Import Base Lib Buffer Repeat Devices Modifiers Hook KeymapData Asdf System Timed.
Import ListNotations.
Local Open Scope outcome_scope.

(** The clock and the number of pieces run so far. *)
Record jclk := mkJ { jc : clk; piece : nat }.

(** One piece of computing: the interrupt handler (atmega328p.c 64-67,
    atmega2560.c 65-68) sets the flag. *)
Definition lapse (P : nat -> nat) (x : jclk) : jclk := mkJ (pause (P (piece x)) (jc x)) (S (piece x)).

(** An architecture call: computing, then what the call does. *)
Definition jspend (P : nat -> nat) (e : event) (x : jclk) : jclk :=
  let y := lapse P x in mkJ (spend e (jc y)) (piece y).

(** main.c 66-68 with asdf_arch_tick: computing; the flag is loaded, at once if
    it is set, else after the next interrupt; more interrupts between load and
    clear; the flag is cleared. *)
Definition jwait (P : nat -> nat) (x : jclk) : jclk :=
  let y := lapse P x in
  let c := jc y in
  let z := lapse P (mkJ (if flag c then c else mkClk (S (now c)) true (stamps c)) (piece y)) in
  mkJ (mkClk (now (jc z)) false (stamps (jc z))) (piece z).

(** Computing, then the row is read as the keys are at that time. *)
Definition jwatch (P : nat -> nat) (W : nat -> nat -> N) : machine jclk :=
  mkMachine _ (jspend P) (fun _ row x => let y := lapse P x in (W (now (jc y)) (N.to_nat row), y)).
Definition jtimed {H} (M : machine H) (P : nat -> nat) (W : nat -> nat -> N) : machine (H * jclk) :=
  mkMachine _ (fun e x => (m_call M e (fst x), jspend P e (snd x)))
    (fun _ row x => let y := lapse P (snd x) in
       let (v, h) := m_read M (W (now (jc y))) row (fst x) in (v, (h, y))).

(** main.c 61-80: [n] passes of the main loop from power-on; the firmware with its clock, and
    on a board. *)
Definition jreal (P : nat -> nat) (W : nat -> nat -> N) (n : nat) : outcome (kb * jclk) :=
  live (jwait P) (jwatch P W) n (mkJ clk0 0).
Definition jreal_on {H} (M : machine H) (P : nat -> nat) (W : nat -> nat -> N) (n : nat) (h : H) : outcome (kb * (H * jclk)) :=
  live (fun x => (fst x, jwait P (snd x))) (jtimed M P W) n (h, mkJ clk0 0).
