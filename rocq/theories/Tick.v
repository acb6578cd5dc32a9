(** Model of the 1 ms flag shared by the timer interrupt and the main loop:
    ISR(TIMER0_COMPA_vect) and asdf_arch_tick (Arch/asdf_arch_atmega328p.c 64-67,
    181-186; Arch/asdf_arch_atmega2560.c 65-68, 182-187) and the polling loop of
    main.c 66-79.  The flag is one byte, so each load and each store of it is
    atomic; the interrupt can run between any two of them. *)
From Coq Require Import List Arith Bool.
Import ListNotations.

(** Where the main loop stands: about to load the flag (`retval = tick`), about
    to clear it (`tick = 0`) holding the loaded value, or working on a tick. *)
Inductive pc := Poll | Got (v : bool) | Work.
Record mstate := mkM { mflag : bool; mpc : pc }.

(** After tick_timer_init (328p.c 156, 2560.c 157: `tick = 0`). *)
Definition m0 : mstate := mkM false Poll.

(** What happens next: the interrupt, or one atomic step of the main loop. *)
Inductive who := Timer | Main.
(** What an observer sees: an interrupt, the flag being loaded with the value
    that asdf_arch_tick will return, the flag being cleared, the end of the work. *)
Inductive ev := Irq | Load (v : bool) | Clear | Done.

(** ISR (atmega328p.c 66), asdf_arch_tick (183, 184), main.c 68-78. *)
Definition mstep (w : who) (s : mstate) : mstate * ev :=
  match w with
  | Timer => (mkM true (mpc s), Irq)
  | Main =>
      match mpc s with
      | Poll => (mkM (mflag s) (Got (mflag s)), Load (mflag s))
      | Got v => (mkM false (if v then Work else Poll), Clear)
      | Work => (mkM (mflag s) Poll, Done)
      end
  end.

(** The events of a schedule, oldest first, and the state after it. *)
Fixpoint mrun (l : list who) (s : mstate) : list ev * mstate :=
  match l with
  | [] => ([], s)
  | w :: l => let (s1, e) := mstep w s in let (t, s2) := mrun l s1 in (e :: t, s2)
  end.
