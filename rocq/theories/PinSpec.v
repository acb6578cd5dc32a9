(** What a pin should show after a sequence of calls (for C76, C77). *)
From Coq Require Import List NArith Bool.
From Verif Require Import Devices Avr ArchLib.
Import ListNotations.
Local Open Scope N_scope.

(** The last call on a device owning pin [b] of port [p]: device and value. *)
Definition last_step (own : nat -> port -> N -> bool) (p : port) (b : N) (o : option (nat * N)) (e : event) : option (nat * N) :=
  match e with EvOut d v => if own d p b then Some (d, v) else o | _ => o end.
Definition last_on (own : nat -> port -> N -> bool) (p : port) (b : N) (l : list event) : option (nat * N) :=
  fold_left (last_step own p b) l None.

(** The pin shows the value of that call in the manner of that device; before
    the first such call an LED pin is driven low and an output pin floats. *)
Definition expected (own : nat -> port -> N -> bool) (shows : nat -> bool -> drv) (led : port -> N -> bool) (p : port) (b : N) (l : list event) : drv :=
  match last_on own p b l with
  | Some (d, v) => shows d (negb (v =? 0))
  | None => if led p b then Low else Float
  end.

Lemma expected_snoc : forall own shows led p b l e, expected own shows led p b (l ++ [e]) =
  match e with EvOut d v => if own d p b then shows d (negb (v =? 0)) else expected own shows led p b l | _ => expected own shows led p b l end.
Proof.
  intros. unfold expected, last_on. rewrite fold_left_app. cbn [fold_left]. set (o := fold_left _ l None).
  destruct e; try reflexivity. cbn [last_step]. destruct (own d p b); reflexivity.
Qed.

(** Pins of LEDs, and all pins of LEDs and outputs (asdf_arch_atmega328p.h
    208-236, asdf_arch_atmega2560.h 282-321). *)
Definition led328 (p : port) (b : N) : bool := pin PC 4 p b || pin PB 5 p b || pin PB 4 p b.
Definition dev328 (p : port) (b : N) : bool := led328 p b || pin PC 5 p b || pin PB 3 p b || pin PB 7 p b.
Definition led2560 (p : port) (b : N) : bool := pin PD 5 p b || pin PD 6 p b || pin PD 7 p b.
Definition dev2560 (p : port) (b : N) : bool := led2560 p b || pin PB 5 p b || pin PB 6 p b || pin PB 7 p b.
