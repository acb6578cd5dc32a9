(** The firmware running on a board: the main loop of main.c and the scanner of
    asdf.c, with every row read through the ports of the processor and every
    architecture call carried out on them.

    [Asdf.v] takes the row readings as inputs and lists the architecture calls
    in a log; here both are connected to a machine.  Between two row reads the
    firmware does not look at the ports, so the calls made while one row is
    processed are carried out, in their order, before the next row is read. *)
From Coq Require Import List NArith Arith Bool.
From Verif Require Import Base Lib Buffer Repeat Devices Modifiers Hook KeymapData Asdf.
From Verif Require Avr Arch328p Arch2560.
Import ListNotations.
Local Open Scope outcome_scope.

(** A machine with state [H]: how it carries out an architecture call, and what
    asdf_arch_read_row returns on it when the closed keys of row r are the bits
    of [m r]. *)
Record machine (H : Type) := mkMachine {
  m_call : event -> H -> H;
  m_read : (nat -> N) -> N -> H -> N * H
}.
Arguments m_call {H} _ _ _.
Arguments m_read {H} _ _ _ _.

(** The boards: Arch/asdf_arch_atmega328p.c and Arch/asdf_arch_atmega2560.c as
    modelled in Arch328p.v and Arch2560.v.  [rmw]: single-bit writes compiled to
    read-modify-write sequences; [ser]: level at the serial input of the shift
    register; [x]: levels at undriven pins. *)
Definition board_328p (rmw ser : bool) (x : Avr.port -> N) : machine Avr.hw :=
  mkMachine _ (Arch328p.call (Arch328p.board328 rmw (fun _ => 0%N) ser x))
    (fun m row h => Arch328p.read_row (Arch328p.board328 rmw m ser x) row h).
Definition board_2560 (rmw : bool) (x : Avr.port -> N) : machine Avr.hw :=
  mkMachine _ (Arch2560.call (Arch2560.board2560 rmw (fun _ => 0%N) x))
    (fun m row h => Arch2560.read_row (Arch2560.board2560 rmw m x) row h).

(** The calls made between two states, oldest first (the log is newest first). *)
Definition fresh (s s' : kb) : list event :=
  rev (firstn (length (log (k_dev s')) - length (log (k_dev s))) (log (k_dev s'))).
Definition perform {H} (M : machine H) (s s' : kb) (h : H) : H :=
  fold_left (fun h e => m_call M e h) (fresh s s') h.

(** asdf.c 569-586: the row loop of asdf_keyscan.  [mm row] is the key matrix at
    the moment row [row] is read; it may change from one row to the next. *)
Fixpoint sys_rows {H} (M : machine H) (fuel : nat) (mm : nat -> nat -> N) (row : nat) (s : kb) (h : H) : outcome (kb * H) :=
  match fuel with
  | O => Bad UDiverge
  | S f =>
    nr <- num_rows s ;;
    if row <? nr then
      let (v, h1) := m_read M (mm row) (N.of_nat row) h in
      let state := u8 v in
      st <- lget UScanOob (k_stable s) row ;;
      s1 <- cols_loop 256 row 0 state (N.lxor state st) s ;;
      sys_rows M f mm (S row) s1 (perform M s s1 h1)
    else Ok (s, h)
  end.

(** asdf.c 564-587. *)
Definition sys_scan {H} (M : machine H) (mm : nat -> nat -> N) (s : kb) (h : H) : outcome (kb * H) :=
  f <- hook_get HOOK_ROW_SCANNER (k_hook s) ;;
  match f with
  | HReadRow =>
      s1 <- hook_execute HOOK_EACH_SCAN s ;;
      sys_rows M 256 mm 0 s1 (perform M s s1 h)
  | _ => Bad UHookType
  end.

(** main.c 68-78: the body of the loop when a tick is due. *)
Definition sys_tick {H} (M : machine H) (mm : nat -> nat -> N) (s : kb) (h : H) : outcome (kb * H) :=
  '(code, s1) <- next_code s ;;
  s2 <- (if (code <? INVALID)%N then output code s1 else Ok s1) ;;
  sys_scan M mm s2 (perform M s s2 h).

(** main.c 66-79: one pass per element. *)
Fixpoint sys_ticks {H} (M : machine H) (mms : list (nat -> nat -> N)) (s : kb) (h : H) : outcome (kb * H) :=
  match mms with
  | [] => Ok (s, h)
  | mm :: t => '(s1, h1) <- sys_tick M mm s h ;; sys_ticks M t s1 h1
  end.

(** main.c 61-80 from power-on, with the ports in state [h]. *)
Definition sys_run {H} (M : machine H) (mms : list (nat -> nat -> N)) (h : H) : outcome (kb * H) :=
  s <- boot ;; sys_ticks M mms s (perform M kb_zero s h).
