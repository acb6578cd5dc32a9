(** Model of Arch/asdf_arch_test.c: the architecture the unit tests link
    against.  It records what would have been put on the outputs. *)
From Coq Require Import List NArith Arith Bool.
From Verif Require Import Base Devices.
Import ListNotations.
Local Open Scope outcome_scope.

(** asdf_arch_test.h 36-52: pulse_state_t. *)
Definition PD_INITIAL := 0.
Definition PD_STABLE_LOW := 1.
Definition PD_STABLE_HIGH := 2.
Definition PD_TRANSITION_LOW := 3.
Definition PD_TRANSITION_HIGH := 4.
Definition PD_DELAY_LOW := 5.
Definition PD_DELAY_HIGH := 6.
Definition PD_PULSE_HIGH := 7.
Definition PD_PULSE_LOW := 8.
Definition PD_NUM_VALID := 9.
Definition PD_ERR_DOUBLE_DELAY := 10.
Definition PD_ERR_NO_TRANSITION_BEFORE := 12.
Definition PD_ERR_NO_TRANSITION_AFTER := 13.
Definition PD_ERR_FROM_INITIAL := 15.

(** asdf_arch_test.c 42-47: pulse_event_t. *)
Inductive pevent := PSetHigh | PSetLow | PDelay.

(** asdf_arch_test.c 49-105: a row of pulse_transition_table (set high, set low, delay). *)
Definition row := (nat * nat * nat)%type.
Definition pulse_table : list row :=
  [ (PD_STABLE_HIGH, PD_STABLE_LOW, PD_ERR_FROM_INITIAL);                        (* INITIAL *)
    (PD_TRANSITION_HIGH, PD_STABLE_LOW, PD_ERR_NO_TRANSITION_BEFORE);            (* STABLE_LOW *)
    (PD_STABLE_HIGH, PD_TRANSITION_LOW, PD_ERR_NO_TRANSITION_BEFORE);            (* STABLE_HIGH *)
    (PD_TRANSITION_HIGH, PD_STABLE_LOW, PD_DELAY_LOW);                           (* TRANSITION_LOW *)
    (PD_STABLE_HIGH, PD_TRANSITION_LOW, PD_DELAY_HIGH);                          (* TRANSITION_HIGH *)
    (PD_PULSE_LOW, PD_ERR_NO_TRANSITION_AFTER, PD_ERR_DOUBLE_DELAY);             (* DELAY_LOW *)
    (PD_ERR_NO_TRANSITION_AFTER, PD_PULSE_HIGH, PD_ERR_DOUBLE_DELAY);            (* DELAY_HIGH *)
    (PD_TRANSITION_HIGH, PD_STABLE_LOW, PD_ERR_NO_TRANSITION_BEFORE);            (* PULSE_HIGH_DETECTED *)
    (PD_STABLE_HIGH, PD_TRANSITION_LOW, PD_ERR_NO_TRANSITION_BEFORE) ].          (* PULSE_LOW_DETECTED *)

(** asdf_arch_test.c 195: indexing such a row. *)
Definition row_entry (r : row) (e : pevent) : nat :=
  let '(h, l, d) := r in match e with PSetHigh => h | PSetLow => l | PDelay => d end.

(** asdf_arch_test.c 189-198. *)
Definition pulse_detect (st : nat) (e : pevent) : outcome nat :=
  if st <? PD_NUM_VALID then r <- lget UDevOob pulse_table st ;; Ok (row_entry r e) else Ok st.

(** asdf_arch_test.c 107-113: outputs, pulses, code_register, code_sent. *)
Record rec := mkRec { t_out : list N; t_pulse : list nat; t_code : N; t_sent : N }.

(** asdf_arch_test.c 609-618 (code_register keeps its value). *)
Definition t_init (s : rec) : rec := mkRec (repeat 0%N num_phys) (repeat PD_INITIAL num_phys) (t_code s) 0.

(** asdf_arch_test.c 217-223. *)
Definition t_set_output (dev : nat) (v : N) (s : rec) : outcome rec :=
  o <- lset UDevOob (t_out s) dev v ;;
  st <- lget UDevOob (t_pulse s) dev ;;
  st' <- pulse_detect st (if (v =? 0)%N then PSetLow else PSetHigh) ;;
  p <- lset UDevOob (t_pulse s) dev st' ;;
  Ok (mkRec o p (t_code s) (t_sent s)).

(** asdf_arch_test.c 239-242, 257-260, 274-277, 291-294, 310-313, 330-332,
    349-351, 365-368, 386-388, 405-407, 423-426, 443-445, 462-464. *)
Definition t_null_output := t_set_output NO_OUT.
Definition t_led1_set := t_set_output LED1.
Definition t_led2_set := t_set_output LED2.
Definition t_led3_set := t_set_output LED3.
Definition t_out1_set := t_set_output OUT1.
Definition t_out1_open_hi_set := t_set_output OUT1_OPEN_HI.
Definition t_out1_open_lo_set := t_set_output OUT1_OPEN_HI.
Definition t_out2_set := t_set_output OUT2.
Definition t_out2_open_hi_set := t_set_output OUT1_OPEN_HI.
Definition t_out2_open_lo_set := t_set_output OUT1_OPEN_HI.
Definition t_out3_set := t_set_output OUT3.
Definition t_out3_open_hi_set := t_set_output OUT1_OPEN_HI.
Definition t_out3_open_lo_set := t_set_output OUT1_OPEN_HI.

(** asdf_physical.c 50-64: physical_device_table, the handlers. *)
Definition t_handler (d : nat) : N -> rec -> outcome rec :=
  match d with
  | 0 => t_null_output
  | 1 => t_out1_set
  | 2 => t_out1_open_hi_set
  | 3 => t_out1_open_lo_set
  | 4 => t_out2_set
  | 5 => t_out2_open_hi_set
  | 6 => t_out2_open_lo_set
  | 7 => t_out3_set
  | 8 => t_out3_open_hi_set
  | 9 => t_out3_open_lo_set
  | 10 => t_led1_set
  | 11 => t_led2_set
  | 12 => t_led3_set
  | _ => fun _ _ => Bad UDevOob
  end.

(** asdf_arch_test.c 519-524; pulse_delay_long, delay_ms and pulse_delay_short
    (541-544, 558-561, 578-581) call it. *)
Fixpoint delay_loop (l : list nat) : outcome (list nat) :=
  match l with
  | [] => Ok []
  | st :: t => st' <- pulse_detect st PDelay ;; t' <- delay_loop t ;; Ok (st' :: t')
  end.
Definition t_delay (s : rec) : outcome rec :=
  p <- delay_loop (t_pulse s) ;; Ok (mkRec (t_out s) p (t_code s) (t_sent s)).

(** asdf_arch_test.c 129-133. *)
Definition t_send_code (c : N) (s : rec) : rec := mkRec (t_out s) (t_pulse s) c 1.

(** asdf_arch_test.c 149-153, 168-170, 480-483, 499-502: what a test asks. *)
Definition t_get_sent_code (s : rec) : N * rec := (t_code s, mkRec (t_out s) (t_pulse s) (t_code s) 0).
Definition t_was_code_sent (s : rec) : N := t_sent s.
Definition t_check_output (d : nat) (s : rec) : outcome N := lget UDevOob (t_out s) d.
Definition t_check_pulse (d : nat) (s : rec) : outcome nat := lget UDevOob (t_pulse s) d.

(** A call into the architecture layer.  The strobe functions
    (asdf_arch_test.c 588, 594) are empty. *)
Definition t_call (e : event) (s : rec) : outcome rec :=
  match e with
  | EvArchInit => Ok (t_init s)
  | EvOut d v => t_handler d v s
  | EvPulseShort | EvPulseLong | EvDelayMs _ => t_delay s
  | EvStrobePos | EvStrobeNeg => Ok s
  | EvSend c => Ok (t_send_code c s)
  end.

(** Calls by the firmware and queries of the sent code by a test, in order. *)
Inductive tcall := TCall (e : event) | TGetCode.
Definition t_step (c : tcall) (s : rec) : outcome rec :=
  match c with TCall e => t_call e s | TGetCode => Ok (snd (t_get_sent_code s)) end.
Fixpoint t_run (l : list tcall) (s : rec) : outcome rec :=
  match l with [] => Ok s | c :: t => s1 <- t_step c s ;; t_run t s1 end.
