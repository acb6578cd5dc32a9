(** Models of the repeat timer and of the scanner for every setting of
    asdf_config.h.  The other modules use the settings as shipped. *)
From Coq Require Import List NArith Arith Bool.
From Verif Require Import Base RepeatProofs.
Import ListNotations.
Local Open Scope N_scope.

(** asdf_config.h 60, 64, 72, 75: ASDF_DEBOUNCE_TIME_MS, whether
    ASDF_DEFAULT_REPEAT_STATE is REPEAT_AUTO (or REPEAT_OFF),
    ASDF_AUTOREPEAT_TIME_MS, ASDF_REPEAT_TIME_MS. *)
Record config := mkConfig { cf_debounce : N; cf_starts_auto : bool; cf_auto : N; cf_rep : N }.

(** asdf_config.h 60-75. *)
Definition shipped_config : config := mkConfig 10 true 525 (1000 / 15).

(** ** asdf_repeat.c *)
Section Repeat.
Variable cf : config.
(** asdf_repeat.c 35, 50-54: conversion to key_timer_t; the enumerators.  The
    state is the number itself: two enumerators may have the same value. *)
Definition key_timer (x : N) : N := x mod 65536.
Definition V_OFF : N := 0.
Definition V_ON : N := cf_rep cf.
Definition V_AUTO : N := cf_auto cf.

(** asdf_repeat.c 57-65. *)
Record crep := mkCrep { cr_state : N; cr_base : N; cr_timer : N }.

(** asdf_repeat.c 78-82. *)
Definition cr_init : crep :=
  let d := if cf_starts_auto cf then V_AUTO else V_OFF in mkCrep d d (key_timer d).
(** asdf_repeat.c 98-101. *)
Definition cr_reset (r : crep) : crep := mkCrep (cr_state r) (cr_base r) (key_timer (cr_state r)).
(** asdf_repeat.c 118-124. *)
Definition cr_auto_off (r : crep) : crep :=
  if negb (V_ON =? cr_state r) then mkCrep V_OFF V_OFF (key_timer V_OFF) else mkCrep (cr_state r) V_OFF (cr_timer r).
(** asdf_repeat.c 141-147. *)
Definition cr_auto_on (r : crep) : crep :=
  if negb (V_ON =? cr_state r) then mkCrep V_AUTO V_AUTO (key_timer V_AUTO) else mkCrep (cr_state r) V_AUTO (cr_timer r).
(** asdf_repeat.c 164-169. *)
Definition cr_activate (r : crep) : crep :=
  if (V_ON <? cr_timer r) || (V_OFF =? cr_state r) then mkCrep V_ON (cr_base r) (key_timer V_ON) else r.
(** asdf_repeat.c 188-191. *)
Definition cr_deactivate (r : crep) : crep := mkCrep (cr_base r) (cr_base r) (key_timer (cr_base r)).
(** asdf_repeat.c 209-218. *)
Definition cr_tick (r : crep) : bool * crep :=
  if cr_timer r =? 0 then (false, r)
  else if cr_timer r - 1 =? 0 then (true, mkCrep (cr_state r) (cr_base r) (key_timer V_ON))
  else (false, mkCrep (cr_state r) (cr_base r) (cr_timer r - 1)).

(** Calls of the functions of asdf_repeat.c 98-218 ([rop] as in RepeatProofs.v). *)
Definition cr_step (o : rop) (r : crep) : list bool * crep :=
  match o with
  | OReset => ([], cr_reset r)
  | OAutoOff => ([], cr_auto_off r)
  | OAutoOn => ([], cr_auto_on r)
  | OActivate => ([], cr_activate r)
  | ODeactivate => ([], cr_deactivate r)
  | OTick => let '(b, r1) := cr_tick r in ([b], r1)
  end.
Fixpoint cr_run (ops : list rop) (r : crep) : list bool * crep :=
  match ops with
  | [] => ([], r)
  | o :: t => let '(bs, r1) := cr_step o r in let '(bs2, r2) := cr_run t r1 in (bs ++ bs2, r2)
  end.
(** What the asdf_repeat() calls of a history answer, from asdf_repeat_init on. *)
Definition cr_answers (ops : list rop) : list bool := fst (cr_run ops cr_init).
End Repeat.

(** ** The scanner of asdf.c *)
Section Scan.
Variable cf : config.
(** asdf.c 48, 59: last_stable_key_state and debounce_counters, as functions of
    row and column (C52: the firmware stays inside the arrays). *)
Record cscan := mkCscan { cn_stable : nat -> N; cn_count : nat -> nat -> N }.
(** asdf.c 655-662 (asdf_init): nothing pressed, counters loaded (uint8_t). *)
Definition cn_init : cscan := mkCscan (fun _ => 0) (fun _ _ => cf_debounce cf mod 256).
(** Assignment to an element of the arrays of asdf.c 48, 59. *)
Definition put_count (s : cscan) (row col : nat) (v : N) : cscan :=
  mkCscan (cn_stable s) (fun r c => if ((r =? row) && (c =? col))%nat then v else cn_count s r c).
Definition put_stable (s : cscan) (row : nat) (v : N) : cscan :=
  mkCscan (fun r => if (r =? row)%nat then v else cn_stable s r) (cn_count s).
(** asdf.c 488-508 (asdf_handle_key_press_or_release): the calls of
    asdf_activate_key (true) and asdf_deactivate_key (false) are recorded with
    the place of the key. *)
Definition cn_press_or_release (row col : nat) (pressed : bool) (s : cscan) : list (nat * nat * bool) * cscan :=
  let k := (cn_count s row col + 255) mod 256 in
  let s1 := put_count s row col k in
  if k =? 0 then
    let s2 := put_count s1 row col (cf_debounce cf mod 256) in
    if pressed then ([(row, col, true)], put_stable s2 row (N.setbit (cn_stable s2 row) (N.of_nat col)))
    else ([(row, col, false)], put_stable s2 row (N.clearbit (cn_stable s2 row) (N.of_nat col)))
  else ([], s1).
(** asdf.c 574-585 (asdf_keyscan, inner loop); what keys held do
    (asdf_handle_key_held_pressed) does not concern the scanner and is left out. *)
Fixpoint cn_cols (row : nat) (state changed : N) (cols : list nat) (s : cscan) : list (nat * nat * bool) * cscan :=
  match cols with
  | [] => ([], s)
  | c :: t =>
      let '(e1, s1) := if N.testbit changed (N.of_nat c) then cn_press_or_release row c (N.testbit state (N.of_nat c)) s else ([], s) in
      let '(e2, s2) := cn_cols row state changed t s1 in (e1 ++ e2, s2)
  end.
(** asdf.c 569-587 (asdf_keyscan, outer loop). *)
Fixpoint cn_rows (C : nat) (rd : nat -> N) (rows : list nat) (s : cscan) : list (nat * nat * bool) * cscan :=
  match rows with
  | [] => ([], s)
  | r :: t =>
      let '(e1, s1) := cn_cols r (rd r) (N.lxor (rd r) (cn_stable s r)) (seq 0 C) s in
      let '(e2, s2) := cn_rows C rd t s1 in (e1 ++ e2, s2)
  end.
Fixpoint cn_scans (R C : nat) (rds : list (nat -> N)) (s : cscan) : list (nat * nat * bool) :=
  match rds with
  | [] => []
  | rd :: t => let '(e1, s1) := cn_rows C rd (seq 0 R) s in e1 ++ cn_scans R C t s1
  end.
(** The keys activated and deactivated in the scans [rds] of a matrix of [R]
    rows and [C] columns, from asdf_init on. *)
Definition cn_events (R C : nat) (rds : list (nat -> N)) : list (nat * nat * bool) := cn_scans R C rds cn_init.
End Scan.
