(** Model of asdf_physical.c and asdf_virtual.c, and the log of calls into the
    architecture layer. *)
From Coq Require Import List NArith Arith Bool.
From Verif Require Import Base.
Import ListNotations.
Local Open Scope outcome_scope.

(** asdf_physical.h 35-50: asdf_physical_dev_t. *)
Definition NO_OUT := 0.
Definition OUT1 := 1.
Definition OUT1_OPEN_HI := 2.
Definition OUT1_OPEN_LO := 3.
Definition OUT2 := 4.
Definition OUT2_OPEN_HI := 5.
Definition OUT2_OPEN_LO := 6.
Definition OUT3 := 7.
Definition OUT3_OPEN_HI := 8.
Definition OUT3_OPEN_LO := 9.
Definition LED1 := 10.
Definition LED2 := 11.
Definition LED3 := 12.
Definition num_phys := 13.

(** asdf_virtual.h 32-46: asdf_virtual_dev_t. *)
Definition V_NULL := 0.
Definition VOUT1 := 1.
Definition VOUT2 := 2.
Definition VOUT3 := 3.
Definition VOUT4 := 4.
Definition VOUT5 := 5.
Definition VOUT6 := 6.
Definition VLED1 := 7.
Definition VLED2 := 8.
Definition VLED3 := 9.
Definition VCAPS_LED := 10.
Definition VSHIFT_LED := 11.
Definition num_virt := 12.

(** asdf_virtual.h 49-57: asdf_virtual_function_t. *)
Inductive vfun := V_NOFUNC | V_SET_HI | V_SET_LO | V_PULSE_SHORT | V_PULSE_LONG | V_TOGGLE.

(** Calls into the architecture layer, in the order they happen.  [EvOut d v]
    is the call of the handler of physical device [d] (table
    asdf_physical.c 50-64) with value [v]. *)
Inductive event :=
| EvArchInit
| EvOut (d : nat) (v : N)
| EvPulseShort
| EvPulseLong
| EvDelayMs (ms : N)
| EvStrobePos
| EvStrobeNeg
| EvSend (c : N).

(** asdf_physical.c 42-46 (handler omitted: it is the constant table, see
    [EvOut]) and asdf_virtual.c 42-46. *)
Record pdev := mkPdev { p_shadow : N; p_next : nat }.
Record vdev := mkVdev { v_phys : nat; v_fn : vfun }.

(** Device state (asdf_physical.c 50, asdf_virtual.c 42-46).  [log] is ghost state: newest event first. *)
Record devs := mkDevs { ptab : list pdev; vtab : list vdev; log : list event }.

Definition devs_zero : devs :=
  mkDevs (repeat (mkPdev 0 0) num_phys) (repeat (mkVdev 0 V_NOFUNC) num_virt) [].

Definition emit (e : event) (d : devs) : devs := mkDevs (ptab d) (vtab d) (e :: log d).

(** asdf_physical.c 83-87. *)
Definition physical_set (o : nat) (v : N) (d : devs) : outcome devs :=
  p <- lget UDevOob (ptab d) o ;;
  let d1 := emit (EvOut o v) d in
  pt <- lset UDevOob (ptab d1) o (mkPdev v (p_next p)) ;;
  Ok (mkDevs pt (vtab d1) (log d1)).

(** asdf_physical.c 103-107, 123-127. *)
Definition physical_on (o : nat) (d : devs) : outcome devs := physical_set o 1 d.
Definition physical_off (o : nat) (d : devs) : outcome devs := physical_set o 0 d.

(** asdf_physical.c 145-149. *)
Definition physical_assert (o : nat) (d : devs) : outcome devs :=
  p <- lget UDevOob (ptab d) o ;;
  Ok (emit (EvOut o (p_shadow p)) d).

(** asdf_physical.c 166-171. *)
Definition physical_toggle (o : nat) (d : devs) : outcome devs :=
  p <- lget UDevOob (ptab d) o ;;
  physical_set o (if (p_shadow p =? 0)%N then 1%N else 0%N) d.

(** asdf_physical.c 187-190. *)
Definition valid_physical (o : nat) : bool := (NO_OUT <? o) && (o <? num_phys).

(** asdf_physical.c 239-242. *)
Definition next_device (o : nat) (d : devs) : outcome nat :=
  p <- lget UDevOob (ptab d) o ;; Ok (p_next p).

(** asdf_physical.c 210-220.  The while loop gets fuel; the free list has at
    most 13 elements, running out of fuel means the loop does not terminate. *)
Fixpoint avail_loop (fuel : nat) (dev cur nxt : nat) (d : devs) : outcome nat :=
  match fuel with
  | O => Bad UDiverge
  | S f =>
    if negb (nxt =? NO_OUT) && negb (nxt =? dev) then
      n <- next_device nxt d ;; avail_loop f dev nxt n d
    else Ok (if nxt =? NO_OUT then num_phys else cur)
  end.
Definition device_is_available (dev : nat) (d : devs) : outcome nat :=
  n <- next_device NO_OUT d ;; avail_loop 14 dev NO_OUT n d.

(** asdf_physical.c 264-287. *)
Definition physical_allocate (o tail : nat) (init : N) (d : devs) : outcome (bool * devs) :=
  pred <- device_is_available o d ;;
  if valid_physical o && negb (num_phys =? pred) then
    onext <- next_device o d ;;
    pp <- lget UDevOob (ptab d) pred ;;
    pt1 <- lset UDevOob (ptab d) pred (mkPdev (p_shadow pp) onext) ;;
    pt2 <- lset UDevOob pt1 o (mkPdev init tail) ;;
    Ok (true, mkDevs pt2 (vtab d) (log d))
  else Ok (false, d).

(** asdf_physical.c 303-314: every shadow = ASDF_VIRTUAL_OUT_DEFAULT_VALUE = 1
    (asdf_config.h 84), next = i + 1, last next = NO_OUT. *)
Definition physical_init (d : devs) : devs :=
  mkDevs (map (fun i => mkPdev 1 (if i =? num_phys - 1 then NO_OUT else i + 1)) (seq 0 num_phys))
         (vtab d) (log d).

(** asdf_virtual.c 67-73.  Fuel as above. *)
Fixpoint map_function (fuel : nat) (f : nat -> devs -> outcome devs) (dev : nat) (d : devs)
  : outcome devs :=
  match fuel with
  | O => Bad UDiverge
  | S k =>
    if dev =? NO_OUT then Ok d
    else d1 <- f dev d ;; n <- next_device dev d1 ;; map_function k f n d1
  end.
Definition vmap := map_function 14.

(** asdf_virtual.c 92-124. *)
Definition virtual_action (vo : nat) (fn : vfun) (d : devs) : outcome devs :=
  v <- lget UDevOob (vtab d) vo ;;
  let l := v_phys v in
  match fn with
  | V_PULSE_LONG =>
      d1 <- vmap physical_toggle l d ;; vmap physical_toggle l (emit EvPulseLong d1)
  | V_PULSE_SHORT =>
      d1 <- vmap physical_toggle l d ;; vmap physical_toggle l (emit EvPulseShort d1)
  | V_TOGGLE => vmap physical_toggle l d
  | V_SET_HI => vmap physical_on l d
  | V_SET_LO => vmap physical_off l d
  | V_NOFUNC => Ok d
  end.

(** asdf_virtual.c 141-144. *)
Definition virtual_activate (vo : nat) (d : devs) : outcome devs :=
  v <- lget UDevOob (vtab d) vo ;; virtual_action vo (v_fn v) d.

(** asdf_virtual.c 160-163. *)
Definition valid_virtual (v : nat) : bool := (V_NULL <? v) && (v <? num_virt).

(** asdf_virtual.c 187-199. *)
Definition virtual_assign (vo po : nat) (fn : vfun) (init : N) (d : devs) : outcome devs :=
  if valid_virtual vo then
    v <- lget UDevOob (vtab d) vo ;;
    '(ok, d1) <- physical_allocate po (v_phys v) init d ;;
    if (ok : bool) then
      vt <- lset UDevOob (vtab d1) vo (mkVdev po fn) ;;
      Ok (mkDevs (ptab d1) vt (log d1))
    else Ok d1
  else Ok d.

(** asdf_virtual.c 215-226. *)
Definition virtual_init (d : devs) : devs :=
  let d1 := physical_init d in
  mkDevs (ptab d1) (repeat (mkVdev NO_OUT V_NOFUNC) num_virt) (log d1).

(** asdf_virtual.c 240-245 (called only by the unit tests). *)
Definition virtual_sync (d : devs) : outcome devs :=
  fold_left (fun acc i => d <- acc ;; physical_assert i d) (seq 0 num_phys) (Ok d).
