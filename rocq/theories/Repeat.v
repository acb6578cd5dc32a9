(** Model of asdf_repeat.c. *)
From Coq Require Import NArith Bool.
Local Open Scope N_scope.

(** asdf_repeat.c 50-54: repeat_state_t. *)
Inductive rstate := ROff | ROn | RAuto.

(** The enumerators' values; asdf_config.h 72, 75. *)
Definition rval (r : rstate) : N :=
  match r with ROff => 0 | ROn => 66 | RAuto => 525 end.

Definition rstate_eqb (a b : rstate) : bool :=
  match a, b with ROff, ROff | ROn, ROn | RAuto, RAuto => true | _, _ => false end.

(** asdf_repeat.c 57-65: repeat_state, base_repeat_state, key_repeat_timer. *)
Record rep := mkRep { r_state : rstate; r_base : rstate; r_timer : N }.

(** asdf_repeat.c 57-65: static storage, zero = REPEAT_OFF. *)
Definition rep_zero : rep := mkRep ROff ROff 0.

(** asdf_repeat.c 78-82; ASDF_DEFAULT_REPEAT_STATE = REPEAT_AUTO (asdf_config.h 64). *)
Definition repeat_init (_ : rep) : rep := mkRep RAuto RAuto (rval RAuto).

(** asdf_repeat.c 98-101. *)
Definition repeat_reset_count (r : rep) : rep := mkRep (r_state r) (r_base r) (rval (r_state r)).

(** asdf_repeat.c 118-124. *)
Definition repeat_auto_off (r : rep) : rep :=
  if rstate_eqb ROn (r_state r) then mkRep (r_state r) ROff (r_timer r)
  else mkRep ROff ROff (rval ROff).

(** asdf_repeat.c 141-147. *)
Definition repeat_auto_on (r : rep) : rep :=
  if rstate_eqb ROn (r_state r) then mkRep (r_state r) RAuto (r_timer r)
  else mkRep RAuto RAuto (rval RAuto).

(** asdf_repeat.c 164-169. *)
Definition repeat_activate (r : rep) : rep :=
  if (rval ROn <? r_timer r) || rstate_eqb ROff (r_state r)
  then mkRep ROn (r_base r) (rval ROn) else r.

(** asdf_repeat.c 188-191. *)
Definition repeat_deactivate (r : rep) : rep := mkRep (r_base r) (r_base r) (rval (r_base r)).

(** asdf_repeat.c 209-218: returns (timeout, new state).
    key_repeat_timer && !(--key_repeat_timer). *)
Definition repeat_tick (r : rep) : bool * rep :=
  if r_timer r =? 0 then (false, r)
  else
    let t := r_timer r - 1 in
    if t =? 0 then (true, mkRep (r_state r) (r_base r) (rval ROn))
    else (false, mkRep (r_state r) (r_base r) t).
