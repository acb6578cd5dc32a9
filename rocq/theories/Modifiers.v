(** Model of asdf_modifiers.c. *)
From Coq Require Import List NArith Arith Bool.
From Verif Require Import Base Devices.
Import ListNotations.
Local Open Scope outcome_scope.

(** asdf_modifiers.h 46-65: enumerator values. *)
Definition SHIFT_OFF_ST : N := 0.
Definition SHIFT_ON_ST : N := 1.
Definition SHIFT_LOCKED_ST : N := 2.
Definition CAPS_OFF_ST : N := 0.
Definition CAPS_LOCKED_ST : N := 1.
Definition CTRL_OFF_ST : N := 0.
Definition CTRL_ON_ST : N := 1.

(** asdf_modifiers.h 68-74: modifier_index_t. *)
Definition MOD_PLAIN := 0.
Definition MOD_SHIFT := 1.
Definition MOD_CAPS := 2.
Definition MOD_CTRL := 3.
Definition num_modifiers := 4.

(** asdf_modifiers.c 33-40. *)
Record mods := mkMods { m_shift : N; m_caps : N; m_ctrl : N }.
Definition mods_zero : mods := mkMods 0 0 0.

(** The modifier functions also drive LEDs, so they act on both components
    (asdf_modifiers.c 62-66, 128-132). *)
Definition md : Type := mods * devs.

(** asdf_modifiers.c 62-66. *)
Definition set_shift_state (new : N) (x : md) : outcome md :=
  let '(m, d) := x in
  d1 <- virtual_action VSHIFT_LED
          (if (N.land new SHIFT_LOCKED_ST =? 0)%N then V_SET_LO else V_SET_HI) d ;;
  Ok (mkMods new (m_caps m) (m_ctrl m), d1).

(** asdf_modifiers.c 78-81. *)
Definition shift_activate (x : md) : outcome md := set_shift_state SHIFT_ON_ST x.
(** asdf_modifiers.c 96-99. *)
Definition shiftlock_on_activate (x : md) : outcome md :=
  set_shift_state (N.lor (m_shift (fst x)) SHIFT_LOCKED_ST) x.
(** asdf_modifiers.c 113-116. *)
Definition shiftlock_toggle_activate (x : md) : outcome md :=
  set_shift_state (N.lxor (m_shift (fst x)) SHIFT_LOCKED_ST) x.

(** asdf_modifiers.c 128-132. *)
Definition set_caps_state (new : N) (x : md) : outcome md :=
  let '(m, d) := x in
  d1 <- virtual_action VCAPS_LED (if (new =? 0)%N then V_SET_LO else V_SET_HI) d ;;
  Ok (mkMods (m_shift m) new (m_ctrl m), d1).

(** asdf_modifiers.c 144-147. *)
Definition capslock_activate (x : md) : outcome md :=
  set_caps_state (N.lxor (m_caps (fst x)) CAPS_LOCKED_ST) x.

(** asdf_modifiers.c 159-162, 176-179, 191-194. *)
Definition ctrl_activate (x : md) : outcome md :=
  let '(m, d) := x in Ok (mkMods (m_shift m) (m_caps m) CTRL_ON_ST, d).
Definition shift_deactivate (x : md) : outcome md := set_shift_state SHIFT_OFF_ST x.
Definition ctrl_deactivate (x : md) : outcome md :=
  let '(m, d) := x in Ok (mkMods (m_shift m) (m_caps m) CTRL_OFF_ST, d).

(** asdf_modifiers.c 206-211 (called only by the unit tests). *)
Definition modifiers_init (x : md) : outcome md :=
  x1 <- set_shift_state SHIFT_OFF_ST x ;;
  x2 <- set_caps_state CAPS_OFF_ST x1 ;;
  ctrl_deactivate x2.

(** asdf_modifiers.c 44-49. *)
Definition modifier_mapping : list nat :=
  [MOD_PLAIN; MOD_SHIFT; MOD_CAPS; MOD_SHIFT; MOD_CTRL; MOD_CTRL; MOD_CTRL; MOD_CTRL].

(** asdf_modifiers.c 223-238; masks asdf_modifiers.h 38-44. *)
Definition modifier_index (m : mods) : outcome nat :=
  let a0 := 0%N in
  let a1 := if (m_shift m =? 0)%N then a0 else N.lor a0 1 in
  let a2 := if (m_caps m =? 0)%N then a1 else N.lor a1 2 in
  let a3 := if (m_ctrl m =? 0)%N then a2 else N.lor a2 4 in
  lget UModOob modifier_mapping (N.to_nat a3).
