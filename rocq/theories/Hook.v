(** Model of asdf_hook.c. *)
From Coq Require Import List NArith Arith Bool.
From Verif Require Import Base.
Import ListNotations.
Local Open Scope outcome_scope.

(** asdf_hook.h 30-48: asdf_hook_id_t. *)
Definition HOOK_NULL := 0.
Definition HOOK_KEY_SCANNER := 1.
Definition HOOK_ROW_SCANNER := 2.
Definition HOOK_OUTPUT := 3.
Definition HOOK_EACH_SCAN := 4.
Definition HOOK_USER_1 := 5.
Definition HOOK_USER_3 := 7.
Definition HOOK_USER_9 := 13.
Definition HOOK_USER_10 := 14.
Definition HOOK_USER_11 := 15.
Definition num_hooks := 16.

(** The functions that the firmware installs in hooks.  [HPrint m] is a
    void(void) function whose body is asdf_print(m). *)
Inductive hookfn :=
| HUnset                 (* null pointer of static storage before asdf_hook_init *)
| HNull                  (* asdf_hook_null_func *)
| HKeyscan               (* asdf_keyscan *)
| HReadRow               (* asdf_arch_read_row *)
| HSend                  (* asdf_arch_send_code *)
| HPrint (m : list N).

(** asdf_hook.c 42: hook_map. *)
Definition hooks := list hookfn.
Definition hooks_zero : hooks := repeat HUnset num_hooks.

(** asdf_hook.c 75-78. *)
Definition hook_valid_id (id : nat) : bool := (HOOK_NULL <? id) && (id <? num_hooks).

(** asdf_hook.c 118-121. *)
Definition hook_get (id : nat) (h : hooks) : outcome hookfn :=
  if hook_valid_id id then lget UHookType h id else Ok HNull.

(** asdf_hook.c 140-145. *)
Definition hook_assign (id : nat) (f : hookfn) (h : hooks) : outcome hooks :=
  if hook_valid_id id then lset UHookType h id f else Ok h.

(** asdf_hook.c 163-173; the ASDF_ARCH_DEFAULT_* macros are asdf_arch_read_row
    and asdf_arch_send_code (Arch/asdf_arch_atmega328p.h 257-260,
    Arch/asdf_arch_atmega2560.h 352-355). *)
Definition hook_init : hooks :=
  upd (upd (upd (repeat HNull num_hooks) HOOK_ROW_SCANNER HReadRow)
           HOOK_OUTPUT HSend) HOOK_KEY_SCANNER HKeyscan.
