(** The firmware as a library: its public functions, called by a client in any
    order and with any arguments.

    Every function declared in asdf.h, asdf_keymaps.h, asdf_modifiers.h,
    asdf_repeat.h, asdf_hook.h, asdf_print.h, asdf_virtual.h, and those of
    asdf_physical.h and asdf_buffer.h that do not take over the tables of another
    module.  Left out: asdf_buffer_init, asdf_physical_init,
    asdf_physical_allocate, physical_device_is_available and
    asdf_physical_next_device (called only by asdf_init and by
    asdf_virtual.c), and asdf_keymap_add_virtual_device and
    asdf_keymap_add_hook (asdf_keymaps.h 158-168), which are declared and
    defined nowhere. *)
From Coq Require Import List NArith ZArith Arith Bool.
From Verif Require Import Base Buffer Repeat Devices Modifiers Hook Asdf Custom.
Import ListNotations.
Local Open Scope outcome_scope.

(** A call with its arguments.  The calls that scan take the readings of the
    rows with them. *)
Inductive call :=
(* asdf.h 112-158 *)
| KInit | KScan (rd : nat -> N) | KPutCode (c : N) | KPutc (c : N) | KNextCode | KDelay (ms : N)
(* asdf_keymaps.h 64-177 *)
| KAddMap (matrix : option (list N)) (mi rows cols : nat) | KRows | KCols | KSelect (i : N)
| KSelectSet (n : N) | KSelectClear (n : N) | KKeymapsInit | KGetCode (r c mi : nat)
(* asdf_modifiers.h 81-135 *)
| KShift | KShiftlockOn | KShiftlockToggle | KCapslock | KCtrl | KShiftOff | KCtrlOff
| KModifiersInit | KModifierIndex
(* asdf_repeat.h 34-75 *)
| KRepeatInit | KRepeatReset | KAutoOff | KAutoOn | KRepeatOn | KRepeatOff | KRepeat
(* asdf_buffer.h 58-73 *)
| KBufNew (size : Z) | KBufPut (h : Z) (c : N) | KBufGet (h : Z)
(* asdf_virtual.h 74-107 *)
| KAction (v : nat) (f : vfun) | KActivate (v : nat) | KAssign (v p : nat) (f : vfun) (i : N)
| KVirtualInit | KSync
(* asdf_physical.h 58-84 *)
| KSet (p : nat) (v : N) | KOn (p : nat) | KOff (p : nat) | KAssert (p : nat) | KToggle (p : nat)
(* asdf_hook.h 68-92 *)
| KHook (rd : nat -> N) (id : nat) | KHookGet (id : nat) | KHookAssign (id : nat) (f : hookfn) | KHookInit
(* asdf_print.h 35 *)
| KPrint (m : list N).

(** What a call returns. *)
Inductive ret := Void | Num (z : Z) | Fn (f : hookfn).

(** Functions returning void, and those returning a number. *)
Definition quiet (x : outcome kb) : outcome (ret * kb) := s <- x ;; Ok (Void, s).
Definition asks (x : outcome Z) (s : kb) : outcome (ret * kb) := z <- x ;; Ok (Num z, s).

Section Client.
Variable kbs : N -> option (list setup_cmd).

(** asdf_hook.c 96-101.  asdf_keyscan is a void(void) function and may be run
    this way; the row reader and the sender are not. *)
Definition c_hook (rd : nat -> N) (id : nat) (s : kb) : outcome kb :=
  f <- hook_get id (k_hook s) ;;
  match f with HKeyscan => c_keyscan kbs rd s | _ => hook_execute id s end.

(** One call.  asdf_putc returns its argument (asdf.c 118; char is unsigned,
    cmake/generic-gcc-avr.cmake 74).  asdf_repeat returns 0 or 1
    (asdf_repeat.c 209-218).  The eight map selection functions
    (asdf_keymaps.c 232-375) are [KSelectSet n] and [KSelectClear n]. *)
Definition c_call (k : call) (s : kb) : outcome (ret * kb) :=
  match k with
  | KInit => quiet (c_init kbs s)
  | KScan rd => quiet (c_keyscan kbs rd s)
  | KPutCode c => quiet (put_code c s)
  | KPutc c => s1 <- putc c s ;; Ok (Num (Z.of_N c), s1)
  | KNextCode => '(c, s1) <- next_code s ;; Ok (Num (Z.of_N c), s1)
  | KDelay ms => quiet (Ok (set_print_delay ms s))
  | KAddMap m mi r c => quiet (add_map m mi r c s)
  | KRows => asks (n <- num_rows s ;; Ok (Z.of_nat n)) s
  | KCols => asks (n <- num_cols s ;; Ok (Z.of_nat n)) s
  | KSelect i => quiet (c_select kbs (u8 i) s)
  | KSelectSet n => quiet (c_select_set kbs n s)
  | KSelectClear n => quiet (c_select_clear kbs n s)
  | KKeymapsInit => quiet (c_switch kbs 0 s)
  | KGetCode r c mi => asks (n <- get_code r c mi s ;; Ok (Z.of_N n)) s
  | KShift => quiet (on_md shift_activate s)
  | KShiftlockOn => quiet (on_md shiftlock_on_activate s)
  | KShiftlockToggle => quiet (on_md shiftlock_toggle_activate s)
  | KCapslock => quiet (on_md capslock_activate s)
  | KCtrl => quiet (on_md ctrl_activate s)
  | KShiftOff => quiet (on_md shift_deactivate s)
  | KCtrlOff => quiet (on_md ctrl_deactivate s)
  | KModifiersInit => quiet (on_md modifiers_init s)
  | KModifierIndex => asks (n <- modifier_index (k_mod s) ;; Ok (Z.of_nat n)) s
  | KRepeatInit => quiet (on_rep repeat_init s)
  | KRepeatReset => quiet (on_rep repeat_reset_count s)
  | KAutoOff => quiet (on_rep repeat_auto_off s)
  | KAutoOn => quiet (on_rep repeat_auto_on s)
  | KRepeatOn => quiet (on_rep repeat_activate s)
  | KRepeatOff => quiet (on_rep repeat_deactivate s)
  | KRepeat => let '(due, r) := repeat_tick (k_rep s) in Ok (Num (if (due : bool) then 1 else 0), set_rep r s)
  | KBufNew n => '(h, b) <- buffer_new n (k_buf s) ;; Ok (Num h, set_buf b s)
  | KBufPut h c => b <- buffer_put h c (k_buf s) ;; Ok (Void, set_buf b s)
  | KBufGet h => '(c, b) <- buffer_get h (k_buf s) ;; Ok (Num (Z.of_N c), set_buf b s)
  | KAction v f => quiet (on_dev (virtual_action v f) s)
  | KActivate v => quiet (on_dev (virtual_activate v) s)
  | KAssign v p f i => quiet (on_dev (virtual_assign v p f i) s)
  | KVirtualInit => quiet (Ok (set_dev (virtual_init (k_dev s)) s))
  | KSync => quiet (on_dev virtual_sync s)
  | KSet p v => quiet (on_dev (physical_set p v) s)
  | KOn p => quiet (on_dev (physical_on p) s)
  | KOff p => quiet (on_dev (physical_off p) s)
  | KAssert p => quiet (on_dev (physical_assert p) s)
  | KToggle p => quiet (on_dev (physical_toggle p) s)
  | KHook rd id => quiet (c_hook rd id s)
  | KHookGet id => f <- hook_get id (k_hook s) ;; Ok (Fn f, s)
  | KHookAssign id f => quiet (h <- hook_assign id f (k_hook s) ;; Ok (set_hook h s))
  | KHookInit => quiet (Ok (set_hook hook_init s))
  | KPrint m => quiet (print m s)
  end.

(** Calls one after the other, with what they return. *)
Fixpoint c_calls (ks : list call) (s : kb) : outcome (list ret * kb) :=
  match ks with
  | [] => Ok ([], s)
  | k :: t => '(r, s1) <- c_call k s ;; '(rs, s2) <- c_calls t s1 ;; Ok (r :: rs, s2)
  end.

(** A client: asdf_init at power-on, then its calls. *)
Definition client (ks : list call) : outcome (list ret * kb) :=
  s <- c_init kbs kb_zero ;; c_calls ks s.

End Client.
