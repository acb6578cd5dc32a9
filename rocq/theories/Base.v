(** Common vocabulary of the model: outcomes, checked list access, C integer
    wrap-around.

    [Bad u] stands for C undefined behaviour of kind [u] (or, for [UDiverge], a
    loop that does not terminate).  It is absorbing: nothing is claimed about
    what a program does afterwards. *)
From Coq Require Import List NArith ZArith Arith Bool.
Import ListNotations.

Inductive ub :=
| UBufOob      (* access outside buffer_pool / buffers[] *)
| UArith       (* modulo zero or signed 16-bit overflow *)
| UDevOob      (* index outside physical_/virtual_device_table *)
| UDiverge     (* endless loop *)
| UHookType    (* call through a hook pointer of the wrong type, or null *)
| UKeymapsOob  (* index outside keymaps[] *)
| UMatrixOob   (* index outside a keycode matrix *)
| UMatrixNull  (* read through a null matrix pointer *)
| UScanOob     (* index outside last_stable_key_state / debounce_counters *)
| UModOob      (* index outside modifier_mapping[] *)
| UFormat.     (* vfprintf with a conversion that has no argument, or a malformed one *)

Inductive outcome (A : Type) : Type :=
| Ok (a : A)
| Bad (u : ub).
Arguments Ok {A} a.
Arguments Bad {A} u.

Definition bind {A B} (x : outcome A) (k : A -> outcome B) : outcome B :=
  match x with Ok a => k a | Bad u => Bad u end.

Declare Scope outcome_scope.
Delimit Scope outcome_scope with outcome.
Notation "x <- e ;; k" := (bind e (fun x => k))
  (at level 61, e at next level, right associativity) : outcome_scope.
Notation "' p <- e ;; k" := (bind e (fun p => k))
  (at level 61, p pattern, e at next level, right associativity) : outcome_scope.

(** Checked reads and writes. *)
Definition lget {A} (u : ub) (l : list A) (i : nat) : outcome A :=
  match nth_error l i with Some x => Ok x | None => Bad u end.

Fixpoint upd {A} (l : list A) (i : nat) (x : A) : list A :=
  match l, i with
  | [], _ => []
  | _ :: t, O => x :: t
  | h :: t, S j => h :: upd t j x
  end.

Definition lset {A} (u : ub) (l : list A) (i : nat) (x : A) : outcome (list A) :=
  if i <? length l then Ok (upd l i x) else Bad u.

(** Conversion to uint8_t. *)
Definition u8 (n : N) : N := (n mod 256)%N.
