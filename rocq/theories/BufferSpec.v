(** Specification of the buffer module, independent of pool, head and tail:
    a list of bounded queues identified by their position. *)
From Coq Require Import List NArith ZArith Arith Bool.
Import ListNotations.
Local Open Scope Z_scope.

(** A call to the module and what the caller observes. *)
Inductive bop := BNew (size : Z) | BPut (h : Z) (code : N) | BGet (h : Z).
Inductive bres := RHandle (h : Z) | RUnit | RCode (code : N).

(** One queue per existing buffer, oldest element first. *)
Record fifo := mkFifo { f_cap : Z; f_items : list N }.

Definition used (l : list fifo) : Z := fold_right (fun f a => f_cap f + a) 0 l.

Definition total_room : Z := 144.
Definition max_buffers : nat := 4.
Definition no_code : N := 160.

Fixpoint replace (l : list fifo) (i : nat) (f : fifo) : list fifo :=
  match l, i with
  | [], _ => []
  | _ :: t, O => f :: t
  | x :: t, S j => x :: replace t j f
  end.

Definition find (l : list fifo) (h : Z) : option (nat * fifo) :=
  if h <? 0 then None
  else match nth_error l (Z.to_nat h) with Some f => Some (Z.to_nat h, f) | None => None end.

Definition spec_step (op : bop) (l : list fifo) : bres * list fifo :=
  match op with
  | BNew n =>
      if (length l <? max_buffers)%nat && (used l + n <=? total_room)
      then (RHandle (Z.of_nat (length l)), l ++ [mkFifo n []])
      else (RHandle (-1), l)
  | BPut h c =>
      match find l h with
      | Some (i, f) =>
          if Z.of_nat (length (f_items f)) <? f_cap f
          then (RUnit, replace l i (mkFifo (f_cap f) (f_items f ++ [c])))
          else (RUnit, l)
      | None => (RUnit, l)
      end
  | BGet h =>
      match find l h with
      | Some (i, f) =>
          match f_items f with
          | [] => (RCode no_code, l)
          | c :: q => (RCode c, replace l i (mkFifo (f_cap f) q))
          end
      | None => (RCode no_code, l)
      end
  end.

Fixpoint spec_run (ops : list bop) (l : list fifo) : list bres * list fifo :=
  match ops with
  | [] => ([], l)
  | op :: t =>
      let '(r, l1) := spec_step op l in
      let '(rs, l2) := spec_run t l1 in (r :: rs, l2)
  end.

(** Requests of non-negative size. *)
Definition sane (op : bop) : Prop := match op with BNew n => 0 <= n | _ => True end.
