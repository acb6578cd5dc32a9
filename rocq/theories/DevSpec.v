(** Specification of the output devices: who owns which physical device, which
    level is recorded, what is driven.  No linked lists, no tables. *)
From Coq Require Import List NArith Arith Bool.
From Verif Require Import Base Devices.
Import ListNotations.

(** [own v]: physical devices of virtual output [v], most recently assigned
    first; [fn v]: its activation function; [lev p]: recorded level. *)
Record vspec := mkVspec { own : nat -> list nat; fn : nat -> vfun; lev : nat -> N }.

Definition spec_zero : vspec := mkVspec (fun _ => []) (fun _ => V_NOFUNC) (fun _ => 1%N).

Definition set_at {A} (f : nat -> A) (i : nat) (x : A) : nat -> A :=
  fun j => if j =? i then x else f j.

(** Virtual outputs are 1..11, physical devices 1..12. *)
Definition is_virtual (v : nat) : bool := (1 <=? v) && (v <=? 11).
Definition is_physical (p : nat) : bool := (1 <=? p) && (p <=? 12).
Definition is_free (s : vspec) (p : nat) : bool :=
  forallb (fun v => negb (existsb (Nat.eqb p) (own s v))) (seq 0 12).

(** Drive the devices of a list in order, new level computed from the recorded
    one; result: new levels and the values driven (in order). *)
Fixpoint drive (g : N -> N) (l : list nat) (lv : nat -> N) : (nat -> N) * list event :=
  match l with
  | [] => (lv, [])
  | p :: t =>
      let v := g (lv p) in
      let '(lv2, ev) := drive g t (set_at lv p v) in (lv2, EvOut p v :: ev)
  end.

Definition opposite (v : N) : N := if (v =? 0)%N then 1%N else 0%N.

(** Operations of the module. *)
Inductive vop :=
| VAssign (v p : nat) (f : vfun) (init : N)
| VAction (v : nat) (f : vfun)
| VActivate (v : nat)
| VSync.

Definition spec_action (f : vfun) (l : list nat) (lv : nat -> N) : (nat -> N) * list event :=
  match f with
  | V_NOFUNC => (lv, [])
  | V_SET_HI => drive (fun _ => 1%N) l lv
  | V_SET_LO => drive (fun _ => 0%N) l lv
  | V_TOGGLE => drive opposite l lv
  | V_PULSE_SHORT =>
      let '(l1, e1) := drive opposite l lv in
      let '(l2, e2) := drive opposite l l1 in (l2, e1 ++ EvPulseShort :: e2)
  | V_PULSE_LONG =>
      let '(l1, e1) := drive opposite l lv in
      let '(l2, e2) := drive opposite l l1 in (l2, e1 ++ EvPulseLong :: e2)
  end.

Definition vspec_step (o : vop) (s : vspec) : vspec * list event :=
  match o with
  | VAssign v p f i =>
      (if is_virtual v && is_physical p && is_free s p
       then mkVspec (set_at (own s) v (p :: own s v)) (set_at (fn s) v f) (set_at (lev s) p i)
       else s, [])
  | VAction v f => let '(lv, ev) := spec_action f (own s v) (lev s) in (mkVspec (own s) (fn s) lv, ev)
  | VActivate v =>
      let '(lv, ev) := spec_action (fn s v) (own s v) (lev s) in (mkVspec (own s) (fn s) lv, ev)
  | VSync => (s, map (fun p => EvOut p (lev s p)) (seq 0 13))
  end.

Fixpoint vspec_run (ops : list vop) (s : vspec) : vspec * list event :=
  match ops with
  | [] => (s, [])
  | o :: t => let '(s1, e1) := vspec_step o s in
              let '(s2, e2) := vspec_run t s1 in (s2, e1 ++ e2)
  end.

(** Arguments of enumeration type: a virtual output identifier. *)
Definition vop_ok (o : vop) : Prop :=
  match o with VAction v _ | VActivate v => v < 12 | _ => True end.
