(** Abstract keyboard machine: sets of pressed keys instead of packed rows,
    two queues instead of the buffer pool, an ownership table instead of linked
    lists, keycode tables by (keyboard, map) instead of registered pointers.
    [None] stands for the out-of-bounds keymap lookup of keyboards 4 and 5. *)
From Coq Require Import List NArith Arith Bool.
From Verif Require Import Base Repeat Devices DevSpec Modifiers KeymapData Asdf.
Import ListNotations.

(** ** Static description of the six keyboards *)

(** Map numbers: 0 plain, 1 shift, 2 caps, 3 ctrl. *)
Definition table (kbd : N) (m : nat) : list N :=
  match kbd, m with
  | 0%N, 0 => classic_plain | 0%N, 1 => classic_shift | 0%N, 2 => classic_caps | 0%N, _ => classic_ctrl
  | 1%N, 0 => classic_caps | 1%N, 1 => classic_shift | 1%N, 2 => classic_caps | 1%N, _ => classic_ctrl
  | 2%N, 0 => apple_plain | 2%N, 1 => apple_shift | 2%N, 2 => apple_caps | 2%N, _ => apple_ctrl
  | 3%N, 0 => apple_caps | 3%N, 1 => apple_caps_shift | 3%N, 2 => apple_caps | 3%N, _ => apple_ctrl
  | 4%N, 0 => sol_plain | 4%N, 1 => sol_shift | 4%N, 2 => sol_caps | 4%N, _ => sol_ctrl
  | _, 0 => ace_plain | _, 1 => ace_shift | _, 2 => ace_caps | _, _ => ace_ctrl
  end.

(** The code of key (r, c) in map [m] of keyboard [kbd]. *)
Definition code_at (kbd : N) (m r c : nat) : N := nth (r * 8 + c) (table kbd m) 0%N.

Definition nrows (kbd : N) : nat :=
  match kbd with 4%N => 13 | 5%N => 10 | _ => 9 end.

(** Message of function key [n]. *)
Definition message (kbd : N) (n : nat) : option (list N) :=
  match kbd, n with
  | 0%N, 10 => Some msg_classic_id | 0%N, 9 => Some msg_applesoft_test
  | 1%N, 10 => Some msg_classic_caps_id | 1%N, 9 => Some msg_applesoft_test
  | 2%N, 10 => Some msg_apple2_id | 2%N, 3 => Some msg_applesoft_test
  | 3%N, 10 => Some msg_apple2_caps_id | 3%N, 9 => Some msg_applesoft_test
  | 4%N, 10 => Some msg_sol_id
  | 5%N, 10 => Some msg_ace1000_id | 5%N, 9 => Some msg_ace1000_test
  | _, _ => None
  end.

(** Output assignments of each keyboard. *)
Definition outputs (kbd : N) : list vop :=
  match kbd with
  | 0%N => [ VAssign VLED1 LED1 V_NOFUNC 1; VAssign VCAPS_LED LED3 V_NOFUNC 0;
             VAssign VOUT1 OUT3_OPEN_HI V_PULSE_SHORT 1; VAssign VOUT2 OUT1_OPEN_LO V_PULSE_LONG 0 ]
  | 1%N => [ VAssign VLED1 LED1 V_NOFUNC 1; VAssign VLED1 LED3 V_NOFUNC 0;
             VAssign VOUT1 OUT3_OPEN_HI V_PULSE_SHORT 1; VAssign VOUT2 OUT1_OPEN_LO V_PULSE_LONG 0 ]
  | 2%N => [ VAssign VCAPS_LED LED1 V_NOFUNC 0; VAssign VLED2 LED3 V_NOFUNC 0;
             VAssign VOUT1 OUT3_OPEN_HI V_PULSE_SHORT 1; VAssign VOUT2 OUT1_OPEN_LO V_PULSE_LONG 0 ]
  | 3%N => [ VAssign VLED1 LED1 V_NOFUNC 0; VAssign VLED2 LED3 V_NOFUNC 0;
             VAssign VOUT1 OUT3_OPEN_HI V_PULSE_SHORT 1; VAssign VOUT2 OUT1_OPEN_LO V_PULSE_LONG 0 ]
  | 4%N => [ VAssign VCAPS_LED LED1 V_NOFUNC 0; VAssign VSHIFT_LED LED3 V_NOFUNC 0;
             VAssign VOUT3 OUT1 V_TOGGLE 1; VAssign VOUT3 LED2 V_TOGGLE 0;
             VAssign VOUT1 OUT3_OPEN_HI V_PULSE_SHORT 1; VAssign VOUT2 OUT2 V_PULSE_LONG 1 ]
  | _ => [ VAssign VLED1 LED1 V_NOFUNC 1; VAssign VCAPS_LED LED3 V_NOFUNC 0;
           VAssign VOUT1 OUT3_OPEN_HI V_PULSE_SHORT 1; VAssign VOUT2 OUT1_OPEN_LO V_PULSE_LONG 0 ]
  end.
Definition wiring (kbd : N) : vspec := fst (vspec_run (outputs kbd) spec_zero).

(** Keyboards whose selection toggles CAPS LOCK. *)
Definition toggles_caps (kbd : N) : bool :=
  match kbd with 2%N | 4%N | 5%N => true | _ => false end.

(** ** State *)
Record akb := mkA {
  a_dn : nat -> nat -> bool;   (* accepted (debounced) state of key (r, c) *)
  a_ct : nat -> nat -> N;      (* differing scans still needed *)
  a_last : N;                  (* code that repeats, 0xA0 = none *)
  a_qk : list N;               (* key queue, oldest first *)
  a_qm : list N;               (* message queue *)
  a_rep : rep;
  a_mod : mods;
  a_lev : nat -> N;            (* recorded output levels *)
  a_log : list event;          (* newest first *)
  a_cur : N                    (* selected keyboard *)
}.

Definition put_dn x a := mkA x (a_ct a) (a_last a) (a_qk a) (a_qm a) (a_rep a) (a_mod a) (a_lev a) (a_log a) (a_cur a).
Definition put_ct x a := mkA (a_dn a) x (a_last a) (a_qk a) (a_qm a) (a_rep a) (a_mod a) (a_lev a) (a_log a) (a_cur a).
Definition put_last x a := mkA (a_dn a) (a_ct a) x (a_qk a) (a_qm a) (a_rep a) (a_mod a) (a_lev a) (a_log a) (a_cur a).
Definition put_qk x a := mkA (a_dn a) (a_ct a) (a_last a) x (a_qm a) (a_rep a) (a_mod a) (a_lev a) (a_log a) (a_cur a).
Definition put_qm x a := mkA (a_dn a) (a_ct a) (a_last a) (a_qk a) x (a_rep a) (a_mod a) (a_lev a) (a_log a) (a_cur a).
Definition put_rep x a := mkA (a_dn a) (a_ct a) (a_last a) (a_qk a) (a_qm a) x (a_mod a) (a_lev a) (a_log a) (a_cur a).
Definition put_mod x a := mkA (a_dn a) (a_ct a) (a_last a) (a_qk a) (a_qm a) (a_rep a) x (a_lev a) (a_log a) (a_cur a).
Definition put_lev x a := mkA (a_dn a) (a_ct a) (a_last a) (a_qk a) (a_qm a) (a_rep a) (a_mod a) x (a_log a) (a_cur a).
Definition put_log x a := mkA (a_dn a) (a_ct a) (a_last a) (a_qk a) (a_qm a) (a_rep a) (a_mod a) (a_lev a) x (a_cur a).
Definition put_cur x a := mkA (a_dn a) (a_ct a) (a_last a) (a_qk a) (a_qm a) (a_rep a) (a_mod a) (a_lev a) (a_log a) x.

Definition note (e : event) (a : akb) : akb := put_log (e :: a_log a) a.

Definition obind {A B} (x : option A) (k : A -> option B) : option B :=
  match x with Some a => k a | None => None end.

Definition set2 {A} (f : nat -> nat -> A) (r c : nat) (x : A) : nat -> nat -> A :=
  fun r' c' => if (r' =? r) && (c' =? c) then x else f r' c'.

(** ** Queues *)
Definition qput (cap : nat) (c : N) (q : list N) : list N :=
  if length q <? cap then q ++ [c] else q.

Fixpoint qput_all (cap : nat) (l q : list N) : list N :=
  match l with [] => q | c :: t => qput_all cap t (qput cap c q) end.

(** Line feed becomes carriage return, line feed. *)
Definition expand (m : list N) : list N :=
  flat_map (fun c => if (c =? 10)%N then [13%N; c] else [c]) m.

(** ** Outputs and modifiers *)
Definition aact (f : vfun) (v : nat) (a : akb) : akb :=
  let '(lv, ev) := spec_action f (own (wiring (a_cur a)) v) (a_lev a) in
  put_log (rev ev ++ a_log a) (put_lev lv a).

Definition aset_shift (x : N) (a : akb) : akb :=
  let a1 := aact (if N.testbit x 1 then V_SET_HI else V_SET_LO) VSHIFT_LED a in
  put_mod (mkMods x (m_caps (a_mod a1)) (m_ctrl (a_mod a1))) a1.

Definition atoggle_caps (a : akb) : akb :=
  let x := N.lxor (m_caps (a_mod a)) 1 in
  let a1 := aact (if (x =? 0)%N then V_SET_LO else V_SET_HI) VCAPS_LED a in
  put_mod (mkMods (m_shift (a_mod a1)) x (m_ctrl (a_mod a1))) a1.

Definition aset_ctrl (x : N) (a : akb) : akb :=
  put_mod (mkMods (m_shift (a_mod a)) (m_caps (a_mod a)) x) a.

(** The map in force: CTRL over SHIFT over CAPS. *)
Definition map_now (m : mods) : nat :=
  if negb (m_ctrl m =? 0)%N then 3
  else if negb (m_shift m =? 0)%N then 1
  else if negb (m_caps m =? 0)%N then 2 else 0.

Definition acode (r c : nat) (a : akb) : option N :=
  if (a_cur a <? 4)%N then Some (code_at (a_cur a) (map_now (a_mod a)) r c) else None.

(** ** Keyboard selection *)
Definition aswitch (i : N) (a : akb) : akb :=
  let a1 := note EvArchInit (put_lev (lev (wiring i)) (put_cur i a)) in
  let a2 := if toggles_caps i then atoggle_caps a1 else a1 in
  if (i =? 4)%N then note EvStrobeNeg a2 else a2.

Definition aselect (i : N) (a : akb) : akb :=
  if (i =? a_cur a)%N then a else if (i <? 6)%N then aswitch i a else a.

(** ** Keys *)
Definition aprint (m : list N) (a : akb) : akb :=
  put_qm (qput_all 128 (expand m) (a_qm a)) a.

Definition aaction_on (code : N) (a : akb) : akb :=
  match decode code with
  | AShift => aset_shift 1 a
  | AShiftlockOn => aset_shift (N.lor (m_shift (a_mod a)) 2) a
  | AShiftlockToggle => aset_shift (N.lxor (m_shift (a_mod a)) 2) a
  | ACaps => atoggle_caps a
  | ACtrl => aset_ctrl 1 a
  | ARepeat => put_rep (repeat_activate (a_rep a)) a
  | AMapsel n => aselect (N.setbit (a_cur a) n) a
  | AAutorepeat => put_rep (repeat_auto_on (a_rep a)) a
  | AStrobe => note EvStrobePos a
  | AVled n => aact (fn (wiring (a_cur a)) (6 + n)) (6 + n) a
  | AVout n => aact (fn (wiring (a_cur a)) n) n a
  | AFn n => match message (a_cur a) n with Some m => aprint m a | None => a end
  | ANothing | AHereIs | AOther => a
  end.

Definition aaction_off (code : N) (a : akb) : akb :=
  match decode code with
  | AShift => aset_shift 0 a
  | ACtrl => aset_ctrl 0 a
  | ARepeat => put_rep (repeat_deactivate (a_rep a)) a
  | AMapsel n => aselect (N.clearbit (a_cur a) n) a
  | AAutorepeat => put_rep (repeat_auto_off (a_rep a)) a
  | AStrobe => note EvStrobeNeg a
  | _ => a
  end.

(** Codes up to and including 0xA0 are queued, higher ones are actions. *)
Definition apress (code : N) (a : akb) : akb :=
  if (0xA0 <? code)%N then aaction_on code a
  else
    let a1 := put_qk (qput 16 code (a_qk a)) a in
    if (a_last a =? code)%N then a1
    else put_rep (repeat_reset_count (a_rep a1)) (put_last code a1).

Definition arelease (code : N) (a : akb) : akb :=
  if (0xA0 <? code)%N then aaction_off code a
  else if (a_last a =? code)%N then put_last 0xA0%N a else a.

(** A key that stays down. *)
Definition aheld (code : N) (a : akb) : akb :=
  if (code =? a_last a)%N then
    let '(due, r) := repeat_tick (a_rep a) in
    if (due : bool) then apress code (put_rep r a) else put_rep r a
  else a.

Definition reading (rd : nat -> N) (r c : nat) : bool := N.testbit (rd r) (N.of_nat c).

Definition key_step (rd : nat -> N) (r c : nat) (a : akb) : option akb :=
  let now := reading rd r c in
  if Bool.eqb now (a_dn a r c) then
    if now then obind (acode r c a) (fun code => Some (aheld code a)) else Some a
  else if (a_ct a r c =? 1)%N then
    let a1 := put_dn (set2 (a_dn a) r c now) (put_ct (set2 (a_ct a) r c 10%N) a) in
    obind (acode r c a1) (fun code => Some (if now then apress code a1 else arelease code a1))
  else Some (put_ct (set2 (a_ct a) r c (a_ct a r c - 1)%N) a).

Fixpoint keys_step (rd : nat -> N) (ps : list (nat * nat)) (a : akb) : option akb :=
  match ps with
  | [] => Some a
  | (r, c) :: t => obind (key_step rd r c a) (keys_step rd t)
  end.

(** Row-major positions of [n] rows starting at row [r]. *)
Definition grid (r n : nat) : list (nat * nat) := list_prod (seq r n) (seq 0 8).

(** Nine rows always; the rows beyond only when the keyboard then selected has
    them. *)
Definition ascan (rd : nat -> N) (a : akb) : option akb :=
  obind (keys_step rd (grid 0 9) a) (fun a1 =>
  keys_step rd (grid 9 (nrows (a_cur a1) - 9)) a1).

(** ** Ticks *)
Definition asend (a : akb) : akb :=
  match a_qm a with
  | c :: q => note (EvSend c) (note (EvDelayMs 40) (put_qm q a))
  | [] => match a_qk a with
          | c :: q => if (c <? 0xA0)%N then note (EvSend c) (put_qk q a) else put_qk q a
          | [] => a
          end
  end.

Definition atick (rd : nat -> N) (a : akb) : option akb := ascan rd (asend a).

Fixpoint aticks (rds : list (nat -> N)) (a : akb) : option akb :=
  match rds with
  | [] => Some a
  | rd :: t => obind (atick rd a) (aticks t)
  end.

(** After initialisation with modifiers [m] (the initialisation does not touch
    them) and log [l] before it. *)
Definition ainit (m : mods) (l : list event) : akb :=
  mkA (fun _ _ => false) (fun _ _ => 10%N) 0xA0 [] [] (repeat_init rep_zero) m
      (lev (wiring 0)) (EvArchInit :: l) 0.

Definition aboot : akb := ainit mods_zero [].
Definition arun (rds : list (nat -> N)) : option akb := aticks rds aboot.
