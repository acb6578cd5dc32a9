(** Abstract keyboard machine for the firmware built from any list of keymaps:
    sets of pressed keys instead of packed rows, two queues instead of the
    buffer pool, an ownership table instead of linked lists.  The tables that a
    keymap registers are part of the state. *)
From Coq Require Import List NArith Arith Bool.
From Verif Require Import Base Buffer Repeat Devices DevSpec Modifiers Hook Asdf KeySpec.
Import ListNotations.
Local Open Scope outcome_scope.

Record gkb := mkG {
  g_dn : nat -> nat -> bool;   (* accepted (debounced) state of key (r, c) *)
  g_ct : nat -> nat -> N;      (* differing scans still needed *)
  g_last : N;                  (* code that repeats, 0xA0 = none *)
  g_qk : list N;               (* key queue, oldest first *)
  g_qm : list N;               (* message queue *)
  g_rep : rep;
  g_mod : mods;
  g_vs : vspec;                (* outputs: owners, functions, levels *)
  g_log : list event;          (* newest first *)
  g_cur : N;                   (* selected keyboard *)
  g_maps : list kmap;          (* registered keycode tables *)
  g_hook : hooks;              (* registered functions *)
  g_delay : N                  (* pause after a message character *)
}.

Definition gp_dn x g := mkG x (g_ct g) (g_last g) (g_qk g) (g_qm g) (g_rep g) (g_mod g) (g_vs g) (g_log g) (g_cur g) (g_maps g) (g_hook g) (g_delay g).
Definition gp_ct x g := mkG (g_dn g) x (g_last g) (g_qk g) (g_qm g) (g_rep g) (g_mod g) (g_vs g) (g_log g) (g_cur g) (g_maps g) (g_hook g) (g_delay g).
Definition gp_last x g := mkG (g_dn g) (g_ct g) x (g_qk g) (g_qm g) (g_rep g) (g_mod g) (g_vs g) (g_log g) (g_cur g) (g_maps g) (g_hook g) (g_delay g).
Definition gp_qk x g := mkG (g_dn g) (g_ct g) (g_last g) x (g_qm g) (g_rep g) (g_mod g) (g_vs g) (g_log g) (g_cur g) (g_maps g) (g_hook g) (g_delay g).
Definition gp_qm x g := mkG (g_dn g) (g_ct g) (g_last g) (g_qk g) x (g_rep g) (g_mod g) (g_vs g) (g_log g) (g_cur g) (g_maps g) (g_hook g) (g_delay g).
Definition gp_rep x g := mkG (g_dn g) (g_ct g) (g_last g) (g_qk g) (g_qm g) x (g_mod g) (g_vs g) (g_log g) (g_cur g) (g_maps g) (g_hook g) (g_delay g).
Definition gp_mod x g := mkG (g_dn g) (g_ct g) (g_last g) (g_qk g) (g_qm g) (g_rep g) x (g_vs g) (g_log g) (g_cur g) (g_maps g) (g_hook g) (g_delay g).
Definition gp_vs x g := mkG (g_dn g) (g_ct g) (g_last g) (g_qk g) (g_qm g) (g_rep g) (g_mod g) x (g_log g) (g_cur g) (g_maps g) (g_hook g) (g_delay g).
Definition gp_log x g := mkG (g_dn g) (g_ct g) (g_last g) (g_qk g) (g_qm g) (g_rep g) (g_mod g) (g_vs g) x (g_cur g) (g_maps g) (g_hook g) (g_delay g).
Definition gp_cur x g := mkG (g_dn g) (g_ct g) (g_last g) (g_qk g) (g_qm g) (g_rep g) (g_mod g) (g_vs g) (g_log g) x (g_maps g) (g_hook g) (g_delay g).
Definition gp_maps x g := mkG (g_dn g) (g_ct g) (g_last g) (g_qk g) (g_qm g) (g_rep g) (g_mod g) (g_vs g) (g_log g) (g_cur g) x (g_hook g) (g_delay g).
Definition gp_hook x g := mkG (g_dn g) (g_ct g) (g_last g) (g_qk g) (g_qm g) (g_rep g) (g_mod g) (g_vs g) (g_log g) (g_cur g) (g_maps g) x (g_delay g).
Definition gp_delay x g := mkG (g_dn g) (g_ct g) (g_last g) (g_qk g) (g_qm g) (g_rep g) (g_mod g) (g_vs g) (g_log g) (g_cur g) (g_maps g) (g_hook g) x.

Definition gnote (e : event) (g : gkb) : gkb := gp_log (e :: g_log g) g.

(** ** Outputs, modifiers, messages *)
Definition gact (f : vfun) (v : nat) (g : gkb) : gkb :=
  let '(lv, ev) := spec_action f (own (g_vs g) v) (lev (g_vs g)) in
  gp_log (rev ev ++ g_log g) (gp_vs (mkVspec (own (g_vs g)) (fn (g_vs g)) lv) g).

Definition gset_shift (x : N) (g : gkb) : gkb :=
  let g1 := gact (if N.testbit x 1 then V_SET_HI else V_SET_LO) VSHIFT_LED g in
  gp_mod (mkMods x (m_caps (g_mod g1)) (m_ctrl (g_mod g1))) g1.

Definition gtoggle_caps (g : gkb) : gkb :=
  let x := N.lxor (m_caps (g_mod g)) 1 in
  let g1 := gact (if (x =? 0)%N then V_SET_LO else V_SET_HI) VCAPS_LED g in
  gp_mod (mkMods (m_shift (g_mod g1)) x (m_ctrl (g_mod g1))) g1.

Definition gset_ctrl (x : N) (g : gkb) : gkb :=
  gp_mod (mkMods (m_shift (g_mod g)) (m_caps (g_mod g)) x) g.

Definition gprint (m : list N) (g : gkb) : gkb := gp_qm (qput_all 128 (expand m) (g_qm g)) g.

(** What a format without arguments prints: "%%" is one '%', and there are no
    other conversions. *)
Fixpoint format (m : list N) : option (list N) :=
  match m with
  | [] => Some []
  | c :: t =>
      if (c =? 37)%N then
        match t with
        | d :: t' => if (d =? 37)%N then option_map (cons 37%N) (format t') else None
        | [] => None
        end
      else option_map (cons c) (format t)
  end.

(** Running the function registered at a hook. *)
Definition ghook (id : nat) (g : gkb) : outcome gkb :=
  match nth id (g_hook g) HUnset with
  | HNull => Ok g
  | HPrint m => match format m with Some l => Ok (gprint l g) | None => Bad UFormat end
  | _ => Bad UHookType
  end.

(** ** Setting up a keyboard *)
Definition gsetup_step (c : setup_cmd) (g : gkb) : gkb :=
  match c with
  | SAddMap m mi r cl =>
      if (mi <? 4) && (r <=? 16) && (cl <=? 8)
      then gp_maps (upd (g_maps g) mi (mkKmap (Some m) r cl)) g else g
  | SHook id f => if (0 <? id) && (id <? 16) then gp_hook (upd (g_hook g) id f) g else g
  | SAssign v p f i => gp_vs (fst (vspec_step (VAssign v p f i) (g_vs g))) g
  | SDelay ms => gp_delay (u8 ms) g
  | SCapslock => gtoggle_caps g
  | SNegStrobe => gnote EvStrobeNeg g
  end.

Definition gsetup (cs : list setup_cmd) (g : gkb) : gkb := fold_left (fun g c => gsetup_step c g) cs g.

Definition no_map : kmap := mkKmap None 0 0.

Definition gclear (i : N) (g : gkb) : gkb :=
  gnote EvArchInit (gp_maps (repeat no_map 4) (gp_hook hook_init (gp_vs spec_zero (gp_cur i g)))).

(** ** Keys *)

(** The code of key (r, c): read from the table of the map in force, with the
    width of the table number [g_cur]. *)
Definition gcode (r c : nat) (g : gkb) : outcome N :=
  match nth_error (g_maps g) (N.to_nat (g_cur g)) with
  | None => Bad UKeymapsOob
  | Some km =>
      if (km_cols km =? 0) || (km_rows km =? 0) then Ok 0%N
      else match km_matrix (nth (map_now (g_mod g)) (g_maps g) no_map) with
           | None => Bad UMatrixNull
           | Some m => lget UMatrixOob m (r * km_cols km + c)
           end
  end.

Definition g_rows (g : gkb) : nat := km_rows (nth (map_now (g_mod g)) (g_maps g) no_map).
Definition g_cols (g : gkb) : nat := km_cols (nth (map_now (g_mod g)) (g_maps g) no_map).

Section Machine.

Variable kbs : N -> option (list setup_cmd).

Definition gswitch (i : N) (g : gkb) : gkb :=
  match kbs i with Some cs => gsetup cs (gclear i g) | None => g end.

Definition gselect (i : N) (g : gkb) : gkb := if (i =? g_cur g)%N then g else gswitch i g.

Definition gaction_on (code : N) (g : gkb) : outcome gkb :=
  match decode code with
  | AShift => Ok (gset_shift 1 g)
  | AShiftlockOn => Ok (gset_shift (N.lor (m_shift (g_mod g)) 2) g)
  | AShiftlockToggle => Ok (gset_shift (N.lxor (m_shift (g_mod g)) 2) g)
  | ACaps => Ok (gtoggle_caps g)
  | ACtrl => Ok (gset_ctrl 1 g)
  | ARepeat => Ok (gp_rep (repeat_activate (g_rep g)) g)
  | AMapsel n => Ok (gselect (u8 (N.setbit (g_cur g) n)) g)
  | AAutorepeat => Ok (gp_rep (repeat_auto_on (g_rep g)) g)
  | AStrobe => Ok (gnote EvStrobePos g)
  | AVled n => Ok (gact (fn (g_vs g) (6 + n)) (6 + n) g)
  | AVout n => Ok (gact (fn (g_vs g) n) n g)
  | ANothing | AHereIs => ghook 5 g
  | AFn n => if n <=? 10 then ghook (4 + n) g else Ok g
  | AOther => Ok g
  end.

Definition gaction_off (code : N) (g : gkb) : gkb :=
  match decode code with
  | AShift => gset_shift 0 g
  | ACtrl => gset_ctrl 0 g
  | ARepeat => gp_rep (repeat_deactivate (g_rep g)) g
  | AMapsel n => gselect (u8 (N.clearbit (g_cur g) n)) g
  | AAutorepeat => gp_rep (repeat_auto_off (g_rep g)) g
  | AStrobe => gnote EvStrobeNeg g
  | _ => g
  end.

Definition gpress (code : N) (g : gkb) : outcome gkb :=
  if (0xA0 <? code)%N then gaction_on code g
  else
    let g1 := gp_qk (qput 16 code (g_qk g)) g in
    Ok (if (g_last g =? code)%N then g1
        else gp_rep (repeat_reset_count (g_rep g1)) (gp_last code g1)).

Definition grelease (code : N) (g : gkb) : gkb :=
  if (0xA0 <? code)%N then gaction_off code g
  else if (g_last g =? code)%N then gp_last 0xA0%N g else g.

Definition gheld (code : N) (g : gkb) : outcome gkb :=
  if (code =? g_last g)%N then
    let '(due, r) := repeat_tick (g_rep g) in
    if (due : bool) then gpress code (gp_rep r g) else Ok (gp_rep r g)
  else Ok g.

Definition gkey (rd : nat -> N) (r c : nat) (g : gkb) : outcome gkb :=
  let now := reading rd r c in
  if Bool.eqb now (g_dn g r c) then
    if now then code <- gcode r c g ;; gheld code g else Ok g
  else if (g_ct g r c =? 1)%N then
    let g1 := gp_dn (set2 (g_dn g) r c now) (gp_ct (set2 (g_ct g) r c 10%N) g) in
    code <- gcode r c g1 ;; if now then gpress code g1 else Ok (grelease code g1)
  else Ok (gp_ct (set2 (g_ct g) r c (g_ct g r c - 1)%N) g).

(** A row, as long as the table in force has columns; the rows, as long as it
    has rows. *)
Fixpoint gcols (n : nat) (rd : nat -> N) (r c : nat) (g : gkb) : outcome gkb :=
  match n with
  | O => Ok g
  | S n' => if c <? g_cols g then g1 <- gkey rd r c g ;; gcols n' rd r (S c) g1 else Ok g
  end.

Fixpoint grows (n : nat) (rd : nat -> N) (r : nat) (g : gkb) : outcome gkb :=
  match n with
  | O => Ok g
  | S n' => if r <? g_rows g then g1 <- gcols 8 rd r 0 g ;; grows n' rd (S r) g1 else Ok g
  end.

Definition gscan (rd : nat -> N) (g : gkb) : outcome gkb :=
  match nth HOOK_ROW_SCANNER (g_hook g) HUnset with
  | HReadRow => g1 <- ghook HOOK_EACH_SCAN g ;; grows 16 rd 0 g1
  | _ => Bad UHookType
  end.

(** ** Ticks *)
Definition gemit (c : N) (g : gkb) : outcome gkb :=
  if (c <? 0xA0)%N then
    match nth HOOK_OUTPUT (g_hook g) HUnset with
    | HSend => Ok (gnote (EvSend c) g)
    | _ => Bad UHookType
    end
  else Ok g.

Definition gsend (g : gkb) : outcome gkb :=
  let c := hd 0xA0%N (g_qm g) in
  let g1 := gp_qm (tl (g_qm g)) g in
  if (c =? 0xA0)%N then gemit (hd 0xA0%N (g_qk g)) (gp_qk (tl (g_qk g)) g1)
  else gemit c (gnote (EvDelayMs (g_delay g)) g1).

Definition gtick (rd : nat -> N) (g : gkb) : outcome gkb := g1 <- gsend g ;; gscan rd g1.

Fixpoint gticks (rds : list (nat -> N)) (g : gkb) : outcome gkb :=
  match rds with
  | [] => Ok g
  | rd :: t => g1 <- gtick rd g ;; gticks t g1
  end.

(** After initialisation: nothing pressed, nothing queued, keyboard 0. *)
Definition gzero : gkb :=
  mkG (fun _ _ => false) (fun _ _ => 10%N) 0xA0 [] [] (repeat_init rep_zero) mods_zero spec_zero []
      0 (repeat no_map 4) hooks_zero 0.
Definition gboot : gkb := gswitch 0 gzero.
Definition grun (rds : list (nat -> N)) : outcome gkb := gticks rds gboot.

End Machine.
