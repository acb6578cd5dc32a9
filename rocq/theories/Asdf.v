(** Model of asdf_keymaps.c, asdf_keymap_setup.c.in, Keymaps/*.c (setup
    functions), asdf_print.c, asdf.c and main.c. *)
From Coq Require Import List NArith ZArith Arith Bool.
From Verif Require Import Base Buffer Repeat Devices Modifiers Hook KeymapData.
Import ListNotations.
Local Open Scope outcome_scope.

(** ** State *)

(** asdf_keymaps.h: asdf_keycode_map_t.  A matrix pointer is [None] (NULL) or
    the flat contents of the matrix it points to. *)
Record kmap := mkKmap { km_matrix : option (list N); km_rows : nat; km_cols : nat }.

(** All static variables of asdf.c (48-74) and asdf_keymaps.c (36-39) plus the
    states of the other modules.  [k_cnt] is debounce_counters[16][8] stored
    flat. *)
Record kb := mkKb {
  k_stable : list N;   (* last_stable_key_state *)
  k_cnt : list N;      (* debounce_counters *)
  k_last : N;          (* last_key *)
  k_hkey : Z;          (* asdf_keycode_buffer *)
  k_hmsg : Z;          (* asdf_message_buffer *)
  k_delay : N;         (* asdf_print_delay_ms *)
  k_buf : bufs;
  k_rep : rep;
  k_mod : mods;
  k_dev : devs;
  k_hook : hooks;
  k_maps : list kmap;  (* keymaps[ASDF_MOD_NUM_MODIFIERS] *)
  k_cur : N            (* current_keyboard_index *)
}.

(** Static storage at power-on (asdf.c 48-74, asdf_keymaps.c 36-39). *)
Definition kb_zero : kb :=
  mkKb (repeat 0%N 16) (repeat 0%N 128) 0 0 0 0 bufs_zero rep_zero mods_zero devs_zero
       hooks_zero (repeat (mkKmap None 0 0) 4) 0.

(** Assignments to these variables, one function for each. *)
Definition set_stable x s := mkKb x (k_cnt s) (k_last s) (k_hkey s) (k_hmsg s) (k_delay s) (k_buf s) (k_rep s) (k_mod s) (k_dev s) (k_hook s) (k_maps s) (k_cur s).
Definition set_cnt x s := mkKb (k_stable s) x (k_last s) (k_hkey s) (k_hmsg s) (k_delay s) (k_buf s) (k_rep s) (k_mod s) (k_dev s) (k_hook s) (k_maps s) (k_cur s).
Definition set_last x s := mkKb (k_stable s) (k_cnt s) x (k_hkey s) (k_hmsg s) (k_delay s) (k_buf s) (k_rep s) (k_mod s) (k_dev s) (k_hook s) (k_maps s) (k_cur s).
Definition set_handles x y s := mkKb (k_stable s) (k_cnt s) (k_last s) x y (k_delay s) (k_buf s) (k_rep s) (k_mod s) (k_dev s) (k_hook s) (k_maps s) (k_cur s).
Definition set_delay x s := mkKb (k_stable s) (k_cnt s) (k_last s) (k_hkey s) (k_hmsg s) x (k_buf s) (k_rep s) (k_mod s) (k_dev s) (k_hook s) (k_maps s) (k_cur s).
Definition set_buf x s := mkKb (k_stable s) (k_cnt s) (k_last s) (k_hkey s) (k_hmsg s) (k_delay s) x (k_rep s) (k_mod s) (k_dev s) (k_hook s) (k_maps s) (k_cur s).
Definition set_rep x s := mkKb (k_stable s) (k_cnt s) (k_last s) (k_hkey s) (k_hmsg s) (k_delay s) (k_buf s) x (k_mod s) (k_dev s) (k_hook s) (k_maps s) (k_cur s).
Definition set_md (x : md) s := mkKb (k_stable s) (k_cnt s) (k_last s) (k_hkey s) (k_hmsg s) (k_delay s) (k_buf s) (k_rep s) (fst x) (snd x) (k_hook s) (k_maps s) (k_cur s).
Definition set_dev x s := mkKb (k_stable s) (k_cnt s) (k_last s) (k_hkey s) (k_hmsg s) (k_delay s) (k_buf s) (k_rep s) (k_mod s) x (k_hook s) (k_maps s) (k_cur s).
Definition set_hook x s := mkKb (k_stable s) (k_cnt s) (k_last s) (k_hkey s) (k_hmsg s) (k_delay s) (k_buf s) (k_rep s) (k_mod s) (k_dev s) x (k_maps s) (k_cur s).
Definition set_maps x s := mkKb (k_stable s) (k_cnt s) (k_last s) (k_hkey s) (k_hmsg s) (k_delay s) (k_buf s) (k_rep s) (k_mod s) (k_dev s) (k_hook s) x (k_cur s).
Definition set_cur x s := mkKb (k_stable s) (k_cnt s) (k_last s) (k_hkey s) (k_hmsg s) (k_delay s) (k_buf s) (k_rep s) (k_mod s) (k_dev s) (k_hook s) (k_maps s) x.

(** Lifting module functions to the whole state. *)
Definition on_md (f : md -> outcome md) (s : kb) : outcome kb :=
  x <- f (k_mod s, k_dev s) ;; Ok (set_md x s).
Definition on_dev (f : devs -> outcome devs) (s : kb) : outcome kb :=
  d <- f (k_dev s) ;; Ok (set_dev d s).
Definition on_rep (f : rep -> rep) (s : kb) : outcome kb := Ok (set_rep (f (k_rep s)) s).
Definition emit_kb (e : event) (s : kb) : kb := set_dev (emit e (k_dev s)) s.

(** ** asdf.c, buffers and messages *)

(** asdf.c 90-93. *)
Definition put_code (code : N) (s : kb) : outcome kb :=
  b <- buffer_put (k_hkey s) code (k_buf s) ;; Ok (set_buf b s).

(** asdf.c 111-119.  Recursion depth is one: '\r' is not '\n'. *)
Definition putc (c : N) (s : kb) : outcome kb :=
  b1 <- (if (c =? 10)%N then buffer_put (k_hmsg s) 13 (k_buf s) else Ok (k_buf s)) ;;
  b2 <- buffer_put (k_hmsg s) c b1 ;;
  Ok (set_buf b2 s).

(** asdf_print.c 55-62, called with a format and nothing else: vfprintf writes
    each character through asdf_putc, and "%%" as one '%'.  Any other conversion
    lacks its argument or is malformed, which is undefined (C11 7.21.6.1, 2 and
    9). *)
Fixpoint print (m : list N) (s : kb) : outcome kb :=
  match m with
  | [] => Ok s
  | c :: t =>
      if (c =? 37)%N then
        match t with
        | d :: t' => if (d =? 37)%N then s1 <- putc 37 s ;; print t' s1 else Bad UFormat
        | [] => Bad UFormat
        end
      else s1 <- putc c s ;; print t s1
  end.

(** asdf.c 141-151. *)
Definition next_code (s : kb) : outcome (N * kb) :=
  '(code, b) <- buffer_get (k_hmsg s) (k_buf s) ;;
  if (code =? INVALID)%N then
    '(code2, b2) <- buffer_get (k_hkey s) b ;; Ok (code2, set_buf b2 s)
  else Ok (code, emit_kb (EvDelayMs (k_delay s)) (set_buf b s)).

(** asdf.c 170-173. *)
Definition set_print_delay (ms : N) (s : kb) : kb := set_delay (u8 ms) s.

(** ** asdf_hook.c 96-101: asdf_hook_execute.  Hooks are called as void(void);
    executing any of the three typed defaults this way does not occur in the
    firmware and is classified as a type error. *)
Definition hook_execute (id : nat) (s : kb) : outcome kb :=
  if hook_valid_id id then
    f <- lget UHookType (k_hook s) id ;;
    match f with
    | HNull => Ok s
    | HPrint m => print m s
    | _ => Bad UHookType
    end
  else Ok s.

(** ** asdf_keymaps.c *)

(** asdf.h 39-40: ASDF_MAX_COLS, ASDF_MAX_ROWS. *)
Definition max_cols := 8.
Definition max_rows := 16.

(** asdf_keymaps.c 60-72. *)
Definition add_map (matrix : option (list N)) (mi rows cols : nat) (s : kb) : outcome kb :=
  if (mi <? num_modifiers) && (rows <=? max_rows) && (cols <=? max_cols) then
    ms <- lset UKeymapsOob (k_maps s) mi (mkKmap matrix rows cols) ;; Ok (set_maps ms s)
  else Ok s.

(** asdf_keymaps.c 88-91, 107-110. *)
Definition active_map (s : kb) : outcome kmap :=
  mi <- modifier_index (k_mod s) ;; lget UKeymapsOob (k_maps s) mi.
Definition num_rows (s : kb) : outcome nat := m <- active_map s ;; Ok (km_rows m).
Definition num_cols (s : kb) : outcome nat := m <- active_map s ;; Ok (km_cols m).

(** asdf_keymaps.c 127-140. *)
Definition keymaps_reset (s : kb) : outcome kb :=
  s1 <- add_map None 0 0 0 s ;;
  s2 <- add_map None 1 0 0 s1 ;;
  s3 <- add_map None 2 0 0 s2 ;;
  s4 <- add_map None 3 0 0 s3 ;;
  Ok (set_hook hook_init (set_dev (virtual_init (k_dev s4)) s4)).

(** Setup commands of the keymaps, each a call made by a setup function of
    Keymaps/*.c (the lines are cited below): asdf_keymaps_add_map (asdf_keymaps.c
    60-72), asdf_hook_assign (asdf_hook.c 140-145), asdf_virtual_assign
    (asdf_virtual.c 187-199), asdf_set_print_delay (asdf.c 170-173),
    asdf_modifier_capslock_activate (asdf_modifiers.c 144-147),
    asdf_arch_set_neg_strobe. *)
Inductive setup_cmd :=
| SAddMap (matrix : list N) (mi rows cols : nat)
| SHook (id : nat) (f : hookfn)
| SAssign (vo po : nat) (fn : vfun) (init : N)
| SDelay (ms : N)
| SCapslock
| SNegStrobe.

(** The effect of one such call, and of a whole setup function. *)
Definition setup_step (c : setup_cmd) (s : kb) : outcome kb :=
  match c with
  | SAddMap m mi r cl => add_map (Some m) mi r cl s
  | SHook id f => h <- hook_assign id f (k_hook s) ;; Ok (set_hook h s)
  | SAssign vo po fn i => on_dev (virtual_assign vo po fn i) s
  | SDelay ms => Ok (set_print_delay ms s)
  | SCapslock => on_md capslock_activate s
  | SNegStrobe => Ok (emit_kb EvStrobeNeg s)
  end.

Fixpoint setup_run (cs : list setup_cmd) (s : kb) : outcome kb :=
  match cs with
  | [] => Ok s
  | c :: t => s1 <- setup_step c s ;; setup_run t s1
  end.

(** Keymaps/asdf_keymap_classic.c 54-80 (with asdf_keymap_classic.h 39-64 and
    asdf_keymap_classic_add_map.c 135-151). *)
Definition setup_classic : list setup_cmd :=
  [ SDelay 40;
    SAddMap classic_plain MOD_PLAIN 9 8; SAddMap classic_caps MOD_CAPS 9 8;
    SAddMap classic_shift MOD_SHIFT 9 8; SAddMap classic_ctrl MOD_CTRL 9 8;
    SHook HOOK_USER_10 (HPrint msg_classic_id);
    SHook HOOK_USER_9 (HPrint msg_applesoft_test);
    SAssign VLED1 LED1 V_NOFUNC 1; SAssign VCAPS_LED LED3 V_NOFUNC 0;
    SAssign VOUT1 OUT3_OPEN_HI V_PULSE_SHORT 1; SAssign VOUT2 OUT1_OPEN_LO V_PULSE_LONG 0 ].

(** Keymaps/asdf_keymap_classic_caps.c 57-83. *)
Definition setup_classic_caps : list setup_cmd :=
  [ SDelay 40;
    SAddMap classic_caps MOD_PLAIN 9 8; SAddMap classic_caps MOD_CAPS 9 8;
    SAddMap classic_shift MOD_SHIFT 9 8; SAddMap classic_ctrl MOD_CTRL 9 8;
    SHook HOOK_USER_10 (HPrint msg_classic_caps_id);
    SHook HOOK_USER_9 (HPrint msg_applesoft_test);
    SAssign VLED1 LED1 V_NOFUNC 1; SAssign VLED1 LED3 V_NOFUNC 0;
    SAssign VOUT1 OUT3_OPEN_HI V_PULSE_SHORT 1; SAssign VOUT2 OUT1_OPEN_LO V_PULSE_LONG 0 ].

(** Keymaps/asdf_keymap_apple2.c 55-84 (with asdf_keymap_apple2.h 44-48 and
    asdf_keymap_apple2_add_map.h 37-61). *)
Definition setup_apple2 : list setup_cmd :=
  [ SDelay 40;
    SAddMap apple_plain MOD_PLAIN 9 8; SAddMap apple_caps MOD_CAPS 9 8;
    SAddMap apple_shift MOD_SHIFT 9 8; SAddMap apple_ctrl MOD_CTRL 9 8;
    SHook HOOK_USER_3 (HPrint msg_applesoft_test);
    SHook HOOK_USER_10 (HPrint msg_apple2_id);
    SAssign VCAPS_LED LED1 V_NOFUNC 0; SAssign VLED2 LED3 V_NOFUNC 0;
    SAssign VOUT1 OUT3_OPEN_HI V_PULSE_SHORT 1; SAssign VOUT2 OUT1_OPEN_LO V_PULSE_LONG 0;
    SCapslock ].

(** Keymaps/asdf_keymap_apple2_caps.c 52-76; here APPLESOFT_KEYBOARD_TEST is
    ASDF_HOOK_USER_9 (asdf_keymap_apple2_caps.h 42). *)
Definition setup_apple2_caps : list setup_cmd :=
  [ SDelay 40;
    SAddMap apple_caps MOD_PLAIN 9 8; SAddMap apple_caps MOD_CAPS 9 8;
    SAddMap apple_caps_shift MOD_SHIFT 9 8; SAddMap apple_ctrl MOD_CTRL 9 8;
    SHook HOOK_USER_9 (HPrint msg_applesoft_test);
    SHook HOOK_USER_10 (HPrint msg_apple2_caps_id);
    SAssign VLED1 LED1 V_NOFUNC 0; SAssign VLED2 LED3 V_NOFUNC 0;
    SAssign VOUT1 OUT3_OPEN_HI V_PULSE_SHORT 1; SAssign VOUT2 OUT1_OPEN_LO V_PULSE_LONG 0 ].

(** Keymaps/asdf_keymap_sol.c 150-183. *)
Definition setup_sol : list setup_cmd :=
  [ SAddMap sol_plain MOD_PLAIN 13 8; SAddMap sol_caps MOD_CAPS 13 8;
    SAddMap sol_shift MOD_SHIFT 13 8; SAddMap sol_ctrl MOD_CTRL 13 8;
    SDelay 40;
    SAssign VCAPS_LED LED1 V_NOFUNC 0; SAssign VSHIFT_LED LED3 V_NOFUNC 0;
    SAssign VOUT3 OUT1 V_TOGGLE 1; SAssign VOUT3 LED2 V_TOGGLE 0;
    SAssign VOUT1 OUT3_OPEN_HI V_PULSE_SHORT 1; SAssign VOUT2 OUT2 V_PULSE_LONG 1;
    SCapslock; SNegStrobe;
    SHook HOOK_USER_10 (HPrint msg_sol_id) ].

(** Keymaps/asdf_keymap_ace1000.c 56-85. *)
Definition setup_ace1000 : list setup_cmd :=
  [ SDelay 40;
    SAddMap ace_plain MOD_PLAIN 10 8; SAddMap ace_caps MOD_CAPS 10 8;
    SAddMap ace_shift MOD_SHIFT 10 8; SAddMap ace_ctrl MOD_CTRL 10 8;
    SHook HOOK_USER_10 (HPrint msg_ace1000_id);
    SHook HOOK_USER_9 (HPrint msg_ace1000_test);
    SAssign VLED1 LED1 V_NOFUNC 1; SAssign VCAPS_LED LED3 V_NOFUNC 0;
    SAssign VOUT1 OUT3_OPEN_HI V_PULSE_SHORT 1; SAssign VOUT2 OUT1_OPEN_LO V_PULSE_LONG 0;
    SCapslock ].

(** asdf_keymap_setup.c.in 52-56 with keymap_list.cmake; the default label of
    the switch coincides with case 0. *)
Definition setup_of (index : N) : list setup_cmd :=
  match index with
  | 1 => setup_classic_caps
  | 2 => setup_apple2
  | 3 => setup_apple2_caps
  | 4 => setup_sol
  | 5 => setup_ace1000
  | _ => setup_classic
  end%N.

(** asdf_keymap_setup.c.in 74-87. *)
Definition keymap_valid (index : N) : bool := (index <? 6)%N.

(** asdf_keymaps.c 160-173. *)
Definition keymaps_switch (index : N) (s : kb) : outcome kb :=
  if keymap_valid index then
    s1 <- keymaps_reset (emit_kb EvArchInit (set_cur index s)) ;;
    setup_run (setup_of index) s1
  else Ok s.

(** asdf_keymaps.c 190-196. *)
Definition keymaps_select (index : N) (s : kb) : outcome kb :=
  if (index =? k_cur s)%N then Ok s else keymaps_switch index s.

(** asdf_keymaps.c 212-215. *)
Definition keymaps_init (s : kb) : outcome kb := keymaps_switch 0 s.

(** asdf_keymaps.c 232-375: map_select_n_set / map_select_n_clear, n = 0..3.
    Arguments are truncated to uint8_t by the call of asdf_keymaps_select. *)
Definition map_select_set (n : N) (s : kb) : outcome kb :=
  keymaps_select (u8 (N.lor (k_cur s) (N.shiftl 1 n))) s.
Definition map_select_clear (n : N) (s : kb) : outcome kb :=
  keymaps_select (u8 (N.ldiff (k_cur s) (N.shiftl 1 n))) s.

(** asdf_keymaps.c 394-405.  The matrix is viewed with the column count of
    keymaps[current_keyboard_index]. *)
Definition get_code (row col mi : nat) (s : kb) : outcome N :=
  km <- lget UKeymapsOob (k_maps s) (N.to_nat (k_cur s)) ;;
  if negb (km_cols km =? 0) && negb (km_rows km =? 0) then
    mm <- lget UKeymapsOob (k_maps s) mi ;;
    match km_matrix mm with
    | None => Bad UMatrixNull
    | Some m => lget UMatrixOob m (row * km_cols km + col)
    end
  else Ok 0%N.

(** asdf.c 190-193. *)
Definition lookup_keycode (row col : nat) (s : kb) : outcome N :=
  mi <- modifier_index (k_mod s) ;; get_code row col mi s.

(** ** Actions *)

(** asdf.h 54-105: action_t. *)
Inductive action :=
| ANothing | AShift | AShiftlockOn | AShiftlockToggle | ACaps | ACtrl | ARepeat | AHereIs
| AMapsel (n : N) | AAutorepeat | AStrobe | AVled (n : nat) | AVout (n : nat) | AFn (n : nat)
| AOther.

(** asdf.h 33. *)
Definition ASDF_ACTION : N := 0xA0.

(** asdf.h 54-105: the values of action_t. *)
Definition decode (c : N) : action :=
  (if c =? 0xA0 then ANothing
  else if c =? 0xA1 then AShift
  else if c =? 0xA2 then AShiftlockOn
  else if c =? 0xA3 then AShiftlockToggle
  else if c =? 0xA4 then ACaps
  else if c =? 0xA5 then ACtrl
  else if c =? 0xA6 then ARepeat
  else if c =? 0xA7 then AHereIs
  else if (0xA8 <=? c) && (c <=? 0xAB) then AMapsel (c - 0xA8)
  else if c =? 0xAC then AAutorepeat
  else if c =? 0xAD then AStrobe
  else if (0xAE <=? c) && (c <=? 0xB0) then AVled (N.to_nat (c - 0xAD))
  else if (0xB1 <=? c) && (c <=? 0xB6) then AVout (N.to_nat (c - 0xB0))
  else if (0xB7 <=? c) && (c <=? 0xC1) then AFn (N.to_nat (c - 0xB6))
  else AOther)%N.

(** asdf.c 219-341.  ACTION_NOTHING and ACTION_HERE_IS fall through to
    ACTION_FN_1; there is no case for ACTION_FN_11. *)
Definition activate_action (c : N) (s : kb) : outcome kb :=
  match decode c with
  | AShift => on_md shift_activate s
  | AShiftlockOn => on_md shiftlock_on_activate s
  | AShiftlockToggle => on_md shiftlock_toggle_activate s
  | ACaps => on_md capslock_activate s
  | ACtrl => on_md ctrl_activate s
  | ARepeat => on_rep repeat_activate s
  | AMapsel n => map_select_set n s
  | AStrobe => Ok (emit_kb EvStrobePos s)
  | AAutorepeat => on_rep repeat_auto_on s
  | AVled n => on_dev (virtual_activate (VLED1 + n - 1)) s
  | AVout n => on_dev (virtual_activate (VOUT1 + n - 1)) s
  | ANothing | AHereIs => hook_execute HOOK_USER_1 s
  | AFn n => if n <=? 10 then hook_execute (HOOK_USER_1 + n - 1) s else Ok s
  | AOther => Ok s
  end.

(** asdf.c 361-403. *)
Definition deactivate_action (c : N) (s : kb) : outcome kb :=
  match decode c with
  | AShift => on_md shift_deactivate s
  | ACtrl => on_md ctrl_deactivate s
  | ARepeat => on_rep repeat_deactivate s
  | AMapsel n => map_select_clear n s
  | AStrobe => Ok (emit_kb EvStrobeNeg s)
  | AAutorepeat => on_rep repeat_auto_off s
  | _ => Ok s
  end.

(** ** Key scanner *)

(** asdf.c 421-435. *)
Definition activate_key (c : N) (s : kb) : outcome kb :=
  if (ASDF_ACTION <? c)%N then activate_action c s
  else
    s1 <- put_code c s ;;
    if (k_last s1 =? c)%N then Ok s1
    else on_rep repeat_reset_count (set_last c s1).

(** asdf.c 453-464. *)
Definition deactivate_key (c : N) (s : kb) : outcome kb :=
  if (ASDF_ACTION <? c)%N then deactivate_action c s
  else if (k_last s =? c)%N then Ok (set_last 0xA0 s) else Ok s.

(** debounce_counters[row][col] (asdf.c 54). *)
Definition cnt_get (row col : nat) (s : kb) : outcome N :=
  if col <? max_cols then lget UScanOob (k_cnt s) (row * max_cols + col) else Bad UScanOob.
Definition cnt_set (row col : nat) (v : N) (s : kb) : outcome kb :=
  if col <? max_cols then
    c <- lset UScanOob (k_cnt s) (row * max_cols + col) v ;; Ok (set_cnt c s)
  else Bad UScanOob.

(** asdf.c 59: ASDF_DEBOUNCE_TIME_MS (asdf_config.h 60). *)
Definition DEBOUNCE : N := 10.

(** asdf.c 488-508. *)
Definition handle_change (row col : nat) (pressed : bool) (s : kb) : outcome kb :=
  c <- cnt_get row col s ;;
  let c1 := u8 (c + 255) in                       (* pre-decrement of the uint8_t counter *)
  s1 <- cnt_set row col c1 s ;;
  if (c1 =? 0)%N then
    s2 <- cnt_set row col DEBOUNCE s1 ;;
    st <- lget UScanOob (k_stable s2) row ;;
    if pressed then
      l <- lset UScanOob (k_stable s2) row (N.lor st (N.shiftl 1 (N.of_nat col))) ;;
      let s3 := set_stable l s2 in
      code <- lookup_keycode row col s3 ;; activate_key code s3
    else
      l <- lset UScanOob (k_stable s2) row (N.ldiff st (N.shiftl 1 (N.of_nat col))) ;;
      let s3 := set_stable l s2 in
      code <- lookup_keycode row col s3 ;; deactivate_key code s3
  else Ok s1.

(** asdf.c 531-540. *)
Definition handle_held (row col : nat) (s : kb) : outcome kb :=
  code <- lookup_keycode row col s ;;
  if (code =? k_last s)%N then
    let '(timeout, r) := repeat_tick (k_rep s) in
    let s1 := set_rep r s in
    if (timeout : bool) then activate_key (k_last s1) s1 else Ok s1
  else Ok s.

(** asdf.c 575-585: the inner loop.  [state] and [changed] are shifted right
    once per column.  At most 256 iterations: col is a uint8_t. *)
Fixpoint cols_loop (fuel : nat) (row col : nat) (state changed : N) (s : kb) : outcome kb :=
  match fuel with
  | O => Bad UDiverge
  | S f =>
    nc <- num_cols s ;;
    if col <? nc then
      s1 <- (if N.odd changed then handle_change row col (N.odd state) s
             else if N.odd state then handle_held row col s
             else Ok s) ;;
      cols_loop f row (S col) (N.div2 state) (N.div2 changed) s1
    else Ok s
  end.

(** asdf.c 569-586: the outer loop.  [rd row] is what the row reader returns. *)
Fixpoint rows_loop (fuel : nat) (rd : nat -> N) (row : nat) (s : kb) : outcome kb :=
  match fuel with
  | O => Bad UDiverge
  | S f =>
    nr <- num_rows s ;;
    if row <? nr then
      let state := u8 (rd row) in
      st <- lget UScanOob (k_stable s) row ;;
      s1 <- cols_loop 256 row 0 state (N.lxor state st) s ;;
      rows_loop f rd (S row) s1
    else Ok s
  end.

(** asdf.c 564-587.  The row reader must be asdf_arch_read_row; the row select
    outputs it drives are modelled in the Arch files. *)
Definition keyscan (rd : nat -> N) (s : kb) : outcome kb :=
  f <- hook_get HOOK_ROW_SCANNER (k_hook s) ;;
  match f with
  | HReadRow =>
      s1 <- hook_execute HOOK_EACH_SCAN s ;;
      rows_loop 256 rd 0 s1
  | _ => Bad UHookType
  end.

(** asdf.c 642-663. *)
Definition init (s : kb) : outcome kb :=
  let s1 := set_last 0xA0 s in
  let s2 := set_buf (buffer_init (k_buf s1)) s1 in
  s3 <- on_rep repeat_init s2 ;;
  s4 <- keymaps_init s3 ;;
  '(hk, b1) <- buffer_new 16 (k_buf s4) ;;
  '(hm, b2) <- buffer_new 128 b1 ;;
  Ok (set_cnt (repeat DEBOUNCE 128) (set_stable (repeat 0%N 16)
        (set_handles hk hm (set_buf b2 s4)))).

(** asdf.c 605-626 (not called by the firmware). *)
Fixpoint apply_cols (fuel : nat) (row col : nat) (state : N) (s : kb) : outcome kb :=
  match fuel with
  | O => Bad UDiverge
  | S f =>
    nc <- num_cols s ;;
    if col <? nc then
      code <- lookup_keycode row col s ;;
      s1 <- (if N.odd state then activate_action code s else deactivate_action code s) ;;
      apply_cols f row (S col) (N.div2 state) s1
    else Ok s
  end.
Fixpoint apply_rows (fuel : nat) (rd : nat -> N) (row : nat) (s : kb) : outcome kb :=
  match fuel with
  | O => Bad UDiverge
  | S f =>
    nr <- num_rows s ;;
    if row <? nr then
      let state := u8 (rd row) in
      l <- lset UScanOob (k_stable s) row state ;;
      s1 <- apply_cols 256 row 0 state (set_stable l s) ;;
      apply_rows f rd (S row) s1
    else Ok s
  end.
Definition apply_all_actions (rd : nat -> N) (s : kb) : outcome kb :=
  f <- hook_get HOOK_ROW_SCANNER (k_hook s) ;;
  match f with HReadRow => apply_rows 256 rd 0 s | _ => Bad UHookType end.

(** ** main.c 61-80: the body of the loop when a tick is due. *)
Definition output (code : N) (s : kb) : outcome kb :=
  f <- hook_get HOOK_OUTPUT (k_hook s) ;;
  match f with HSend => Ok (emit_kb (EvSend code) s) | _ => Bad UHookType end.

(** main.c 68-78. *)
Definition tick (rd : nat -> N) (s : kb) : outcome kb :=
  '(code, s1) <- next_code s ;;
  s2 <- (if (code <? INVALID)%N then output code s1 else Ok s1) ;;
  keyscan rd s2.

(** main.c 61-80: power-on followed by one tick per element of [rds]. *)
Definition boot : outcome kb := init kb_zero.

Fixpoint ticks (rds : list (nat -> N)) (s : kb) : outcome kb :=
  match rds with
  | [] => Ok s
  | rd :: t => s1 <- tick rd s ;; ticks t s1
  end.

Definition run (rds : list (nat -> N)) : outcome kb := s <- boot ;; ticks rds s.
