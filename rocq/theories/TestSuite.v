(** The project's own unit tests, run on the model.

    firmware/asdf/test holds unit tests that the authors run against the C
    code.  Each test of the suites that the build runs (test_asdf_buffer.c,
    test_asdf_repeat.c, test_asdf_modifiers.c, test_asdf_virtual.c,
    test_asdf_keymaps.c, test_asdf_hook.c) is transcribed below, statement by
    statement, as a list of calls and assertions on the model's functions, and
    evaluated.  These are tests, not proofs: they prove no claim.  They are
    evidence that the model is the code the authors tested.  Every assertion
    holds of the model, except that three tests make the code read keymaps[4] or
    beyond, which the model reports as undefined ([dip_suite], [hook_suite]).

    test_asdf.c is not in the build.  Its tests are transcribed too, each from
    power-on (see there). *)
From Coq Require Import List NArith ZArith Arith Bool String Ascii.
From Verif Require Import Base Buffer Repeat Devices Modifiers Hook KeymapData Asdf ArchTest Custom.
Import ListNotations.
Local Open Scope outcome_scope.

(** ** Tests as data *)

(** A statement of a test on a state [S]: a call, or an assertion that a call
    gives an expected value (Unity's TEST_ASSERT_EQUAL). *)
Inductive step (S : Type) :=
| Do (f : S -> outcome S)
| Assert (expected : Z) (f : S -> outcome (Z * S)).
Arguments Do {S}. Arguments Assert {S}.

(** Playing the statements in order: the assertions' expected and actual values. *)
Fixpoint play {S} (l : list (step S)) (s : S) : outcome (list (Z * Z)) :=
  match l with
  | [] => Ok []
  | Do f :: t => s1 <- f s ;; play t s1
  | Assert e f :: t => '(v, s1) <- f s ;; r <- play t s1 ;; Ok ((e, v) :: r)
  end.

(** How many assertions held and how many failed; [None] if the run is
    undefined. *)
Definition score {S} (l : list (step S)) (s : S) : option (nat * nat) :=
  match play l s with
  | Ok r => Some (Datatypes.length (filter (fun p => Z.eqb (fst p) (snd p)) r),
                  Datatypes.length (filter (fun p => negb (Z.eqb (fst p) (snd p))) r))
  | Bad _ => None
  end.

(** A suite: RUN_TEST calls setUp and then the test. *)
Definition suite {S} (setup : list (step S)) (tests : list (list (step S))) : list (step S) :=
  List.concat (map (fun t => setup ++ t) tests).

Definition total {S} (f : S -> S) : S -> outcome S := fun s => Ok (f s).
Definition codes (t : string) : list N := map N_of_ascii (list_ascii_of_string t).
Definition times {A} (n : nat) (l : list A) : list A := List.concat (repeat l n).

(** ** test_asdf_buffer.c *)

(** The buffer module's state and the static variable handle (25). *)
Definition bst := (bufs * Z)%type.
Definition b_new (size : Z) : step bst :=
  Do (fun s => '(h, b) <- buffer_new size (fst s) ;; Ok (b, h)).
Definition b_init : step bst := Do (total (fun s => (buffer_init (fst s), snd s))).
Definition b_put (c : N) : step bst := Do (fun s => b <- buffer_put (snd s) c (fst s) ;; Ok (b, snd s)).
Definition b_get_from (h : Z) (expected : N) : step bst :=
  Assert (Z.of_N expected) (fun s => '(c, b) <- buffer_get h (fst s) ;; Ok (Z.of_N c, (b, snd s))).
Definition b_get (expected : N) : step bst :=
  Assert (Z.of_N expected) (fun s => '(c, b) <- buffer_get (snd s) (fst s) ;; Ok (Z.of_N c, (b, snd s))).
Definition b_handle (expected : Z) : step bst := Assert expected (fun s => Ok (snd s, s)).

(** 27-31: MAX_BUFFER is ASDF_BUFFER_POOL_SIZE. *)
Definition b_setup := [b_init; b_new pool_size].

(** 15, 17-24: the test strings.  sizeof(test_string) counts the final NUL, so
    131-138 sends it too. *)
Definition b_string : list N := codes "abcdefghijklmnopqrstuvwxyz1234567890ABCDEFGHIJKLMNOPQRSTUVWXYZ".
Definition b_more : list (list N) :=
  map codes ["abcdefghijkl"; "12345"; "ABCDEFG"; "The quick brown"; "We the people"]%string.
Definition nth_code (i : nat) : N := nth (i mod Datatypes.length b_string) b_string 0%N.

(** 37-45. *)
Definition random_code (seed : N) : N :=
  let m := N.land seed 0x80 in
  let s := u8 (N.shiftl seed 1) in
  if (m =? 0)%N then s else N.lxor s 0x88.
Fixpoint randoms (n : nat) (seed : N) : list N :=
  match n with O => [] | Datatypes.S k => let c := random_code seed in c :: randoms k c end.

Definition buffer_tests : list (list (step bst)) :=
  [ (* 48-51 *) [b_handle 0];
    (* 54-65 *) [b_init; b_new 72; b_handle 0; b_new 72; b_handle 1];
    (* 68-77 *) b_init :: times 5 [b_new 1] ++ [b_handle (-1)];
    (* 80-92 *) b_init :: flat_map (fun i => [b_new 1; b_handle (Z.of_nat i)]) (seq 0 4)
                ++ [b_new 1; b_handle (-1)];
    (* 95-100 *) [b_init; b_new (pool_size + 1); b_handle (-1)];
    (* 102-105 *) [b_get_from (-1) INVALID];
    (* 107-112 *) [b_get_from (num_handles - 1) INVALID];
    (* 117-120 *) [b_get INVALID];
    (* 123-127 *) [b_put 97; b_get 97];
    (* 131-138 *) flat_map (fun c => [b_put c; b_get c]) (b_string ++ [0%N]);
    (* 142-153 *) map (fun i => b_put (nth_code i)) (seq 0 144)
                  ++ map (fun i => b_get (nth_code i)) (seq 0 144) ++ [b_get INVALID];
    (* 158-178 *) map b_put (randoms 288 0x3b) ++ map b_get (randoms 144 0x3b) ++ [b_get INVALID];
    (* 181-198 *) flat_map (fun m => map b_put m ++ map b_get m ++ [b_get INVALID]) b_more ].

Example buffer_suite : score (suite b_setup buffer_tests) (bufs_zero, 0%Z) = Some (424, 0).
Proof. vm_compute. reflexivity. Qed.

(** ** test_asdf_repeat.c *)

(** 9-20: count_repeat_ticks, with its counter in a state component. *)
Fixpoint count_ticks (timeout : nat) (count : N) (r : rep) : N * rep :=
  match timeout with
  | O => (count, r)
  | Datatypes.S k =>
      let '(hit, r1) := repeat_tick r in
      if (hit : bool) then (N.succ count, r1) else count_ticks k (N.succ count) r1
  end.

(** The repeat module's state and the local variable delay. *)
Definition rst := (rep * N)%type.
Definition r_do (f : rep -> rep) : step rst := Do (total (fun s => (f (fst s), snd s))).
Definition r_wait (timeout : nat) : step rst :=
  Do (total (fun s => let '(n, r) := count_ticks timeout 0 (fst s) in (r, n))).
Definition r_more (timeout : nat) : step rst :=
  Do (total (fun s => let '(n, r) := count_ticks timeout 0 (fst s) in (r, (snd s + n)%N))).
Definition r_zero : step rst := Do (total (fun s => (fst s, 0%N))).
Definition r_is (n : N) : step rst := Assert (Z.of_N n) (fun s => Ok (Z.of_N (snd s), s)).

(** asdf_config.h: ASDF_AUTOREPEAT_TIME_MS, ASDF_REPEAT_TIME_MS; 6-7. *)
Definition AUTO : N := rval RAuto.
Definition FAST : N := rval ROn.
Definition long := N.to_nat 10000.
Definition half_auto := 262.
Definition half_fast := 33.
Definition ten_repeats : list (step rst) := r_zero :: times 10 [r_more long] ++ [r_is (FAST * 10)].

(** 283-286: the loop adds one only while no event comes. *)
Fixpoint count_before (timeout : nat) (count : N) (r : rep) : N * rep :=
  match timeout with
  | O => (count, snd (repeat_tick r))
  | Datatypes.S k =>
      let '(hit, r1) := repeat_tick r in
      if (hit : bool) then (count, r1) else count_before k (N.succ count) r1
  end.

Definition repeat_tests : list (list (step rst)) :=
  let on := r_do repeat_auto_on in let off := r_do repeat_auto_off in
  let act := r_do repeat_activate in let deact := r_do repeat_deactivate in
  let reset := r_do repeat_reset_count in
  [ (* 31-37 *) [r_wait long; r_is AUTO];
    (* 41-49 *) [off; r_wait long; r_is 10000];
    (* 53-62, not run by main *) [off; on; r_wait long; r_is AUTO];
    (* 86-101 *) [on; on; r_wait long; r_is AUTO; off; on; r_wait long; r_is AUTO];
    (* 66-80 *) [r_wait long; r_is AUTO; r_wait long; r_is FAST];
    (* 105-118 *) [r_wait half_auto; r_is 262; reset; r_wait long; r_is AUTO];
    (* 122-138 *) [act; r_wait half_fast; r_is 33; reset; r_wait long; r_is FAST];
    (* 144-153 *) [on; act; r_wait long; r_is FAST];
    (* 157-166 *) [off; act; r_wait long; r_is FAST];
    (* 201-220 *) act :: ten_repeats ++ [deact; r_wait long; r_is AUTO];
    (* 171-196 *) off :: act :: ten_repeats ++ [deact; r_wait long; r_is 10000];
    (* 226-241 *) [r_wait half_auto; r_is 262; act; r_wait long; r_is FAST];
    (* 294-318 *) [on; r_wait long; r_is AUTO; r_wait half_fast; r_is 33; act; r_more long; r_is FAST];
    (* 266-289 *) [on; r_wait long; r_is AUTO] ++ ten_repeats ++
                  [off; Do (total (fun s => let '(n, r) := count_before long 0 (fst s) in (r, n)));
                   r_is 10000];
    (* 246-261 *) [on; r_wait half_auto; r_is 262; off; r_wait long; r_is 10000];
    (* 323-344 *) [on; act] ++ ten_repeats ++ [deact; r_wait long; r_is AUTO];
    (* 348-369 *) [off; act] ++ ten_repeats ++ [deact; r_wait long; r_is 10000];
    (* 373-396 *) act :: ten_repeats ++ [r_wait half_fast; reset; r_wait long; r_is FAST];
    (* 400-425 *) [on; r_wait long; r_is AUTO] ++ ten_repeats ++ [reset; r_wait long; r_is AUTO] ].

Example repeat_suite : score (suite [r_do repeat_init] repeat_tests) (rep_zero, 0%N) = Some (36, 0).
Proof. vm_compute. reflexivity. Qed.

(** ** test_asdf_modifiers.c *)

(** 7-11: TESTMAP. *)
Definition m_is (i : nat) : step md :=
  Assert (Z.of_nat i) (fun x => k <- modifier_index (fst x) ;; Ok (Z.of_nat k, x)).

Definition modifier_tests : list (list (step md)) :=
  let sh := Do shift_activate in let unsh := Do shift_deactivate in
  let caps := Do capslock_activate in let lock := Do shiftlock_on_activate in
  let ctl := Do ctrl_activate in let unctl := Do ctrl_deactivate in
  [ (* 21-24 *) [m_is MOD_PLAIN];
    (* 28-32 *) [sh; m_is MOD_SHIFT];
    (* 35-42 *) [sh; m_is MOD_SHIFT; unsh; m_is MOD_PLAIN];
    (* 45-49 *) [caps; m_is MOD_CAPS];
    (* 52-58 *) [caps; m_is MOD_CAPS; m_is MOD_CAPS];
    (* 61-68 *) [caps; m_is MOD_CAPS; caps; m_is MOD_PLAIN];
    (* 72-79 *) [caps; m_is MOD_CAPS; caps; m_is MOD_PLAIN];
    (* 82-89 *) [caps; m_is MOD_CAPS; sh; m_is MOD_SHIFT];
    (* 92-102 *) [caps; m_is MOD_CAPS; sh; m_is MOD_SHIFT; unsh; m_is MOD_CAPS];
    (* 105-112 *) [caps; m_is MOD_CAPS; lock; m_is MOD_SHIFT];
    (* 115-125 *) [caps; m_is MOD_CAPS; lock; m_is MOD_SHIFT; caps; m_is MOD_SHIFT];
    (* 129-140 *) [caps; m_is MOD_CAPS; lock; m_is MOD_SHIFT; sh; unsh; m_is MOD_CAPS];
    (* 143-147 *) [lock; m_is MOD_SHIFT];
    (* 150-154 *) [lock; m_is MOD_SHIFT];
    (* 158-165 *) [lock; m_is MOD_SHIFT; sh; m_is MOD_SHIFT];
    (* 168-176 *) [lock; m_is MOD_SHIFT; sh; unsh; m_is MOD_PLAIN];
    (* 179-183 *) [ctl; m_is MOD_CTRL];
    (* 186-194 *) [ctl; m_is MOD_CTRL; ctl; unctl; m_is MOD_PLAIN];
    (* 198-205 *) [ctl; m_is MOD_CTRL; sh; m_is MOD_CTRL];
    (* 208-215 *) [ctl; m_is MOD_CTRL; caps; m_is MOD_CTRL];
    (* 219-226 *) [ctl; m_is MOD_CTRL; lock; m_is MOD_CTRL];
    (* 228-238 *) [ctl; m_is MOD_CTRL; caps; m_is MOD_CTRL; caps; m_is MOD_CTRL];
    (* 240-250 *) [ctl; m_is MOD_CTRL; lock; m_is MOD_CTRL; lock; m_is MOD_CTRL] ].

Example modifier_suite : score (suite [Do modifiers_init] modifier_tests) (mods_zero, devs_zero) = Some (45, 0).
Proof. vm_compute. reflexivity. Qed.

(** ** The test keymaps: test_asdf_keymap_defs.h, test_asdf_keymap_defs.c *)

(** test_asdf_keymap_defs.h 67-79, the macros of asdf.h 55-104 and asdf_ascii.h evaluated; the DIP
    switch row is 63-64. *)
Definition test_plain : list N :=
  [194; 161; 161; 160; 164; 27; 165; 92;
   160; 112; 59; 47; 32; 122; 97; 113;
   160; 44; 109; 110; 98; 118; 99; 120;
   160; 107; 106; 104; 103; 102; 100; 115;
   160; 105; 117; 121; 116; 114; 101; 119;
   166; 167; 162; 13; 10; 111; 108; 46;
   126; 93; 91; 45; 58; 48; 57; 56;
   160; 55; 54; 53; 52; 51; 50; 49;
   168; 169; 170; 171; 0; 0; 0; 0]%N.

(** test_asdf_keymap_defs.h 81-93, the macros of asdf.h 55-104 and asdf_ascii.h evaluated; the DIP
    switch row is 63-64. *)
Definition test_caps : list N :=
  [195; 161; 161; 160; 160; 27; 165; 92;
   160; 80; 59; 47; 32; 90; 65; 81;
   160; 44; 77; 78; 66; 86; 67; 88;
   160; 75; 74; 72; 71; 70; 68; 83;
   160; 73; 85; 89; 84; 82; 69; 87;
   166; 167; 162; 13; 10; 79; 76; 46;
   126; 93; 91; 45; 58; 48; 57; 56;
   160; 55; 54; 53; 52; 51; 50; 49;
   168; 169; 170; 171; 0; 0; 0; 0]%N.

(** test_asdf_keymap_defs.h 95-109, the macros of asdf.h 55-104 and asdf_ascii.h evaluated; the DIP
    switch row is 63-64. *)
Definition test_shift : list N :=
  [196; 161; 161; 160; 160; 27; 165; 124;
   160; 80; 43; 63; 32; 90; 65; 81;
   160; 62; 77; 78; 66; 86; 67; 88;
   160; 75; 74; 72; 71; 70; 68; 83;
   160; 73; 85; 89; 84; 82; 69; 87;
   166; 167; 162; 13; 10; 79; 76; 60;
   126; 125; 123; 61; 42; 48; 41; 40;
   160; 39; 38; 37; 36; 35; 34; 33;
   168; 169; 170; 171; 0; 0; 0; 0]%N.

(** test_asdf_keymap_defs.h 112-131, the macros of asdf.h 55-104 and asdf_ascii.h evaluated; the DIP
    switch row is 63-64. *)
Definition test_ctrl : list N :=
  [197; 161; 161; 160; 160; 27; 165; 28;
   160; 16; 160; 160; 32; 26; 1; 17;
   160; 44; 13; 14; 2; 22; 3; 24;
   160; 11; 10; 8; 7; 6; 4; 19;
   160; 9; 21; 25; 20; 18; 5; 23;
   166; 167; 162; 13; 10; 15; 12; 160;
   160; 29; 27; 160; 160; 183; 191; 190;
   160; 189; 188; 187; 186; 185; 184; 184;
   168; 169; 170; 171; 0; 0; 0; 0]%N.

(** test_asdf_keymap_defs.h 134-146, the macros of asdf.h 55-104 and asdf_ascii.h evaluated; the DIP
    switch row is 63-64. *)
Definition test2_plain : list N :=
  [198; 161; 161; 160; 164; 27; 165; 92;
   160; 112; 59; 47; 32; 122; 97; 113;
   160; 44; 109; 110; 98; 118; 99; 120;
   160; 107; 106; 104; 103; 102; 100; 115;
   160; 105; 117; 121; 116; 114; 101; 119;
   166; 167; 162; 13; 10; 111; 108; 46;
   126; 93; 91; 45; 58; 48; 57; 56;
   160; 55; 54; 53; 52; 51; 50; 49;
   168; 169; 170; 171; 0; 0; 0; 0]%N.

(** test_asdf_keymap_defs.h 148-160, the macros of asdf.h 55-104 and asdf_ascii.h evaluated; the DIP
    switch row is 63-64. *)
Definition test2_caps : list N :=
  [199; 161; 161; 160; 160; 27; 165; 92;
   160; 80; 59; 47; 32; 90; 65; 81;
   160; 44; 77; 78; 66; 86; 67; 88;
   160; 75; 74; 72; 71; 70; 68; 83;
   160; 73; 85; 89; 84; 82; 69; 87;
   166; 167; 162; 13; 10; 79; 76; 46;
   126; 93; 91; 45; 58; 48; 57; 56;
   160; 55; 54; 53; 52; 51; 50; 49;
   168; 169; 170; 171; 0; 0; 0; 0]%N.

(** test_asdf_keymap_defs.h 162-176, the macros of asdf.h 55-104 and asdf_ascii.h evaluated; the DIP
    switch row is 63-64. *)
Definition test2_shift : list N :=
  [200; 161; 161; 160; 160; 27; 165; 124;
   160; 80; 43; 63; 32; 90; 65; 81;
   160; 62; 77; 78; 66; 86; 67; 88;
   160; 75; 74; 72; 71; 70; 68; 83;
   160; 73; 85; 89; 84; 82; 69; 87;
   166; 167; 162; 13; 10; 79; 76; 60;
   126; 125; 123; 61; 42; 48; 41; 40;
   160; 39; 38; 37; 36; 35; 34; 33;
   168; 169; 170; 171; 0; 0; 0; 0]%N.

(** test_asdf_keymap_defs.h 179-198, the macros of asdf.h 55-104 and asdf_ascii.h evaluated; the DIP
    switch row is 63-64. *)
Definition test2_ctrl : list N :=
  [201; 161; 161; 160; 160; 27; 165; 28;
   160; 16; 160; 160; 32; 26; 1; 17;
   160; 44; 13; 14; 2; 22; 3; 24;
   160; 11; 10; 8; 7; 6; 4; 19;
   160; 9; 21; 25; 20; 18; 5; 23;
   166; 167; 162; 13; 10; 15; 12; 160;
   160; 29; 27; 160; 160; 183; 191; 190;
   160; 189; 188; 187; 186; 185; 184; 184;
   168; 169; 170; 171; 0; 0; 0; 0]%N.

(** test_asdf_keymap_defs.c 44-82: the first and third, and the second and
    fourth, setup functions make the same calls. *)
Definition setup_maps (plain caps shift ctrl : list N) : list setup_cmd :=
  [SAddMap plain MOD_PLAIN 9 8; SAddMap caps MOD_CAPS 9 8;
   SAddMap shift MOD_SHIFT 9 8; SAddMap ctrl MOD_CTRL 9 8].
Definition maps1 := setup_maps test_plain test_caps test_shift test_ctrl.
Definition maps2 := setup_maps test2_plain test2_caps test2_shift test2_ctrl.

(** 84-143: asdf_virtual_init, the assignments, asdf_virtual_sync. *)
Definition setup_vdevs (maps assigns : list setup_cmd) (s : kb) : outcome kb :=
  s1 <- setup_run maps s ;;
  s2 <- setup_run assigns (set_dev (virtual_init (k_dev s1)) s1) ;;
  on_dev virtual_sync s2.

(** 145-166: asdf_hook_init and the hooks.  test_hook_read_row and
    test_hook_output (test_asdf_lib.c) are not functions of the firmware, so
    the map that installs them has no counterpart; test_hook_each_scan counts
    its calls, and a hook that prints one character stands for it. *)
Definition setup_hooks (maps hooks : list setup_cmd) (s : kb) : outcome kb :=
  s1 <- setup_run maps s ;; setup_run hooks (set_hook hook_init s1).

(** asdf_keymap_table.c, asdf_keymap_setup.c of the tests. *)
Definition test_setup (index : N) : option (kb -> outcome kb) :=
  match index with
  | 0 | 1 => Some (setup_run maps1)
  | 2 | 3 => Some (setup_run maps2)
  | 4 => Some (setup_vdevs maps1 [SAssign VOUT1 OUT1 V_NOFUNC 0; SAssign VOUT2 OUT2 V_TOGGLE 0;
                                  SAssign VOUT3 OUT3 V_PULSE_SHORT 0])
  | 5 => Some (setup_vdevs maps1 [SAssign VOUT4 LED1 V_NOFUNC 0; SAssign VOUT5 LED1 V_NOFUNC 1])
  | 6 => Some (setup_vdevs maps1 [SAssign VOUT1 OUT1 V_TOGGLE 0; SAssign VOUT1 OUT2 V_TOGGLE 1;
                                  SAssign VOUT1 OUT3 V_TOGGLE 0])
  | 7 => Some (setup_vdevs maps2 [SAssign VCAPS_LED LED1 V_NOFUNC 0; SAssign VSHIFT_LED LED2 V_NOFUNC 0;
                                  SAssign VOUT2 OUT3 V_NOFUNC 0; SAssign VOUT2 num_phys V_NOFUNC 0])
  | 8 => Some (setup_hooks maps2 [])
  | 9 => Some (setup_hooks maps2 [])
  | 10 => Some (setup_hooks maps2 [SHook HOOK_EACH_SCAN (HPrint [46%N])])
  | _ => None
  end%N.

(** asdf_keymaps.c 160-196 with the tests' table: [c_switch] and [c_select]
    with a setup function in place of a list of calls. *)
Definition t_switch (index : N) (s : kb) : outcome kb :=
  match test_setup index with
  | Some f => s1 <- keymaps_reset (emit_kb EvArchInit (set_cur index s)) ;; f s1
  | None => Ok s
  end.
Definition t_select (index : N) (s : kb) : outcome kb :=
  if (index =? k_cur s)%N then Ok s else t_switch index s.
Definition k_select (index : N) : step kb := Do (t_select index).
(** asdf_keymaps.c 212-215. *)
Definition k_init : step kb := Do (t_switch 0).

(** ** test_asdf_virtual.c *)

(** The recording of the test architecture (asdf_arch_test.c) is a function of
    the calls made so far. *)
Definition v_rec (s : kb) : outcome rec :=
  t_run (map TCall (rev (log (k_dev s)))) (mkRec (repeat 0%N num_phys) (repeat PD_INITIAL num_phys) 0 0).
Definition v_out (expected : Z) (d : nat) : step kb :=
  Assert expected (fun s => r <- v_rec s ;; v <- t_check_output d r ;; Ok (Z.of_N v, s)).
Definition v_pulse (expected d : nat) : step kb :=
  Assert (Z.of_nat expected) (fun s => r <- v_rec s ;; v <- t_check_pulse d r ;; Ok (Z.of_nat v, s)).
(** 33: the value is not ASDF_VIRTUAL_OUT_DEFAULT_VALUE (asdf_config.h 84). *)
Definition v_not_default (d : nat) : step kb :=
  Assert 0 (fun s => r <- v_rec s ;; v <- t_check_output d r ;;
                     Ok (if (v =? 1)%N then 1%Z else 0%Z, s)).
Definition v_act (vo : nat) (f : vfun) : step kb := Do (on_dev (virtual_action vo f)).
Definition v_activate (vo : nat) : step kb := Do (on_dev (virtual_activate vo)).
Definition v_three (a b c : Z) : list (step kb) := [v_out a OUT1; v_out b OUT2; v_out c OUT3].

(** 14-20. *)
Definition v_setup : list (step kb) := [Do (total (emit_kb EvArchInit)); k_init; k_select 4].

Definition virtual_tests : list (list (step kb)) :=
  [ (* 30-36 *) [v_out 0 OUT1; v_not_default OUT1];
    (* 38-41 *) [v_out 1 LED2];
    (* 43-50 *) [v_act VOUT1 V_SET_LO; v_out 0 OUT1; v_act VOUT1 V_SET_HI; v_out 1 OUT1];
    (* 52-66 *) [v_act VOUT1 V_SET_LO; v_out 0 OUT1; v_act VOUT1 V_TOGGLE; v_out 1 OUT1;
                 v_act VOUT1 V_TOGGLE; v_out 0 OUT1];
    (* 68-80 *) [v_act VOUT1 V_SET_LO; v_pulse PD_STABLE_LOW OUT1; v_out 0 OUT1;
                 v_act VOUT1 V_PULSE_SHORT; v_out 0 OUT1; v_pulse PD_PULSE_HIGH OUT1];
    (* 82-95 *) [v_act VOUT1 V_SET_HI; v_act VOUT1 V_SET_HI; v_pulse PD_STABLE_HIGH OUT1; v_out 1 OUT1;
                 v_act VOUT1 V_PULSE_SHORT; v_out 1 OUT1; v_pulse PD_PULSE_LOW OUT1];
    (* 99-117 *) k_select 6 :: v_three 0 1 0 ++ [v_activate VOUT1] ++ v_three 1 0 1
                 ++ [v_act VOUT1 V_TOGGLE] ++ v_three 0 1 0;
    (* 121-139 *) k_select 6 :: v_three 0 1 0 ++ [v_act VOUT1 V_SET_HI] ++ v_three 1 1 1
                  ++ [v_act VOUT1 V_SET_LO] ++ v_three 0 0 0;
    (* 174-191 *) k_select 6 :: v_three 0 1 0 ++ [v_activate VOUT1] ++ v_three 1 0 1
                  ++ [v_activate VOUT1] ++ v_three 0 1 0;
    (* 143-170 *) k_select 6 :: v_three 0 1 0 ++ [v_act VOUT1 V_SET_HI; v_act VOUT1 V_SET_HI]
                  ++ v_three 1 1 1 ++ map (v_pulse PD_STABLE_HIGH) [OUT1; OUT2; OUT3]
                  ++ [v_act VOUT1 V_SET_LO] ++ v_three 0 0 0
                  ++ map (v_pulse PD_TRANSITION_LOW) [OUT1; OUT2; OUT3];
    (* 232-250 *) [k_select 7; v_out 0 LED1; Do (on_md capslock_activate); v_out 1 LED1;
                   Do (on_md capslock_activate); v_out 0 LED1];
    (* 252-271 *) [k_select 7; v_out 0 LED2; Do (on_md shiftlock_on_activate); v_out 1 LED2;
                   Do (on_md shift_activate); Do (on_md shift_deactivate); v_out 0 LED2];
    (* 274-293 *) [k_select 5; v_out 0 LED1; v_act VOUT4 V_SET_HI; v_out 1 LED1;
                   v_act VOUT4 V_SET_LO; v_out 0 LED1; v_act VOUT5 V_SET_HI; v_out 0 LED1] ].

Example virtual_suite : score (suite v_setup virtual_tests) kb_zero = Some (68, 0).
Proof. vm_compute. reflexivity. Qed.

(** ** test_asdf_keymaps.c *)

(** 103-118: where a code is in the plain test matrix, first in row order. *)
Definition find_code (code : N) : nat * nat :=
  match List.find (fun i => (nth i test_plain 0 =? code)%N) (seq 0 72) with
  | Some i => (i / 8, i mod 8)
  | None => (99, 99)
  end.
Definition alpha := find_code 97.
Definition num := find_code 50.
Definition tag := find_code 194.

Definition k_code (expected : N) (pos : nat * nat) (mi : nat) : step kb :=
  Assert (Z.of_N expected) (fun s => c <- get_code (fst pos) (snd pos) mi s ;; Ok (Z.of_N c, s)).

(** 42-50: TESTMAP. *)
Definition k_testmap (index : N) (matrix : list N) (map_id : N) (mi : nat) (pos : nat * nat) : list (step kb) :=
  [k_select index; k_code (nth (fst pos * 8 + snd pos) matrix 0%N) pos mi; k_code map_id (0, 0) mi].
Definition k_both (index : N) (matrix : list N) (map_id : N) (mi : nat) : list (step kb) :=
  k_testmap index matrix map_id mi alpha ++ k_testmap index matrix map_id mi num.

(** 143-160: complicated_set_keymap. *)
Definition k_dip (index : N) : list (step kb) :=
  map (fun i : N => Do (fun s : kb =>
         if N.testbit index i then t_select (u8 (N.lor (k_cur s) (N.shiftl 1 i))) s
         else t_select (u8 (N.ldiff (k_cur s) (N.shiftl 1 i))) s)) [0; 1; 2; 3]%N.

(** 256-296: read the tag after selecting keyboard [i], then again after
    selecting [from] and setting the switches to [i]; the assertion compares
    the two readings. *)
Definition k_tag (s : kb) : outcome N := get_code (fst tag) (snd tag) MOD_PLAIN s.
Definition k_dip_check (from i : N) : step kb :=
  Assert 0 (fun s =>
    s1 <- t_select i s ;; want <- k_tag s1 ;;
    s2 <- t_select from s1 ;;
    s3 <- fold_left (fun acc d => x <- acc ;; match d with Do f => f x | Assert _ _ => Ok x end)
            (k_dip i) (Ok s2) ;;
    got <- k_tag s3 ;;
    Ok ((Z.of_N got - Z.of_N want)%Z, s3)).
Definition eleven : list N := map N.of_nat (seq 0 11).

Definition keymap_tests : list (list (step kb)) :=
  [ (* 168-172 *) [Assert 1 (fun s => Ok (if fst alpha <? 9 then 1%Z else 0%Z, s));
                   Assert 1 (fun s => Ok (if fst num <? 9 then 1%Z else 0%Z, s))];
    (* 174-181 *) k_select 0 :: k_both 0 test_plain 194 MOD_PLAIN;
    (* 183-187 *) k_both 0 test_shift 196 MOD_SHIFT;
    (* 188-192 *) k_both 0 test_caps 195 MOD_CAPS;
    (* 193-197 *) k_both 0 test_ctrl 197 MOD_CTRL;
    (* 199-203 *) k_both 2 test2_plain 198 MOD_PLAIN;
    (* 205-209 *) k_both 2 test2_shift 200 MOD_SHIFT;
    (* 210-214 *) k_both 2 test2_caps 199 MOD_CAPS;
    (* 215-219 *) k_both 2 test2_ctrl 201 MOD_CTRL;
    (* 222-228 *) Do (fun s => t_select (u8 (N.lor (k_cur s) 1)) s) :: k_both 1 test_caps 195 MOD_CAPS;
    (* 230-241 *) map (fun i => k_code (0xA8 + N.of_nat i) (8, i) 0) (seq 0 4);
    (* 243-254 *) map (fun i => k_code (0xA8 + N.of_nat i) (8, i) 2) (seq 0 4);
    (* 299-322 *) [k_select 2; k_code 198 tag MOD_PLAIN; k_select 0; k_code 194 tag MOD_PLAIN;
                   k_select 11; k_code 194 tag MOD_PLAIN; k_select 255; k_code 194 tag MOD_PLAIN] ].

(** 256-296, the two tests over all eleven keyboards, for the keyboards that
    keymaps[ASDF_MOD_NUM_MODIFIERS] has room for.  The mask (276-283) is 7, so
    the second test starts each round at keyboard 7. *)
Definition dip_tests (n : nat) : list (list (step kb)) :=
  [map (k_dip_check 7) (firstn n eleven); map (k_dip_check 0) (firstn n eleven)].

Example keymap_suite : score (suite [k_init; k_select 0] keymap_tests) kb_zero = Some (50, 0).
Proof. vm_compute. reflexivity. Qed.

(** On keyboards 0 to 3 the dip-switch tests pass.  From keyboard 4 on, both
    tests are undefined: asdf_keymaps_get_code reads keymaps[4], which does not
    exist (asdf_keymaps.c 39, 397-399).  They pass on the authors' machine
    because the two readings they compare go wrong in the same way.  This is the
    defect of C19. *)
Example dip_suite :
  score (suite [k_init; k_select 0] (dip_tests 4)) kb_zero = Some (8, 0)
  /\ play (suite [k_init; k_select 0] (dip_tests 5)) kb_zero = Bad UKeymapsOob.
Proof. vm_compute. auto. Qed.

(** ** test_asdf_hook.c *)

(** asdf.c 642-663 with the tests' keymaps. *)
Definition t_asdf_init (s : kb) : outcome kb :=
  let s1 := set_last 0xA0 s in
  let s2 := set_buf (buffer_init (k_buf s1)) s1 in
  s3 <- on_rep repeat_init s2 ;;
  s4 <- t_switch 0 s3 ;;
  '(hk, b1) <- buffer_new 16 (k_buf s4) ;;
  '(hm, b2) <- buffer_new 128 b1 ;;
  Ok (set_cnt (repeat DEBOUNCE 128) (set_stable (repeat 0%N 16)
        (set_handles hk hm (set_buf b2 s4)))).

(** How many characters the standing-in hook has printed. *)
Definition h_count (expected : Z) : step kb :=
  Assert expected (fun s => b <- zget UBufOob (buffers (k_buf s)) (k_hmsg s) ;; Ok (b_count b, s)).

(** The table gives keyboard 10 one hook that is not a firmware function, so
    map selection by the scanned DIP switches goes through [kbs_of_tests],
    which agrees with [test_setup] on the keyboards the tests below reach. *)
Definition kbs_of_tests (index : N) : option (list setup_cmd) :=
  match index with
  | 0 | 1 => Some maps1
  | 2 | 3 | 8 => Some maps2
  | 10 => Some (maps2 ++ [SHook HOOK_EACH_SCAN (HPrint [46%N])])
  | _ => None
  end%N.

(** 20-24: asdf_arch_read_row of this test. *)
Definition h_rows (row : nat) : N := N.of_nat row + 1.

Definition hook_tests (rows : nat -> N) : list (list (step kb)) :=
  [ (* 41-52 *) [Assert 1 (fun s => f <- hook_get HOOK_ROW_SCANNER (k_hook s) ;;
                                    Ok ((match f with HReadRow => 1 | _ => 0 end)%Z, s))];
    (* 71-81 *) k_select 10 :: h_count 0 :: times 101 [Do (c_keyscan kbs_of_tests rows)] ++ [h_count 101] ].

(** With no key down the hook runs once per scan.  With the rows of the test, the
    tenth scan recognises keys and looks their codes up on keyboard 10, which is
    undefined for the reason above. *)
Example hook_suite :
  score (suite [k_init; Do t_asdf_init; k_select 8] (hook_tests (fun _ => 0%N))) kb_zero = Some (3, 0)
  /\ play (suite [k_init; Do t_asdf_init; k_select 8] (hook_tests h_rows)) kb_zero = Bad UKeymapsOob.
Proof. vm_compute. auto. Qed.

(** ** test_asdf.c *)

(** This suite is not in the build: it includes asdf_keymap_defs.h (10), a header
    that no longer exists.  Its tests still say what the authors expect of asdf_keyscan and asdf_next_code.  setUp
    (50-59) does not reset the modifiers and asdf_init does not either, so a
    test that leaves CAPS on would change the next one; each test is therefore
    played from power-on.  The matrices are those above (the suite names the
    same ones). *)

(** The state and the simulated key matrix (47). *)
Definition ast := (kb * list (nat * nat))%type.
Definition a_row (keys : list (nat * nat)) (row : nat) : N :=
  fold_left (fun acc k => if fst k =? row then N.lor acc (N.shiftl 1 (N.of_nat (snd k))) else acc) keys 0%N.

(** 100-130. *)
Definition a_scan : step ast :=
  Do (fun s => k <- c_keyscan kbs_of_tests (a_row (snd s)) (fst s) ;; Ok (k, snd s)).
Definition a_delay (n : nat) : list (step ast) := repeat a_scan n.
Definition a_down (code : N) : step ast := Do (total (fun s => (fst s, find_code code :: snd s))).
Definition a_up (code : N) : step ast :=
  Do (total (fun s => (fst s, filter (fun k => negb ((fst k =? fst (find_code code)) && (snd k =? snd (find_code code)))) (snd s)))).
Definition a_press (code : N) : list (step ast) := a_down code :: a_delay 10.
Definition a_release (code : N) : list (step ast) := a_up code :: a_delay 10.
Definition a_next (expected : N) : step ast :=
  Assert (Z.of_N expected) (fun s => '(c, k) <- next_code (fst s) ;; Ok (Z.of_N c, (k, snd s))).
Definition a_none := a_next INVALID.
Definition in_matrix (m : list N) (code : N) : N := let p := find_code code in nth (fst p * 8 + snd p) m 0%N.

(** 15-21: NUM_REPEATS is ASDF_KEYCODE_BUFFER_SIZE - 2. *)
Definition reps := 14.
Definition a_reps (n : nat) (c : N) : list (step ast) := repeat (a_next c) n.
Definition a_string : list N := codes "abcdefghijklmnop".
Definition SHIFTK : N := 161. Definition CAPSK : N := 164. Definition CTRLK : N := 165. Definition REPK : N := 166.

Definition asdf_tests : list (list (step ast)) :=
  let a := 97%N in let b := 98%N in
  let hold := a_delay (reps * 66) in
  [ (* 141-148 *) a_down a :: a_delay 9 ++ [a_none];
    (* 151-165 *) a_down a :: a_delay 9 ++ [a_none] ++ a_delay 1 ++ [a_next a; a_none];
    (* 168-173 *) a_press SHIFTK ++ a_press a ++ [a_next (in_matrix test_shift a)];
    (* 176-183 *) a_press CAPSK ++ a_release CAPSK ++ a_press a ++ [a_next (in_matrix test_caps a)];
    (* 186-191 *) a_press CTRLK ++ a_press a ++ [a_next (in_matrix test_ctrl a)];
    (* 194-210 *) a_press REPK ++ a_press a ++ [a_next a] ++ hold ++ a_reps reps a ++ [a_none];
    (* 214-231 *) a_press REPK ++ a_press SHIFTK ++ a_press a ++ [a_next (in_matrix test_shift a)]
                  ++ hold ++ a_reps reps (in_matrix test_shift a) ++ [a_none];
    (* 235-254 *) a_press REPK ++ a_press CAPSK ++ a_press a ++ [a_next (in_matrix test_caps a)]
                  ++ hold ++ a_reps reps (in_matrix test_caps a) ++ [a_none];
    (* 278-290 *) a_press a ++ [a_next a] ++ a_delay 525 ++ [a_next a; a_none];
    (* 294-313 *) a_press a ++ [a_next a] ++ a_delay 525 ++ [a_next a] ++ hold ++ a_reps reps a ++ [a_none];
    (* 318-335 *) a_down a :: a_delay 1 ++ a_press b ++ [a_next a; a_next b; a_none];
    (* 341-353 *) flat_map a_press a_string ++ map a_next a_string ++ [a_none];
    (* 359-375 *) flat_map (fun c => [a_down c; a_scan]) a_string ++ a_delay 10
                  ++ map a_next a_string ++ [a_none];
    (* 380-403 *) a_press a ++ a_delay 262 ++ a_press b ++ a_delay 525 ++ hold
                  ++ [a_next a; a_next b] ++ a_reps reps b ++ [a_none];
    (* 407-445 *) a_press a ++ [a_next a] ++ a_delay 525 ++ [a_next a] ++ hold ++ a_reps reps a
                  ++ a_press b ++ [a_next b] ++ a_delay 525 ++ [a_next b] ++ hold ++ a_reps reps b ++ [a_none];
    (* 448-479 *) a_press REPK ++ a_press a ++ [a_next a] ++ hold ++ a_reps reps a
                  ++ a_press b ++ [a_next b] ++ hold ++ a_reps reps b ++ [a_none] ].

Definition a_setup : list (step ast) := [Do (fun s => k <- t_asdf_init (fst s) ;; Ok (k, []))].

(** All sixteen tests of main pass from power-on.  257-275 is not run by main either and expects
    one repetition more than it waits for. *)
Example asdf_suite :
  map (fun t => score (a_setup ++ t) (kb_zero, [])) asdf_tests =
  map (fun n => Some (n, 0)) [1; 3; 1; 1; 1; 16; 16; 16; 3; 17; 3; 17; 17; 17; 33; 31].
Proof. vm_compute. reflexivity. Qed.
