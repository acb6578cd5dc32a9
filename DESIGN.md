# Formal model of the ASDF keyboard firmware (unified_retro_keyboard)

Source: `/repo/firmware/asdf/src`.  Coq 8.16.1, standard library only.

Contents: 1 layers, 2 modelling decisions, 3 plan made before the proofs,
4 outcome of every property, 5 what is modelled and what is not, 6 trusted base,
7 defects found, 8 mutation testing.

## 1. Layers

Model (each definition cites file and lines of the C source):

| file (`rocq/theories`) | what it models | source |
|---|---|---|
| `Base.v` | outcomes (`Ok`/`Bad` = undefined behaviour), checked list access, 8/16-bit wrap | C semantics |
| `Buffer.v` | buffer pool, `new/put/get` | `asdf_buffer.c` |
| `Repeat.v` | repeat timer | `asdf_repeat.c` |
| `Devices.v` | physical and virtual output tables, log of calls into the architecture layer | `asdf_physical.c`, `asdf_virtual.c` |
| `Modifiers.v` | shift/caps/ctrl state | `asdf_modifiers.c` |
| `Hook.v` | hook table | `asdf_hook.c` |
| `KeymapData.v` | keycode matrices, messages (generated from the C text) | `Keymaps/*.c`, `Keymaps/*.h` |
| `Asdf.v` | keymaps, key scanner, actions, message output, main loop | `asdf_keymaps.c`, `asdf_keymap_setup.c.in`, `Keymaps/*.c`, `asdf.c`, `asdf_print.c`, `main.c` |
| `Avr.v` | AVR port registers, pins, clock prescaler, timer 0 | ATmega data sheets, `set_bit`/`clear_bit` |
| `Arch328p.v`, `Arch2560.v` | initialisation, LED/OUT handlers, row read, strobe, with the board wiring | `Arch/asdf_arch_atmega328p.c`, `Arch/asdf_arch_atmega2560.c`, `hardware/` |
| `ArchTest.v` | the recording architecture used by the unit tests | `Arch/asdf_arch_test.c` |
| `TestSuite.v` | the project's own unit tests and their keymaps, played on the model (tests, not proofs) | `test/*.c`, `test/*.h` |
| `Tick.v` | timer interrupt and main loop, interleaved per memory access | `Arch/*.c` |
| `System.v` | the firmware on a board: main loop and scanner with row reads and calls going through the ports | `main.c`, `asdf.c`, `Arch/*.c` |
| `Timed.v`, `Jitter.v` | the main loop against the clock: milliseconds, the timer flag, delays; computing takes no time or any time | `main.c`, `Arch/*.c` |
| `PropPulse.v` (top) | a recorder of the calls to the hardware with their times | `main.c`, `asdf.c` |
| `Custom.v` | the firmware built from any list of keymaps | `keymap_list.cmake`, `src/CMakeLists.txt`, `asdf_keymap_setup.c.in`, `asdf.c` |
| `CustomSystem.v` | that firmware on a board (System.v with Custom.v) | `main.c`, `asdf.c`, `Arch/*.c` |
| `Client.v` | every public function as a call of a client program, with arguments and returned value | all headers `asdf*.h` |
| `ClientRef.v` | the specification machine's answer to each call, and the proof that the firmware gives the same | |
| `CustomTime.v` | that firmware on a board against the clock (Jitter.v with Custom.v) | `main.c`, `Arch/*.c` |
| `Host.v` | a host latching the parallel port on a strobe edge | (environment) |

Specifications (independent of the model's data structures):

| file | what it says |
|---|---|
| `BufferSpec.v` | the pool is a list of (capacity, FIFO queue) |
| `DevSpec.v` | ownership map, level map, driven values; no tables or linked lists |
| `KeySpec.v` | reference keyboard machine: debouncers, held keys, two queues, a repeat clock; no arrays, pools or shifts |
| `CustomSpec.v` | the same machine for any keymaps, with tables and hooks as data (`CustomRef.v`: `Custom.v` simulates it, undefined behaviour included) |
| `PinSpec.v` | the level a pin should have: the last call on a device wired to it |
| top of each `Prop*.v` | history functions ("last selection", "number of differing readings since the last change", ...) |

Proof libraries: `Lib.v`, `BufferProofs.v`, `RepeatProofs.v`, `DevProofs.v`,
`ArchLib.v` (bit-level register reasoning, traces of register states),
`KeyRef.v` (simulation between `Asdf.v` and `KeySpec.v`, preserved by every
step), `Frames.v` (what each action leaves alone), `Obs.v` (transfer of facts
about the reference machine to the model).

`Prop*.v`: the final theorems `C##_...`, each followed by `Print Assumptions`
and by an `Example` exhibiting a non-trivial instance of its hypotheses.

## 2. Modelling decisions

Every model function is total and computable.  C undefined behaviour
(out-of-bounds access, `% 0`, signed overflow, null dereference, calling a hook
of the wrong type) is a distinct outcome `Bad u`, so "no UB" is a theorem, not
an assumption.  Unbounded C loops over linked lists get fuel and running out of
it is `Bad UDiverge`, so termination is a theorem as well.  The core talks to
hardware only through a log of events (`asdf_arch_*` calls); the architecture
models interpret those calls as register writes, and keep every intermediate
register state, so that claims about glitches can be made.

Inputs: on each tick the key matrix is a function row -> byte (arbitrary,
different on every tick); the number of ticks is arbitrary.  Theorems about
runs quantify over every list of such matrices.

`int` is 16 bits (avr-gcc), `char` unsigned values are `N` below 256.

Simplifications, each also stated at its definition:

* The physical handler table of `asdf_physical.c` is constant; the model logs
  the device number and `Arch*.v` dispatch on it.
* `vfprintf` on a message without arguments is modelled as writing each
  character, and `%%` as one `%`; any other conversion is undefined behaviour
  (`UFormat`; `Asdf.v`, `print`, citing `asdf_print.c`).  The code passes every
  message as the format, so a keymap with a lone `%` in a message is a defect
  (`C98_percent_refuted`); the shipped messages have none.
* Hooks are the functions the firmware installs (`Hook.v`), not arbitrary pointers.
* In `Asdf.v` the key matrix is given once per row and tick.  `System.v` reads
  the rows through the ports, with a matrix that may change between any two row
  reads of a scan; C74 connects the two.  A matrix changing in the middle of a
  row read is not expressible.
* Inside a tick the core is sequential: the only interrupt is the timer, which
  touches only the tick flag.  That interaction is modelled per memory access
  in `Tick.v`.
* Real time: delays do not touch registers; the tick rate is derived from the
  timer and prescaler registers (C48, C54), not measured.

## 3. Plan made before the proofs

"invariant" = induction over the list of operations or ticks.  Properties from
C53 on were added while the model grew; their plan is their row in section 4.

| id | model | proof |
|---|---|---|
| C01 | Buffer | refinement to a list of (capacity, queue), induction over operations |
| C02 | Buffer | same invariant: no `Bad` outcome for sizes >= 0; negative sizes refuted |
| C03 | Buffer | corollary of the refinement, stated on drained contents |
| C04 | Buffer | from invariant; refuted for negative sizes |
| C05 | Repeat | closed form by induction on n |
| C06 | Repeat | invariant over event lists |
| C07 | Repeat | expected false when REPEAT is pressed with timer <= 66; refuted + positive for the remaining phases |
| C08 | Repeat | history function "last selection", induction |
| C09 | Modifiers | history specification (no state machine), induction |
| C10 | Modifiers | same |
| C11 | Devices | partition invariant (free list + virtual lists) , refinement to an ownership map |
| C12 | Devices | from the partition invariant |
| C13 | Devices | event log equation |
| C14 | Devices | event log equation |
| C15 | Devices | invariant: shadow = last driven value |
| C16 | Asdf + Devices | expected false (`asdf_virtual_sync` is never called); refuted by the boot log; partial: what is driven |
| C17 | Hook | history specification |
| C18 | Asdf | history / case analysis |
| C19 | Asdf | true for keyboards 0-3 (invariant), refuted for 4, 5 |
| C20 | Asdf | invariant |
| C21 | Asdf | refuted (4 -> 3 passes through invalid codes); positive under valid intermediate codes |
| C22 | Asdf | equation for every previous state |
| C23 | Asdf | refuted (toggle); positive when CAPS was off |
| C24 | Asdf | refuted (the counter is not restarted by a bounce); true weaker form: 10 differing scans since the last accepted change |
| C25 | Asdf | per-key automaton |
| C26 | Asdf | projection theorem: key state = automaton folded over own readings |
| C27 | Asdf | invariant |
| C28 | Asdf | scan as fold over positions, queue equation |
| C29 | Asdf | invariant for the held-key run |
| C30 | Asdf | refuted with a modifier change; positive when released under the same map |
| C31 | Asdf | refuted with two keys of equal code |
| C32 | Asdf | refuted (Apple II keymap, CAPS pressed while REPEAT held); positive for classic |
| C33 | Asdf | invariant |
| C34 | Asdf | refuted with two SHIFT keys; positive: none down => off |
| C35 | Asdf + Modifiers | per event positive; refuted after keymap switch |
| C36 | Asdf + Buffer | queue refinement over runs |
| C37 | Asdf | tick case analysis |
| C38 | Asdf | queue refinement |
| C39 | Asdf | refuted (occupies a buffer slot and stops autorepeat) ; positive part: never sent |
| C40 | Asdf | refuted (switch 4 has code 0, sends NUL) ; positive for the others |
| C41 | Asdf | refuted (keymap switch resets polarity); positive without switches |
| C42 | Arch328p | register-level proof for all port states |
| C43 | Arch2560 | same |
| C44 | both | same |
| C45 | both | micro-step traces |
| C46 | both | true for single-bit `sbi` toggling, refuted for read-modify-write lowering |
| C47 | Tick | interleaving semantics: no spurious tick; lost tick refuted |
| C48 | both | refuted: CLKPCE is a bit number, the write never unlocks the prescaler |
| C49 | Asdf | refuted (modifiers are not reset); positive for the rest of the state |
| C50 | Asdf | refuted for FN_11; positive for FN_1..FN_10 |
| C51 | Asdf | scan induction |
| C52 | Asdf | system invariant over runs |

## 4. Outcome

151 properties: 115 proved as stated, 36 partial (most of them refuted as stated, with the strongest true form proved).  `_refuted` theorems
give a concrete execution of the faithful model that violates the property;
`_partial` theorems are what holds instead.

| id | property | status | theorems (file) | what is and is not shown |
|---|---|---|---|---|
| C01 | Buffers behave as bounded FIFO queues | proved | `C01_buffers_are_bounded_fifos` (PropBuffer.v) |  |
| C02 | Buffer operations never leave the shared pool | proved | `C02_buffer_calls_never_undefined`, `C02_negative_size_refuted` (PropBuffer.v) | Stated for sizes >= 0 as in the property. C02_negative_size_refuted shows that the int16_t parameter admits negative sizes that lead to undefined behaviour. |
| C03 | Buffers are isolated from each other | proved | `C03_buffers_are_isolated`, `C03_negative_size_refuted` (PropBuffer.v) | C03_negative_size_refuted: isolation is lost if a negative size was ever requested. |
| C04 | Buffer allocation succeeds exactly when there is room | refuted / partial | `C04_allocation_succeeds_iff_room`, `C04_negative_size_refuted` (PropBuffer.v) | Proved for sizes >= 0. The property quantifies over every size: refuted for negative ones (C04_negative_size_refuted). |
| C05 | Autorepeat cadence | proved | `C05_autorepeat_cadence`, `C05_fires_meaning` (PropRepeat.v) |  |
| C06 | No repeat when repeating is off | proved | `C06_no_repeat_when_off` (PropRepeat.v) |  |
| C07 | REPEAT key gives immediate fast repeat | refuted / partial | `C07_repeat_key_refuted`, `C07_ignored_press_waits_full_delay_refuted`, `C07_repeat_key_partial` (PropRepeat.v) | Refuted: a REPEAT press while the autorepeat timer is at 66 or below is ignored. True when autorepeat is off or fewer than 459 ticks passed since the last restart of the count. |
| C08 | Releasing REPEAT restores the selected autorepeat mode | proved | `C08_release_restores_selection` (PropRepeat.v) |  |
| C09 | Modifier precedence | proved | `C09_modifier_precedence` (PropModifiers.v) |  |
| C10 | Shift lock discipline | proved | `C10_lock_persists`, `C10_shift_cancels_lock`, `C10_press_release_unlocks`, `C10_toggle_is_involution` (PropModifiers.v) |  |
| C11 | A physical output belongs to at most one virtual output | proved | `C11_ownership_follows_first_valid_request`, `C11_at_most_one_owner` (PropDevices.v) |  |
| C12 | Virtual output operations terminate and stay in bounds | proved | `C12_no_divergence_no_bad_index` (PropDevices.v) | Virtual output identifiers of enumeration type (0..11); assignments with arbitrary arguments. |
| C13 | Virtual output operations drive exactly the assigned devices | proved | `C13_action_drives_exactly_its_devices`, `C13_activate_uses_latest_function` (PropDevices.v) |  |
| C14 | Pulses return outputs to their prior level | proved | `C14_pulse_restores_levels` (PropDevices.v) |  |
| C15 | Recorded level equals last driven level | proved | `C15_recorded_level_is_last_driven`, `C15_assignment_without_sync_refuted` (PropDevices.v) | Operations after the sync exclude new assignments, which record without driving (C15_assignment_without_sync_refuted). |
| C16 | Keymap initial output values reach the pins | refuted / partial | `C16_initial_values_reach_pins_refuted`, `C16_initial_values_partial` (PropKeymaps.v) | Refuted for every keyboard: only the CAPS LOCK LED is driven on selection, other declared initial values are recorded but not driven (asdf_virtual_sync is never called). C16_initial_values_partial: the declared values are recorded. |
| C17 | Hook table: last assignment wins and ids are isolated | proved | `C17_last_assignment_wins` (PropModifiers.v) |  |
| C18 | Keymap registration is bounds checked | proved | `C18_add_map_bounds_checked` (PropKeymaps.v); `C18_scanner_in_bounds` (PropScanBounds.v) |  |
| C19 | Every key lookup reads inside the active keymap | refuted / partial | `C19_lookup_in_bounds_partial`, `C19_lookup_in_bounds_refuted` (PropKeymaps.v) | Refuted for keyboards 4 and 5 (asdf_keymaps_get_code indexes keymaps[] with the keyboard number). Proved for keyboards 0-3. |
| C20 | The selected keyboard is always a valid one | proved | `C20_selected_keyboard_valid`, `C20_invalid_selection_ignored`, `C20_running_keyboard_valid` (PropKeymaps.v) |  |
| C21 | The active keymap follows the DIP switches | refuted / partial | `C21_running_keymap_follows_switches` (PropDebounce.v); `C21_keymap_follows_switches_partial`, `C21_keymap_follows_switches_refuted` (PropKeymaps.v) | Refuted: a movement through an invalid position is dropped and never made up. True when every intermediate position is valid; in the running firmware whenever switches 2 and 3 stay open. |
| C22 | Selecting a keymap is a complete, history-independent reset of the keymap tables | proved | `C22_selection_installs_keymap`, `C22_selection_history_independent` (PropKeymaps.v) | Equality of the device tables needs equal CAPS LOCK state beforehand, since selection drives the CAPS LED on keyboards 2, 4, 5. |
| C23 | Apple II, Sol-20 and ACE keymaps start with CAPS LOCK on | refuted / partial | `C23_caps_on_after_selection_refuted`, `C23_caps_on_after_selection_partial` (PropKeymaps.v) | Refuted when CAPS LOCK was already on: selection toggles it. |
| C24 | Debounce: only persistent changes are accepted | refuted / partial | `C24_consecutive_refuted`, `C24_ten_readings_partial` (PropDebounce.v) | Refuted: the readings need not be consecutive, an equal reading does not restart the counter. Proved: exactly ten differing readings since the last change. |
| C25 | Debounce: a persistent change is always accepted, on the right scan | proved | `C25_persistent_change_accepted`, `C25_not_before_tenth`, `C25_equal_reading_keeps` (PropDebounce.v) |  |
| C26 | Keys are debounced independently (n-key rollover) | proved | `C26_keys_independent` (PropDebounce.v) |  |
| C27 | Debounce counters never wrap | proved | `C27_counters_in_range`, `C27_scanner_in_bounds` (PropDebounce.v) |  |
| C28 | Each accepted press sends exactly the mapped code once, in scan order | proved | `C28_scan_types_pressed_keys`, `C28_scan_order` (PropQueues.v) | Steps per key position; codes beyond the 16 places of the queue are dropped (firstn 16). Keyboards 0-3 (4 and 5 hit the undefined lookup). |
| C29 | Autorepeat end to end | proved | `C29_hold_from_rest` (PropHold.v) | Every history that leaves nothing queued, no last key and autorepeat selected; other keys may be held if their codes differ. Keyboards 0-3. |
| C30 | Every new press restarts the autorepeat delay | refuted / partial | `C30_new_press_full_delay_partial`, `C30_new_press_full_delay_refuted` (PropHold.v); `C30_press_law_partial`, `C30_other_code_full_delay_partial` (PropPress.v) | Refuted: releasing the key while SHIFT is down leaves a stale last key, so the next press repeats early. Proved: the exact law from any quiet state after any history in all three repeat modes (C30_press_law_partial: only the code pressed last keeps the old count), hence the full delay for every other code; and the full delay for every key after histories that press no key with an action code. |
| C31 | Repeat rate does not depend on which other keys are held | refuted / partial | `C31_repeat_pace_partial`, `C31_repeat_pace_without_ctrl`, `C31_repeat_pace_refuted` (PropHold.v) | Refuted: with CTRL, two held keys producing the same code repeat faster. Proved when the held keys produce different codes, in particular always without CTRL (and without SHIFT on the Apple keyboard). |
| C32 | REPEAT mode ends when all keys are released | refuted / partial | `C32_repeat_mode_ends_partial`, `C32_repeat_mode_ends_refuted` (PropRepeatMode.v) | Refuted on keyboard 2 (REPEAT exists only in its caps and ctrl maps). Proved for keyboards 0 and 1. |
| C33 | CTRL is active exactly while the CTRL key is down | proved | `C33_ctrl_iff_key_down`, `C33_ctrl_key` (PropModState.v) |  |
| C34 | SHIFT is active while a SHIFT key is down | refuted / partial | `C34_shift_tick_partial`, `C34_shift_only_while_down`, `C34_single_shift_key`, `C34_shift_while_any_down_refuted` (PropModState.v) | Refuted with both SHIFT keys: releasing one ends SHIFT. Proved: exact per-tick law, never on without a SHIFT key, equivalence with a single SHIFT key. |
| C35 | CAPS LOCK indicator shows the CAPS LOCK state | refuted / partial | `C35_caps_led_partial`, `C35_change_drives_led`, `C35_caps_led_refuted` (PropLeds.v) | Refuted: after switching keyboards 0, 2, 0 CAPS LOCK is on and the LED of keyboard 0 is not driven. Proved: a driven LED always agrees, every change drives it, keyboard 2 always agrees. |
| C36 | Host receives exactly what was queued, in order | proved | `C36_sent_is_what_entered`, `C36_no_special_code_sent` (PropQueues.v) |  |
| C37 | At most one code per tick, messages first | proved | `C37_one_code_per_tick` (PropQueues.v) |  |
| C38 | Messages arrive intact | proved | `C38_waiting_message_goes_out`, `C38_message_intact` (PropQueues.v) |  |
| C39 | Unassigned keys are inert | refuted / partial | `C39_unassigned_alone_partial`, `C39_unassigned_step_partial`, `C39_unassigned_inert_refuted` (PropInert.v) | Refuted: pressing an unassigned key stops a running autorepeat. Proved: unassigned keys alone send nothing, and a step of an unassigned key queues no character and no message. |
| C40 | Configuration switches never type | refuted / partial | `C40_switches_alone_partial`, `C40_switch_step_partial`, `C40_last_code_partial`, `C40_switches_never_type_refuted` (PropInert.v) | Refuted: the fifth switch has the implicit code 0 and sends NUL. Proved for the seven other switches. |
| C41 | Strobe polarity follows its DIP switch | refuted / partial | `C41_strobe_follows_switch_partial`, `C41_strobe_follows_switch_refuted` (PropLeds.v) | Refuted at power-up and after a keyboard change. Proved: a polarity commanded since the last hardware initialisation equals the switch. |
| C42 | ATmega328p row read returns exactly the pressed keys of the row | proved | `C42_read_row_328p` (PropArch328.v) |  |
| C43 | ATmega2560 row read returns exactly the pressed keys of the row | proved | `C43_read_row_2560` (PropArch2560.v) |  |
| C44 | Output handlers touch only their own pin | proved | `C44_handlers_2560` (PropArch2560.v); `C44_handlers_328p` (PropArch328.v) | Both boards, both build kinds, any registers before initialisation, any calls before the handler. |
| C45 | Open-collector emulation never drives the wrong way, even transiently | proved | `C45_open_2560` (PropArch2560.v); `C45_open_328p` (PropArch328.v) | Optimised builds, from reset, as long as no other handler of the same pin is called. |
| C46 | Strobe protocol | proved | `C46_strobe_2560` (PropArch2560.v); `C46_strobe_328p` (PropArch328.v) | Optimised builds; C55 is the unoptimised case. |
| C47 | Tick accounting under interrupts | refuted / partial | `C47_report_has_irq_partial`, `C47_reports_le_irqs_partial`, `C47_next_load_reports_partial`, `C47_all_reported_partial`, `C47_irq_lost_refuted` (PropTick.v) | Refuted: an interrupt between the load and the clear of the flag is lost. Proved: every report has an interrupt since the last clear, reports never outnumber interrupts, an interrupt outside the window is reported by the next load, and without interrupts in the window every interrupt is reported exactly once. |
| C48 | Clock prescaler is set at initialisation | refuted / partial | `C48_prescaler_2560_partial`, `C48_prescaler_2560_refuted` (PropArch2560.v); `C48_prescaler_328p_partial`, `C48_prescaler_328p_refuted` (PropArch328.v) | Refuted on both boards: CLKPR is written with CLKPCE as a bit number (7) so the write is ignored; with the CKDIV8 fuse the division stays 8. Proved: the division is exactly the one at reset. |
| C49 | Initialisation is history independent | refuted / partial | `C49_init_state_partial`, `C49_same_future_partial`, `C49_storage_kept_partial`, `C49_init_forgets_refuted` (PropInit.v) | Refuted: a modifier held before stays in force. Proved: everything else is reset, and two keyboards with the same modifiers behave the same on every later input. |
| C50 | Every function key runs its hook | refuted / partial | `C50_function_keys_run_hooks_refuted`, `C50_function_keys_run_hooks_partial` (PropKeymaps.v) | Refuted for function action 11, which has no case in the switch. Proved for 1-10. |
| C51 | Idle scans change nothing | proved | `C51_idle_scan_identity`, `C51_idle_tick_identity` (PropDebounce.v) |  |
| C52 | The firmware never enters undefined behaviour while a four-map keyboard is selected | proved | `C52_no_undefined_behaviour`, `C52_only_failure` (PropDebounce.v) |  |
| C53 | Every registered message can be typed | refuted / partial | `C53_registered_messages_triggerable_refuted`, `C53_registered_messages_triggerable_partial` (PropKeymaps.v) | Refuted for the Apple II caps keymap (hook 9 has no key). Proved for all others. |
| C54 | The tick timer fires every millisecond | proved | `C54_tick_2560` (PropArch2560.v); `C54_tick_328p` (PropArch328.v) | Period = F_CPU/1000 * 2^CLKPS cycles; 1 ms when the clock is undivided (see C48). |
| C55 | Sending disturbs no other pin in the unoptimised build | refuted / partial | `C55_unoptimised_2560_refuted` (PropArch2560.v); `C55_unoptimised_328p_refuted` (PropArch328.v); `C55_what_sending_does_328p_partial`, `C55_what_sending_does_2560_partial` (PropRmw.v) | Refuted on both boards: the read-modify-write of PINB toggles every high pin of port B. Proved on both boards, after any history: the strobe pulse and the data are right, every other output of port B that was high ends low, nothing else changes. |
| C56 | The host latches exactly the codes sent | refuted / partial | `C56_host_gets_sent_partial`, `C56_host_gets_sent_refuted` (PropHost.v); `C56_latch_2560` (PropHost2560.v); `C56_latch_328p` (PropHost328.v) | Refuted: opening the polarity switch makes a rising-edge host latch the last code again. Proved: exactly the sent codes are received when the polarity switch is not moved and mode switch 2 stays open; for arbitrary calls, exactly which codes are latched is characterised on both boards. |
| C57 | The firmware behaves exactly as the reference keyboard machine | proved | `C57_reference_machine` (PropRef.v) | Refinement of the whole scanner, both queues, devices and keyboard selection; the abstract machine KeySpec.v is the specification. |
| C58 | Autorepeat follows its DIP switch | refuted / partial | `C58_follows_switch_partial`, `C58_off_types_once_partial`, `C58_follows_switch_refuted` (PropSwitch.v) | Refuted: with the switch open since power-up held keys repeat, because the release action only runs on a change. Proved: from the first time the switch is accepted closed the mode follows the switch for ever; with the mode off a key held from rest is typed once. |
| C59 | RESET and CLEAR outputs pulse once per accepted press, RESET only with CTRL | proved | `C59_panel_outputs`, `C59_never_left_asserted` (PropOutputs.v) | Keyboards 0 to 3 (the switch settings that select them); keyboard 4 has other outputs. |
| C60 | Letter keys type their letter | proved | `C60_letter_code`, `C60_one_key_per_letter`, `C60_letter_typed` (PropText.v) |  |
| C61 | Every printable ASCII character can be typed | refuted / partial | `C61_keyboard2_types_all_partial`, `C61_keyboard0_types_rest_partial`, `C61_all_printable_refuted` (PropText.v) | Refuted: keyboard 0 has no key for ^ and _ . Proved: keyboard 2 types all of them and keyboard 0 all the others. |
| C62 | Modifier events drive exactly the lock LEDs | proved | `C62_modifier_leds`, `C62_led_shows_lock` (PropModLeds.v) | Module level, any assignment of devices. |
| C63 | Every accepted keystroke is sent | refuted / partial | `C63_every_run_is_typing_partial`, `C63_no_keystroke_lost_partial`, `C63_keystroke_lost_refuted` (PropLatency.v) | Refuted: of seventeen keys accepted in one scan the last is lost. Proved: without messages, as long as no more than sixteen codes pile up nothing is lost, duplicated or reordered; every execution decomposes into offers per tick. |
| C64 | A waiting code is sent within 144 ticks | refuted / partial | `C64_exact_delay_partial`, `C64_delay_bound_refuted` (PropLatency.v) | Refuted: messages typed meanwhile overtake the code for 400 ticks. Proved: without new messages the delay is exactly the number of characters ahead. |
| C65 | The test architecture records what is driven on each output | refuted / partial | `C65_recorded_outputs_partial`, `C65_recorded_outputs_refuted` (PropArchTest.v) | Refuted: five of the six open-collector devices are recorded under OUT1_OPEN_HI. Proved: exact for all other outputs, and what the six share. |
| C66 | The pulse detector of the test architecture is exact | proved | `C66_pulse_detector` (PropArchTest.v) |  |
| C67 | Pulses on different outputs are detected independently | refuted / partial | `C67_pulses_independent_partial`, `C67_pulses_independent_refuted` (PropArchTest.v) | Refuted: a delay in the pulse of one output puts the detectors of all others in an absorbing error state. Proved: detected when every earlier delay was the middle of a pulse of the same output. |
| C68 | The test architecture reports the code sent last | proved | `C68_sent_code` (PropArchTest.v) |  |
| C69 | OSI row read returns exactly the pressed keys of the row | proved | `C69_osi_row` (PropOsi.v) | The behaviour of the keyboard on its bus is an assumption stated in PropOsi.v. The function is not called by the firmware. |
| C70 | OSI row reads do not disturb the switch row | refuted / partial | `C70_switches_after_osi_partial`, `C70_switches_after_osi_refuted` (PropOsi.v) | Refuted: the read leaves only one column with a pull-up. Proved: exactly which switches read right and what the others read. |
| C71 | Processor and OSI keyboard never drive the bus at the same time | refuted / partial | `C71_bus_contention_refuted`, `C71_bus_contention_partial` (PropOsi.v) | Refuted for every OSI read that follows another. Proved: the row number is driven by the processor alone while RW is low, and the processor has released the bus at the end. |
| C72 | Typing from rest sends exactly the codes typed | proved | `C72_session` (PropTyping.v) | Stated for sessions built from waits, keystrokes and modifier presses and releases; held keys must not carry ACTION_NOTHING or the code being typed. |
| C73 | Any text can be typed and reaches the host | proved | `C73_any_text` (PropTypist.v) | Composition of C72 with C56. |
| C74 | The board sees exactly the keys closed when each row is read | proved | `C74_whole_board` (PropSystem.v) | Refinement: System.v (firmware on the ports) behaves as Asdf.v fed with the true matrix rows. |
| C75 | From physical keys to connector pins | proved | `C75_keys_to_pins` (PropSystem.v) | Composition of C73, C74 and C56. |
| C76 | Output pins follow the last call on their devices | proved | `C76_output_pins` (PropPins.v); `C76_pins_2560` (PropPins2560.v); `C76_pins_328p` (PropPins328.v) | For single-bit writes compiled to single instructions (rmw = false), which the build flags give. |
| C77 | The CAPS LED is lit exactly while CAPS LOCK is on | refuted / partial | `C77_caps_led_lit_partial`, `C77_caps_led_lit_refuted`, `C77_caps_led_lit_328p_refuted` (PropPins.v) | Refuted: on the 2560 the CAPS LED of keyboard 0 is lit from power-on with CAPS LOCK off; on the 328p it is dark with CAPS LOCK on after a switch to keyboard 2 and back. Proved: keyboard 2 on both boards always; keyboard 0 on the 328p until a keyboard change; keyboard 0 on both boards once CAPS LOCK was changed since the last keyboard change. |
| C78 | Typing with bouncing contacts is exact | proved | `C78_bouncing_typist` (PropBounce.v) |  |
| C79 | The keyboard falls silent when left alone | proved | `C79_falls_silent` (PropBounce.v) |  |
| C80 | After a rest typing is exact | refuted / partial | `C80_recovers_partial`, `C80_recovers_refuted` (PropBounce.v) | Refuted: a stale last key (C30) survives the rest and the next keystroke of 145 ticks on that key is typed twice. Proved: exact for all bouncing sessions whose first code is not the stale one. |
| C81 | In real time both boards behave as the tick-by-tick model | proved | `C81_real_time` (PropTimed.v) | Computation and the 10 us pulses take no time in the clock model (Timed.v). |
| C82 | Typing is exact in real time | proved | `C82_typing_in_real_time` (PropTimed.v) |  |
| C83 | A keystroke of a third of a second is typed, whatever else goes on | refuted / partial | `C83_one_second_partial`, `C83_short_press_refuted` (PropClock.v) | Refuted: while a message is sent scans come only every 40 ms, and a key held 369 ms is never seen. Proved: a contact that stays closed (or open) for 1001 ms is always accepted within that time. |
| C84 | Message characters are spaced | proved | `C84_message_spacing` (PropClock.v) |  |
| C85 | The host has 40 ms after every message character | refuted / partial | `C85_message_paced_partial`, `C85_pause_after_message_refuted` (PropClock.v) | Refuted: a code typed while the message runs is sent in the same millisecond as the last message character. Proved: the waiting characters of a message go out at least 40 ms apart and at most 91 ms apart whatever the keys do. |
| C86 | The scan rate is bounded on both sides | proved | `C86_scan_rate` (PropClock.v) |  |
| C87 | Autorepeat timing in milliseconds | proved | `C87_autorepeat_in_real_time` (PropClock.v) |  |
| C88 | Applying all actions puts the configuration switches into effect | proved | `C88_apply_all_actions` (PropApply.v) | asdf_apply_all_actions is never called by the firmware. |
| C89 | Started with all actions applied, the firmware honours its switches for ever | proved | `C89_switches_honoured_from_start` (PropApply.v) | About the program asdf_init; asdf_apply_all_actions; ticks. The polarity part is for unchanged mode switches: selecting a keyboard does not set the polarity. |
| C90 | In real time the host at the connector gets exactly the codes sent | proved | `C90_real_time_to_connector` (PropConnector.v) | For single-bit writes compiled to single instructions, which the build flags give. Computation takes no time in the clock model. |
| C91 | Every text can be typed in real time at 42 ms per character | proved | `C91_any_text_in_real_time` (PropConnector.v) |  |
| C92 | Nothing observable depends on how long computing takes | proved | `C92_any_computing_time`, `C92_host`, `C92_no_time` (PropJitter.v) | C92_any_computing_time and C92_host; C92_no_time relates the model to that of C81. |
| C93 | Message characters keep 40 ms distance however long computing takes | proved | `C93_message_spacing` (PropJitter.v) |  |
| C94 | Typing in continuous time, however long computing takes | proved | `C94_typing_in_continuous_time` (PropHands.v) | The bound G on a pass is an assumption about the speed of the processor (1 for the real firmware unless a message is being sent). |
| C95 | Synchronising the outputs after selecting a keyboard puts the declared levels at the pins | refuted / partial | `C95_sync_partial`, `C95_sync_pins_refuted` (PropSync.v) | Refuted: asdf_virtual_sync also drives unassigned devices, and the unused OUT3_OPEN_LO shares its pin with OUT3_OPEN_HI and comes later, so that pin is driven high instead of pulled up. Proved: every declared device is last driven with its declared level, and every other declared pin is right on both boards. No code under src calls asdf_virtual_sync (the test keymaps do), so this is about the API, not about the running firmware. |
| C96 | CAPS LOCK changes by its key and by selecting keyboard 2, and by nothing else | proved | `C96_caps_lock_law`, `C96_caps_lock_parity` (PropCaps.v) |  |
| C97 | CLEAR SCREEN is asserted for 50 ms each time, RESET for less than a millisecond | proved | `C97_recording`, `C97_pulse_width` (PropPulse.v) | The recorder of PropPulse.v notes calls with times; C97_recording shows it records the run of Jitter.v. The short delay of 10 us counts as no time (Timed.v). |
| C98 | A firmware built from any sound keymaps never does anything undefined | proved | `C98_any_keymaps_safe`, `C98_any_four_shipped_safe`, `C98_fifth_keyboard_refuted`, `C98_rows_refuted`, `C98_percent_refuted` (PropCustom.v) | C98_fifth_keyboard_refuted, C98_rows_refuted and C98_percent_refuted show that the bounds on indices and rows and the condition on messages cannot be dropped. |
| C99 | Debouncing works the same under any keymaps | proved | `C99_own_readings`, `C99_persistent_change_accepted`, `C99_ten_readings_needed` (PropCustom.v) |  |
| C100 | Modes, selected keyboard and outputs follow from the accepted key transitions alone, under any keymaps | proved | `C100_setting`, `C100_same_transitions` (PropEvents.v) |  |
| C101 | No stuck modifiers, provided the keymaps keep each modifier key in place | proved | `C101_no_stuck_ctrl`, `C101_no_stuck_shift`, `C101_single_ctrl`, `C101_shipped`, `C101_any_keymap_refuted` (PropEvents.v) | C101_any_keymap_refuted shows that the positions of the modifiers have to be fixed. |
| C102 | What is sent comes from what was typed, in order, under any keymaps | proved | `C102_sent`, `C102_all_sent`, `C102_in_order` (PropFlow.v) |  |
| C103 | A keymap without a table for some modifiers locks the keyboard up | proved | `C103_dead` (PropDead.v) |  |
| C104 | The output of a firmware of any keymaps, computed exactly from the readings of each key | proved | `C104_exact` (PropExact.v) |  |
| C105 | Typing sessions print what is on the keys, under any keymaps | proved | `C105_session` (PropSession.v) |  |
| C106 | On the board, a firmware of any keymaps makes exactly the port accesses its calls say | proved | `C106_whole_board` (PropBoard.v) |  |
| C107 | What a host latches, computed exactly, under any keymaps | proved | `C107_latched`, `C107_strobe_kept` (PropBoard.v) |  |
| C108 | Every call on outputs, strobe and delays, exactly, under any keymaps | proved | `C108_all_calls`, `C108_pins` (PropAllCalls.v) |  |
| C109 | Lamps show their mode and outputs their count of presses, under any keymaps | proved | `C109_lamps` (PropLamps.v) | A lamp that has not been driven since its keyboard was set up (y = None) shows whatever its pin shows; C62, C76 and C108 say what that is. |
| C110 | Under any keymaps and any computing time, the firmware in real time on either board | proved | `C110_any_keymaps_in_real_time`, `C110_whole_board_in_real_time` (PropAnyTime.v) | Timing as in C92 (Jitter.v): any number of timer interrupts in every piece of computing; T in the theorem is the moment each row was read. |
| C111 | Typing with bouncing contacts prints what is on the keys, under any keymaps | proved | `C111_bouncing_session` (PropAnyHands.v) | Sessions as in C105 with bouncing contacts; strokes stay below the autorepeat delay (C105 covers longer ones without bounces). |
| C112 | Someone types in continuous time, under any keymaps and any computing time | proved | `C112_any_keymaps_in_continuous_time` (PropAnyHands.v) | The hypothesis bounds the length of each pass (computing time) by G; G = 1 when computing fits into a millisecond. |
| C113 | From fingers in continuous time to what the host latches, under any keymaps | proved | `C113_host_gets_all_sent`, `C113_typing_to_connector` (PropAnyConnector.v) | Firmwares that do switch the strobe polarity: C107 and C110 say exactly what is latched. |
| C114 | Rollover: with several keys down at once every character struck is sent once, in order, under any keymaps | proved | `C114_characters`, `C114_rollover` (PropRollover.v) | Why modes should not move with character keys down: C30 (a release under other modes leaves the repeat count running). C114_rollover follows from C114_characters. |
| C115 | Messages keep the pace their keyboard asks for, in real time, under any keymaps | proved | `C115_message_spacing`, `C115_message_paced` (PropAnyPace.v) | Characters 0xA0 and above in a message are not sent (C104), hence the hypothesis that the waiting ones are below. |
| C116 | However it was treated, after a short rest the keyboard is silent and then types what is struck, under any keymaps | proved | `C116_falls_silent`, `C116_recovers` (PropAnyRest.v) | 154 = 10 scans to accept the keys + 16 + 128 for the two queues. Why the remembered character has to be exempted: C80_recovers_refuted. |
| C117 | Recovery in continuous time, under any keymaps and any computing time | proved | `C117_recovers_in_continuous_time` (PropRestTime.v) | 156 passes: 10 to accept the keys, 144 for the queues, two at the ends. The pass bound G is needed only from A on; a message pause counts into G. |
| C118 | Any client of the public functions sees the small machine | proved | `C118_client_refines` (PropClient.v) | The client may do all a program linked to the firmware can do through its headers, except the five internal functions named in DESIGN.md section 5. |
| C119 | No client that respects the tables can break the firmware | proved | `C119_client_safe` (PropClient.v) | C119_conditions_needed shows sessions that break one condition each and are undefined. |
| C120 | Asking changes nothing | proved | `C120_queries_are_transparent`, `C120_negative_room_refuted` (PropClient.v) | C120_negative_room_refuted: a negative size does change something (the next buffer granted overlaps the key queue), so the condition cannot be dropped. |
| C121 | What is put comes out, after any session | proved | `C121_what_is_put_comes_out` (PropRestart.v) | Message character 0xA0 is excepted: it reads as "no code". |
| C122 | Three calls bring back power-on | proved | `C122_restart_is_power_on`, `C122_init_alone_refuted` (PropRestart.v) | C122_init_alone_refuted: asdf_init keeps the modifiers (compare C49). |
| C123 | What every key of the six shipped keyboards types, by rule | proved | `C123_rules`, `C123_letters`, `C123_modes_in_place` (PropLegends.v) | The rules are checked against all tables by computation (a finite fact for each mode combination) and lifted to every session by C105. |
| C124 | Which texts can be typed on the six shipped keyboards | proved | `C124_any_text`, `C124_nothing_else`, `C124_every_character_refuted` (PropLegends.v) | C124_every_character_refuted: the Sol-20 keymap lacks { / }, so the list of exceptions cannot be empty. |
| C125 | Rolling from key to key with bouncing contacts, whatever the keymaps | proved | `C125_rolls` (PropRollTime.v) | Overlapping strokes with bounces; C114 is the case of single-scan transitions, C111 that of strokes one after the other. |
| C126 | Rolling from key to key in real time | proved | `C126_rolls_in_continuous_time` (PropRollTime.v) | Continuous-time form of C125, by the passes of C112. |
| C127 | How soon a keystroke is answered | proved | `C127_response_time` (PropResponse.v) | From C126 applied to the script cut at the beginning of each stroke and at the moment its contact has kept still long enough. |
| C128 | Holding a key repeats it, and only the key struck last | proved | `C128_holds` (PropHolds.v) | Contains C125 (every rolling script is such a script without holds). While a key is held the other keys keep still; its repeats are counted exactly in readings and bounded in scans, as bounces shift the moment of acceptance. |
| C129 | Holding a key in real time | proved | `C129_holds_in_continuous_time` (PropHolds.v) | Continuous-time form of C128, by the passes of C112. |
| C130 | Message keys among typing, holding and mode keys | proved | `C130_message_keys` (PropSpeak.v) | Contains C128 (a script without message keys). Characters typed while a message is still going out are not covered here; C104 gives the output exactly for all readings. |
| C131 | Message keys among typing, holding and mode keys, in real time | proved | `C131_message_keys_in_continuous_time` (PropSpeak.v) | Continuous-time form of C130; C129 with a pass bound for each stretch of the script. |
| C132 | From fingers to the connector: all kinds of strokes, real time, both boards, any keymaps | proved | `C132_fingers_to_connector` (PropEndToEnd.v) | C131 seen at the connector by C113_host_gets_all_sent. Firmwares that switch the strobe polarity: C107, C110. |
| C133 | When keystrokes are lost, under any keymaps | proved | `C133_nothing_lost`, `C133_lost_exactly_in_bursts` (PropNoLoss.v) | Generalises C63 from the shipped keymaps to any. The condition room is checked along the replay of C104 (work gives what each scan types and calls up). The second theorem is an equivalence. |
| C134 | How long a code waits, under any keymaps | proved | `C134_exact_delay` (PropNoLoss.v) | Generalises C64 to any keymaps. Message characters of 0xA0 and above (other than 0xA0) take their turn but are not sent. |
| C135 | With autorepeat off every key is typed exactly once, under any keymaps | proved | `C135_once`, `C135_each_key_sent_once` (PropOnce.v) | Generalises the second half of C58 to any keymaps and any readings. A switch that is open from the start never moves and so does not turn autorepeat off (C41, C58, C89). |
| C136 | All functions of the device modules, in any order | proved | `C136_all_device_functions`, `C136_physical_init_refuted` (PropPhysical.v) | Extends C11-C15 and C118 to the functions Client.v leaves out. XNext says nothing about devices that are still free. The companion theorem refutes the guarantees for asdf_physical_init called alone, which no file but asdf_virtual.c does. |
| C137 | Buffers initialised again start afresh | proved | `C137_buffers_start_afresh` (PropBufferAll.v) | Extends C01: initialisation anywhere and calls before the first one. asdf_buffer_new of a negative size stays excluded (C02). |
| C138 | How fast keys can repeat, whatever is held and moved, under any keymaps | proved | `C138_repeat_rate`, `C138_sent_rate`, `C138_no_loss_at_human_pace`, `C138_same_code_refuted` (PropRate.v) | kind: characters of the kind exclude 0xA0, or all codes are counted. sharing quantifies over all modes of registered keyboards. C138_same_code_refuted shows that the bound is false with d = 1 when two keys bear the same character. typed is the list of codes of accepted presses (C102, C135). |
| C139 | Only keys with a function, inside the matrix, can influence what the keyboard does, under any keymaps | proved | `C139_only_live_keys_matter`, `C139_nothing_keys_refuted` (PropDeaf.v) | Two-run statement (noninterference) over the whole call trace, for any sound firmware with keymaps of one size. C139_nothing_keys_refuted: a key coded ACTION_NOTHING does influence the rest. |
| C140 | Up to nine stray readings of a key are never noticed, and nothing but the debounced keys matters, under any keymaps | proved | `C140_debounced_view`, `C140_stray_readings`, `C140_ten_spikes_refuted` (PropStray.v) | Noninterference over the whole call trace. closed_readings counts readings only and does not mention the debouncer. C140_ten_spikes_refuted shows that nine cannot be replaced by ten, even with isolated spikes (the counter is not restarted by equal readings, C24). |
| C141 | Keymaps that describe the same keyboards cannot be told apart | proved | `C141_same_keyboards`, `C141_lines_commute`, `C141_lamp_after_caps_refuted` (PropSameKeys.v) | Two-program statement over the whole call trace. C141_lines_commute: exchanging neighbouring lines. C141_lamp_after_caps_refuted: lines for outputs and CAPS LOCK cannot be exchanged. |
| C142 | Typing with the REPEAT key and the autorepeat key, under any keymaps | proved | `C142_repeat_key`, `C142_repeat_ignored_refuted` (PropRepeatKey.v) | Sessions with the modes fast, auto and tired spelled out in the inductive definition session_r. C142_repeat_ignored_refuted: REPEAT pressed after a long stroke is ignored (compare C07). |
| C143 | Exactly which characters and texts a firmware of any keymaps can send | proved | `C143_texts`, `C143_exactly`, `C143_unsteady_refuted` (PropReach.v) | C143_texts: existence of a run for every text; C143_exactly: characterisation of the characters that can be sent. C143_unsteady_refuted: keys with changing roles break the characterisation. |
| C144 | Repeating, for every setting of the repeat times in asdf_config.h | proved | `C144_cadence`, `C144_repeat_key`, `C144_shipped`, `C144_equal_times_refuted`, `C144_no_time_refuted`, `C144_repeat_ignored` (PropConfig.v) | Model Config.v, parametric in the settings; states are the numbers of the C enumeration, so that coinciding settings are modelled. C144_shipped: with the shipped settings it answers as Repeat.v. The _refuted theorems hold for every setting of the kind named and show that the conditions are needed; C144_repeat_ignored covers A <= P. |
| C145 | Debouncing, for every debounce time in asdf_config.h | proved | `C145_scanner`, `C145_law`, `C145_shipped`, `C145_zero_refuted`, `C145_large_refuted` (PropConfig.v) | Model Config.v, parametric in the debounce time, row words and byte counters as in the code. C145_law says what accepted means without counters; C145_shipped: with the shipped time these are the transitions of C100. C145_zero_refuted, C145_large_refuted: 0 and times above 255. |
| C146 | What the message keys of the six shipped keyboards print, letter for letter | proved | `C146_texts`, `C146_never_told` (PropTells.v) | The texts are written as strings in the specification, independent of the tables of KeymapData.v. |
| C147 | The identifying message tells which keyboard is in use | refuted / partial | `C147_identifies_refuted`, `C147_identifies_partial` (PropTells.v) | Refuted by C147_identifies_refuted: classic and classic caps print the same text. C147_identifies_partial: the other pairs are told apart. |
| C148 | Buffers, for every setting of their sizes and number | proved | `C148_every_setting`, `C148_large_buffers`, `C148_shipped`, `C148_large_refuted` (PropBufConfig.v) | Only asdf_buffer_new depends on the settings; it is modelled with them as parameters (PropBufConfig.v), the other functions are those of Buffer.v. C148_large_refuted: for every size of 256 and more the queue law fails, because count, head and tail are bytes. |
| C149 | What the keys of the six shipped keyboards do to lamps and output lines | proved | `C149_outputs`, `C149_ace_reset_refuted` (PropKeysOut.v) | The functions of the keys and their calls are written out as a table in the specification. The companion C149_ace_reset_refuted shows that the ACE 1000 assigns RESET and CLEAR SCREEN outputs that no key works. Modes are those of C100. |
| C150 | Keymaps that are never selected make no difference | proved | `C150_unselected_keymaps`, `C150_shipped`, `C150_shipped_outputs`, `C150_switch_refuted` (PropSubset.v) | The hypothesis only_common speaks about the accepted transitions and modes of C100. C150_shipped_outputs transfers C149 to the shipped firmware. The companion C150_switch_refuted shows that the condition on switch 2 cannot be dropped. |
| C151 | Exactly when the shipped firmware leaves defined behaviour | proved | `C151_otherwise_as_four`, `C151_at_once`, `C151_within_ten`, `C151_exactly_when` (PropFatal.v) | C151_exactly_when is the equivalence: all prefixes are defined with one of the keyboards 0 to 3 selected, if and only if switch 2 is never accepted as closed on keyboard 0 or 1. C151_within_ten: afterwards ten scans suffice for the out-of-bounds read, for all readings. C151_otherwise_as_four: else the calls are those of the first four keymaps. |

## 5. Modelled, not modelled

Modelled, function by function:

* `asdf_buffer.c`: all of it.
* `asdf_repeat.c`: all of it.
* `asdf_physical.c`, `asdf_virtual.c`: all functions, including
  `asdf_virtual_sync`, which the firmware never calls.
* `asdf_modifiers.c`: all, including `asdf_modifiers_init` (never called).
* `asdf_hook.c`: all.
* `asdf_keymaps.c`, `asdf_keymap_setup.c.in`: all, for the keyboard list of
  `keymap_list.cmake` (six keyboards); in `Custom.v` for any list of keymaps
  whose setup functions are sequences of the calls the shipped ones make
  (`c_run_shipped`: with the shipped list it is the firmware of `Asdf.v`).
* `asdf_config.h`: the settings as shipped; in `Config.v` the repeat module and
  the scanner for every setting of the debounce and repeat times (C144, C145;
  the sizes of single buffers are parameters in `Buffer.v`, those of the pool and
  the number of buffers in `PropBufConfig.v`, C148).  What the keys do is
  left out there: the scanner records which keys it activates and deactivates.
* `Keymaps/`: setup functions, matrices and messages of classic, classic_caps,
  apple2, apple2_caps, sol, ace1000, with their `add_map` functions and the DIP
  switch row.
* `asdf.c`: all, including `asdf_apply_all_actions` (never called; C88, C89).
* `asdf_print.c`: for messages without arguments, the only ones the firmware prints.
* The public functions as a library (`Client.v`): every function declared in the
  headers can be called in any order with any argument, except
  `asdf_buffer_init`, `asdf_physical_init`, `asdf_physical_allocate`,
  `physical_device_is_available` and `asdf_physical_next_device`, which the
  firmware calls itself; these are covered within their modules by C136
  (`PropPhysical.v`) and C137 (`PropBufferAll.v`);
  `asdf_keymap_add_virtual_device` and
  `asdf_keymap_add_hook` are declared but defined nowhere.  `asdf_keyscan`
  registered at a hook and run from inside a scan counts as a wrong hook type.
* `main.c`: initialisation and loop body; in `Timed.v` and `Jitter.v` also the
  waiting loop, driven by the timer interrupt.
* `Arch/asdf_arch_atmega328p.c`: all functions.  `Arch/asdf_arch_atmega2560.c`:
  all functions.
* `Arch/asdf_arch_test.c`: all functions.

Not modelled:

* The exact time computing takes.  `Timed.v` counts milliseconds: the 1 ms
  interrupt, the delays of whole milliseconds and the waiting loop; everything
  else takes no time.  `Jitter.v` lets any number of interrupts occur in each
  stretch of computing, also where the flag is cleared; the theorems C92-C94
  hold for every choice.  The length of the 10 us pulses and the four-cycle
  window of CLKPR are not modelled.
* `Templates/`, `docs/`, the EEPROM specification, the build system except the keyboard list.
* `Keymaps/asdf_keymap_apple2_matrix.c`, which is in no build and is not valid C, and
  the headers `asdf_keymap_defs_{apple2,sol,test,test2}.h`, which no built file uses.
* PCB details beyond the wiring stated in `Arch328p.v` and `Arch2560.v`;
  electrical ghosting of a diode-less matrix (the matrix given to the reader is
  the one seen at the column pins).
* Compiler correctness.  For `set_bit` on an I/O register both translations the
  compiler may choose (`sbi`, read-modify-write) are modelled (`rmw`).

## 5a. The project's own tests on the model

`TestSuite.v` transcribes the unit tests of `firmware/asdf/test` (buffer, repeat,
modifiers, virtual outputs, keymaps, hooks, and the unbuilt `test_asdf.c`) as
calls and assertions on the model and evaluates them.  All assertions hold, with
one exception that confirms a finding: `dip_switch_properly_sets_bits`,
`dip_switch_properly_clears_bits` and `test_each_scan_hook_is_executed_each_scan`
use keyboards 4 to 10 and so read `keymaps[4]` and beyond, which is undefined
(C19).  `test_alternate_scan_hook` installs functions that are not part of the
firmware and is left out.  The tests prove nothing; they are evidence that the
model behaves as the code its authors tested.

## 6. Trusted base

* The Coq 8.16.1 kernel, including its `vm_compute` machine (used for witnesses
  and for decidable facts about constant keymap tables).
* `Print Assumptions` is issued for every one of the 309 `C##_` theorems; each
  answers "Closed under the global context": no axiom of the standard library,
  none of ours.  (The context checker lists seven constants of
  `Coq.ssr.ssrunder.Under_rel` as axioms of *loaded* libraries: they come in
  with `Zify`/`ssreflect` loading; no theorem depends on them.)
* The hand translation of the C text into `Buffer.v` ... `Tick.v`, `System.v`,
  `Timed.v`, `Jitter.v`, `Custom.v`, `CustomSystem.v` and `CustomTime.v` (citations at each definition) and the mechanical transcription of the keymap tables into
  `KeymapData.v`.
* For the architecture theorems: `Avr.v` as a description of the ATmega ports,
  CLKPR and timer 0 (data sheet), the bit numbers of `avr/io.h`, and the board
  wiring at the top of `Arch328p.v` and `Arch2560.v`; the polled OSI keyboard
  at the top of `PropOsi.v`.
* That the specifications say what the English property says.  Section 8 tests
  this.

No axioms, parameters, admitted proofs, functors, module types or plugins.

## 7. Defects found in the firmware

Each is a `_refuted` theorem with a concrete witness.

| where | what | theorem |
|---|---|---|
| `asdf_buffer.c` 126 | a negative size is accepted: the pool pointer moves backwards and buffers overlap, `% 0` and out-of-pool writes follow | C02, C03, C04 `_negative_size_refuted`; reachable through the public functions of the running firmware: `C120_negative_room_refuted` |
| `asdf_repeat.c` 118 | REPEAT pressed while 66 or fewer ticks are left is ignored | `C07_repeat_key_refuted` |
| `asdf_virtual.c` 215 / `main.c` | `asdf_virtual_sync` is never called: declared initial values never reach the pins | C16 |
| `asdf_virtual.c` 240 | `asdf_virtual_sync` also drives the devices no keymap assigns; OUT3_OPEN_LO shares the pin of OUT3_OPEN_HI, which ends up driven high instead of pulled up | `C95_sync_pins_refuted` |
| `asdf_keymaps.c` 394 | the key lookup indexes the four modifier maps with the keyboard number: undefined behaviour on keyboards 4 and 5 | C19 |
| `asdf_keymaps.c` 190 | a DIP switch movement passing through an unused position is dropped for ever | C21 |
| `Keymaps/asdf_keymap_apple2.c` etc. | setup toggles CAPS LOCK instead of setting it | C23, C35 |
| `asdf.c` 488 | the debounce counter is not restarted by a bounce | C24 |
| `asdf.c` 421-464 | releasing a key after a modifier change leaves a stale last key; two keys with equal codes repeat faster; an unassigned key stops the repeat; the stale last key survives any rest and doubles a later keystroke | C30, C31, C39, C80 |
| `Keymaps/asdf_keymap_apple2*.c` | REPEAT is missing in the plain and shift maps: the mode can stick | C32 |
| `asdf_modifiers.c` 176 | with two SHIFT keys, releasing one ends SHIFT | C34 |
| `asdf_keymap_defs_dipswitch.h` | the fifth switch has code 0 and types NUL | C40 |
| `Arch/*.c` init | the strobe polarity is reset to the default by every keyboard change; the switch is not read at power-up; moving it makes the host latch a stale code | C41, C56 |
| `Keymaps/asdf_keymap_sol.c` | the keys ; : [ \ ] have no shifted character, so { \| } cannot be typed at all; SHIFT 0 types a space | `C124_every_character_refuted`, C123 |
| `Keymaps/asdf_keymap_classic_caps.c` 38 | the classic caps keyboard identifies itself by the text of the classic keyboard, so the host cannot tell them apart | `C147_identifies_refuted` |
| `Keymaps/asdf_keymap_ace1000.c` 78-81 | RESET and CLEAR SCREEN outputs are assigned, but no key is mapped to them (ACE1000_ACTION_RESET and ACE1000_ACTION_CLEAR are never used) | `C149_ace_reset_refuted` |
| `Keymaps/asdf_keymap_ace1000.c` | CTRL with the key of `-` and `_` types `=` (ACE_KEY_CTRL_UNDERSCORE is 0x3d, probably meant 0x2d or 0x1f) | C123 (`ctrl_rule`) |
| `Arch/*.c` `asdf_arch_tick` | a timer interrupt between load and clear of the flag is lost | C47 |
| `Arch/*.c` `asdf_arch_init_clock` | CLKPCE is a bit number, so the write to CLKPR never unlocks the prescaler | C48 |
| `asdf.c` 642 | modifiers survive `asdf_init` | C49 |
| `asdf.c` 219 | ACTION_FN_11 has no case | C50 |
| `Keymaps/asdf_keymap_apple2_caps.c` | the message of hook 9 cannot be typed | C53 |
| `Arch/*.c` `send_code` | in an unoptimised build toggling the strobe through PINB clears every other high pin of the port | C55 |
| `asdf.c` / keymaps | the autorepeat switch is ignored until it is moved; the unused `asdf_apply_all_actions` would repair this and the start-up part of C41 | C58, C89 |
| `Keymaps/asdf_keymap_classic.c` | no key types `^` or `_` | C61 |
| `asdf.c` | the seventeenth key of a scan is lost; messages typed meanwhile delay a code without bound | C63, C64 |
| `Arch/asdf_arch_atmega2560.c` 805 | the OSI row read leaves the columns without pull-ups, so that the switches read wrong afterwards, and drives the bus against the keyboard | C70, C71 |
| `Arch/asdf_arch_atmega2560.c` init | the LED pins become outputs with their port bits still 0, so the active-low LEDs are lit until first written | C77 |
| `asdf.c` 148 / `main.c` | the pause before a message character blocks scanning: shorter keystrokes than about 0.4 s are lost during a message; none follows the last character | C83, C85 |
| `keymap_list.cmake` | nothing keeps a builder from listing a fifth keymap or giving keymaps different numbers of rows, after which key presses lead out of the arrays | C98 |
| `asdf_print.c` | messages are passed as the format of `vfprintf`; a keymap message with a lone `%` is undefined behaviour | C98 |
| `Arch/asdf_arch_test.c` 349-463 | the recording architecture logs five of the open-collector outputs under the wrong name, and a pulse on one output puts every other detector in an error state | C65, C66 |

## 8. Mutation testing

`seeded/LOG.jsonl`: each line is one wrong program.  The edit was made in a copy
of the model, everything depending on it rebuilt, each failing proof noted and
skipped (so that later theorems are tried as well), and the failing theorems
recorded.  `failed_direct` lists proofs that break by themselves;
`failed_through` the final theorems that use them.
