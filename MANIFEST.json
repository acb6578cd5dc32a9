{
 "claims": [
  {
   "property": "C01",
   "status": "proved",
   "theorems": [
    "C01_buffers_are_bounded_fifos"
   ],
   "note": ""
  },
  {
   "property": "C02",
   "status": "proved",
   "theorems": [
    "C02_buffer_calls_never_undefined",
    "C02_negative_size_refuted"
   ],
   "note": "Stated for sizes >= 0 as in the property. C02_negative_size_refuted shows that the int16_t parameter admits negative sizes that lead to undefined behaviour."
  },
  {
   "property": "C03",
   "status": "proved",
   "theorems": [
    "C03_buffers_are_isolated",
    "C03_negative_size_refuted"
   ],
   "note": "C03_negative_size_refuted: isolation is lost if a negative size was ever requested."
  },
  {
   "property": "C04",
   "status": "partial",
   "theorems": [
    "C04_allocation_succeeds_iff_room",
    "C04_negative_size_refuted"
   ],
   "note": "Proved for sizes >= 0. The property quantifies over every size: refuted for negative ones (C04_negative_size_refuted)."
  },
  {
   "property": "C05",
   "status": "proved",
   "theorems": [
    "C05_autorepeat_cadence",
    "C05_fires_meaning"
   ],
   "note": ""
  },
  {
   "property": "C06",
   "status": "proved",
   "theorems": [
    "C06_no_repeat_when_off"
   ],
   "note": ""
  },
  {
   "property": "C07",
   "status": "partial",
   "theorems": [
    "C07_repeat_key_refuted",
    "C07_ignored_press_waits_full_delay_refuted",
    "C07_repeat_key_partial"
   ],
   "note": "Refuted: a REPEAT press while the autorepeat timer is at 66 or below is ignored. True when autorepeat is off or fewer than 459 ticks passed since the last restart of the count."
  },
  {
   "property": "C08",
   "status": "proved",
   "theorems": [
    "C08_release_restores_selection"
   ],
   "note": ""
  },
  {
   "property": "C09",
   "status": "proved",
   "theorems": [
    "C09_modifier_precedence"
   ],
   "note": ""
  },
  {
   "property": "C10",
   "status": "proved",
   "theorems": [
    "C10_lock_persists",
    "C10_shift_cancels_lock",
    "C10_press_release_unlocks",
    "C10_toggle_is_involution"
   ],
   "note": ""
  },
  {
   "property": "C11",
   "status": "proved",
   "theorems": [
    "C11_ownership_follows_first_valid_request",
    "C11_at_most_one_owner"
   ],
   "note": ""
  },
  {
   "property": "C12",
   "status": "proved",
   "theorems": [
    "C12_no_divergence_no_bad_index"
   ],
   "note": "Virtual output identifiers of enumeration type (0..11); assignments with arbitrary arguments."
  },
  {
   "property": "C13",
   "status": "proved",
   "theorems": [
    "C13_action_drives_exactly_its_devices",
    "C13_activate_uses_latest_function"
   ],
   "note": ""
  },
  {
   "property": "C14",
   "status": "proved",
   "theorems": [
    "C14_pulse_restores_levels"
   ],
   "note": ""
  },
  {
   "property": "C15",
   "status": "proved",
   "theorems": [
    "C15_recorded_level_is_last_driven",
    "C15_assignment_without_sync_refuted"
   ],
   "note": "Operations after the sync exclude new assignments, which record without driving (C15_assignment_without_sync_refuted)."
  },
  {
   "property": "C16",
   "status": "partial",
   "theorems": [
    "C16_initial_values_reach_pins_refuted",
    "C16_initial_values_partial"
   ],
   "note": "Refuted for every keyboard: only the CAPS LOCK LED is driven on selection, other declared initial values are recorded but not driven (asdf_virtual_sync is never called). C16_initial_values_partial: the declared values are recorded."
  },
  {
   "property": "C17",
   "status": "proved",
   "theorems": [
    "C17_last_assignment_wins"
   ],
   "note": ""
  },
  {
   "property": "C18",
   "status": "proved",
   "theorems": [
    "C18_add_map_bounds_checked",
    "C18_scanner_in_bounds"
   ],
   "note": ""
  },
  {
   "property": "C19",
   "status": "partial",
   "theorems": [
    "C19_lookup_in_bounds_partial",
    "C19_lookup_in_bounds_refuted"
   ],
   "note": "Refuted for keyboards 4 and 5 (asdf_keymaps_get_code indexes keymaps[] with the keyboard number). Proved for keyboards 0-3."
  },
  {
   "property": "C20",
   "status": "proved",
   "theorems": [
    "C20_selected_keyboard_valid",
    "C20_invalid_selection_ignored",
    "C20_running_keyboard_valid"
   ],
   "note": ""
  },
  {
   "property": "C21",
   "status": "partial",
   "theorems": [
    "C21_running_keymap_follows_switches",
    "C21_keymap_follows_switches_partial",
    "C21_keymap_follows_switches_refuted"
   ],
   "note": "Refuted: a movement through an invalid position is dropped and never made up. True when every intermediate position is valid; in the running firmware whenever switches 2 and 3 stay open."
  },
  {
   "property": "C22",
   "status": "proved",
   "theorems": [
    "C22_selection_installs_keymap",
    "C22_selection_history_independent"
   ],
   "note": "Equality of the device tables needs equal CAPS LOCK state beforehand, since selection drives the CAPS LED on keyboards 2, 4, 5."
  },
  {
   "property": "C23",
   "status": "partial",
   "theorems": [
    "C23_caps_on_after_selection_refuted",
    "C23_caps_on_after_selection_partial"
   ],
   "note": "Refuted when CAPS LOCK was already on: selection toggles it."
  },
  {
   "property": "C24",
   "status": "partial",
   "theorems": [
    "C24_consecutive_refuted",
    "C24_ten_readings_partial"
   ],
   "note": "Refuted: the readings need not be consecutive, an equal reading does not restart the counter. Proved: exactly ten differing readings since the last change."
  },
  {
   "property": "C25",
   "status": "proved",
   "theorems": [
    "C25_persistent_change_accepted",
    "C25_not_before_tenth",
    "C25_equal_reading_keeps"
   ],
   "note": ""
  },
  {
   "property": "C26",
   "status": "proved",
   "theorems": [
    "C26_keys_independent"
   ],
   "note": ""
  },
  {
   "property": "C27",
   "status": "proved",
   "theorems": [
    "C27_counters_in_range",
    "C27_scanner_in_bounds"
   ],
   "note": ""
  },
  {
   "property": "C28",
   "status": "proved",
   "theorems": [
    "C28_scan_types_pressed_keys",
    "C28_scan_order"
   ],
   "note": "Steps per key position; codes beyond the 16 places of the queue are dropped (firstn 16). Keyboards 0-3 (4 and 5 hit the undefined lookup)."
  },
  {
   "property": "C29",
   "status": "proved",
   "theorems": [
    "C29_hold_from_rest"
   ],
   "note": "Every history that leaves nothing queued, no last key and autorepeat selected; other keys may be held if their codes differ. Keyboards 0-3."
  },
  {
   "property": "C30",
   "status": "partial",
   "theorems": [
    "C30_new_press_full_delay_partial",
    "C30_new_press_full_delay_refuted",
    "C30_press_law_partial",
    "C30_other_code_full_delay_partial"
   ],
   "note": "Refuted: releasing the key while SHIFT is down leaves a stale last key, so the next press repeats early. Proved: the exact law from any quiet state after any history in all three repeat modes (C30_press_law_partial: only the code pressed last keeps the old count), hence the full delay for every other code; and the full delay for every key after histories that press no key with an action code."
  },
  {
   "property": "C31",
   "status": "partial",
   "theorems": [
    "C31_repeat_pace_partial",
    "C31_repeat_pace_without_ctrl",
    "C31_repeat_pace_refuted"
   ],
   "note": "Refuted: with CTRL, two held keys producing the same code repeat faster. Proved when the held keys produce different codes, in particular always without CTRL (and without SHIFT on the Apple keyboard)."
  },
  {
   "property": "C32",
   "status": "partial",
   "theorems": [
    "C32_repeat_mode_ends_partial",
    "C32_repeat_mode_ends_refuted"
   ],
   "note": "Refuted on keyboard 2 (REPEAT exists only in its caps and ctrl maps). Proved for keyboards 0 and 1."
  },
  {
   "property": "C33",
   "status": "proved",
   "theorems": [
    "C33_ctrl_iff_key_down",
    "C33_ctrl_key"
   ],
   "note": ""
  },
  {
   "property": "C34",
   "status": "partial",
   "theorems": [
    "C34_shift_tick_partial",
    "C34_shift_only_while_down",
    "C34_single_shift_key",
    "C34_shift_while_any_down_refuted"
   ],
   "note": "Refuted with both SHIFT keys: releasing one ends SHIFT. Proved: exact per-tick law, never on without a SHIFT key, equivalence with a single SHIFT key."
  },
  {
   "property": "C35",
   "status": "partial",
   "theorems": [
    "C35_caps_led_partial",
    "C35_change_drives_led",
    "C35_caps_led_refuted"
   ],
   "note": "Refuted: after switching keyboards 0, 2, 0 CAPS LOCK is on and the LED of keyboard 0 is not driven. Proved: a driven LED always agrees, every change drives it, keyboard 2 always agrees."
  },
  {
   "property": "C36",
   "status": "proved",
   "theorems": [
    "C36_sent_is_what_entered",
    "C36_no_special_code_sent"
   ],
   "note": ""
  },
  {
   "property": "C37",
   "status": "proved",
   "theorems": [
    "C37_one_code_per_tick"
   ],
   "note": ""
  },
  {
   "property": "C38",
   "status": "proved",
   "theorems": [
    "C38_waiting_message_goes_out",
    "C38_message_intact"
   ],
   "note": ""
  },
  {
   "property": "C39",
   "status": "partial",
   "theorems": [
    "C39_unassigned_alone_partial",
    "C39_unassigned_step_partial",
    "C39_unassigned_inert_refuted"
   ],
   "note": "Refuted: pressing an unassigned key stops a running autorepeat. Proved: unassigned keys alone send nothing, and a step of an unassigned key queues no character and no message."
  },
  {
   "property": "C40",
   "status": "partial",
   "theorems": [
    "C40_switches_alone_partial",
    "C40_switch_step_partial",
    "C40_last_code_partial",
    "C40_switches_never_type_refuted"
   ],
   "note": "Refuted: the fifth switch has the implicit code 0 and sends NUL. Proved for the seven other switches."
  },
  {
   "property": "C41",
   "status": "partial",
   "theorems": [
    "C41_strobe_follows_switch_partial",
    "C41_strobe_follows_switch_refuted"
   ],
   "note": "Refuted at power-up and after a keyboard change. Proved: a polarity commanded since the last hardware initialisation equals the switch."
  },
  {
   "property": "C42",
   "status": "proved",
   "theorems": [
    "C42_read_row_328p"
   ],
   "note": ""
  },
  {
   "property": "C43",
   "status": "proved",
   "theorems": [
    "C43_read_row_2560"
   ],
   "note": ""
  },
  {
   "property": "C44",
   "status": "proved",
   "theorems": [
    "C44_handlers_2560",
    "C44_handlers_328p"
   ],
   "note": "Both boards, both build kinds, any registers before initialisation, any calls before the handler."
  },
  {
   "property": "C45",
   "status": "proved",
   "theorems": [
    "C45_open_2560",
    "C45_open_328p"
   ],
   "note": "Optimised builds, from reset, as long as no other handler of the same pin is called."
  },
  {
   "property": "C46",
   "status": "proved",
   "theorems": [
    "C46_strobe_2560",
    "C46_strobe_328p"
   ],
   "note": "Optimised builds; C55 is the unoptimised case."
  },
  {
   "property": "C47",
   "status": "partial",
   "theorems": [
    "C47_report_has_irq_partial",
    "C47_reports_le_irqs_partial",
    "C47_next_load_reports_partial",
    "C47_all_reported_partial",
    "C47_irq_lost_refuted"
   ],
   "note": "Refuted: an interrupt between the load and the clear of the flag is lost. Proved: every report has an interrupt since the last clear, reports never outnumber interrupts, an interrupt outside the window is reported by the next load, and without interrupts in the window every interrupt is reported exactly once."
  },
  {
   "property": "C48",
   "status": "partial",
   "theorems": [
    "C48_prescaler_2560_partial",
    "C48_prescaler_2560_refuted",
    "C48_prescaler_328p_partial",
    "C48_prescaler_328p_refuted"
   ],
   "note": "Refuted on both boards: CLKPR is written with CLKPCE as a bit number (7) so the write is ignored; with the CKDIV8 fuse the division stays 8. Proved: the division is exactly the one at reset."
  },
  {
   "property": "C49",
   "status": "partial",
   "theorems": [
    "C49_init_state_partial",
    "C49_same_future_partial",
    "C49_storage_kept_partial",
    "C49_init_forgets_refuted"
   ],
   "note": "Refuted: a modifier held before stays in force. Proved: everything else is reset, and two keyboards with the same modifiers behave the same on every later input."
  },
  {
   "property": "C50",
   "status": "partial",
   "theorems": [
    "C50_function_keys_run_hooks_refuted",
    "C50_function_keys_run_hooks_partial"
   ],
   "note": "Refuted for function action 11, which has no case in the switch. Proved for 1-10."
  },
  {
   "property": "C51",
   "status": "proved",
   "theorems": [
    "C51_idle_scan_identity",
    "C51_idle_tick_identity"
   ],
   "note": ""
  },
  {
   "property": "C52",
   "status": "proved",
   "theorems": [
    "C52_no_undefined_behaviour",
    "C52_only_failure"
   ],
   "note": ""
  },
  {
   "property": "C53",
   "status": "partial",
   "theorems": [
    "C53_registered_messages_triggerable_refuted",
    "C53_registered_messages_triggerable_partial"
   ],
   "note": "Refuted for the Apple II caps keymap (hook 9 has no key). Proved for all others."
  },
  {
   "property": "C54",
   "status": "proved",
   "theorems": [
    "C54_tick_2560",
    "C54_tick_328p"
   ],
   "note": "Period = F_CPU/1000 * 2^CLKPS cycles; 1 ms when the clock is undivided (see C48)."
  },
  {
   "property": "C55",
   "status": "partial",
   "theorems": [
    "C55_unoptimised_2560_refuted",
    "C55_unoptimised_328p_refuted",
    "C55_what_sending_does_328p_partial",
    "C55_what_sending_does_2560_partial"
   ],
   "note": "Refuted on both boards: the read-modify-write of PINB toggles every high pin of port B. Proved on both boards, after any history: the strobe pulse and the data are right, every other output of port B that was high ends low, nothing else changes."
  },
  {
   "property": "C56",
   "status": "partial",
   "theorems": [
    "C56_host_gets_sent_partial",
    "C56_host_gets_sent_refuted",
    "C56_latch_2560",
    "C56_latch_328p"
   ],
   "note": "Refuted: opening the polarity switch makes a rising-edge host latch the last code again. Proved: exactly the sent codes are received when the polarity switch is not moved and mode switch 2 stays open; for arbitrary calls, exactly which codes are latched is characterised on both boards."
  },
  {
   "property": "C57",
   "status": "proved",
   "theorems": [
    "C57_reference_machine"
   ],
   "note": "Refinement of the whole scanner, both queues, devices and keyboard selection; the abstract machine KeySpec.v is the specification."
  },
  {
   "property": "C58",
   "status": "partial",
   "theorems": [
    "C58_follows_switch_partial",
    "C58_off_types_once_partial",
    "C58_follows_switch_refuted"
   ],
   "note": "Refuted: with the switch open since power-up held keys repeat, because the release action only runs on a change. Proved: from the first time the switch is accepted closed the mode follows the switch for ever; with the mode off a key held from rest is typed once."
  },
  {
   "property": "C59",
   "status": "proved",
   "theorems": [
    "C59_panel_outputs",
    "C59_never_left_asserted"
   ],
   "note": "Keyboards 0 to 3 (the switch settings that select them); keyboard 4 has other outputs."
  },
  {
   "property": "C60",
   "status": "proved",
   "theorems": [
    "C60_letter_code",
    "C60_one_key_per_letter",
    "C60_letter_typed"
   ],
   "note": ""
  },
  {
   "property": "C61",
   "status": "partial",
   "theorems": [
    "C61_keyboard2_types_all_partial",
    "C61_keyboard0_types_rest_partial",
    "C61_all_printable_refuted"
   ],
   "note": "Refuted: keyboard 0 has no key for ^ and _ . Proved: keyboard 2 types all of them and keyboard 0 all the others."
  },
  {
   "property": "C62",
   "status": "proved",
   "theorems": [
    "C62_modifier_leds",
    "C62_led_shows_lock"
   ],
   "note": "Module level, any assignment of devices."
  },
  {
   "property": "C63",
   "status": "partial",
   "theorems": [
    "C63_every_run_is_typing_partial",
    "C63_no_keystroke_lost_partial",
    "C63_keystroke_lost_refuted"
   ],
   "note": "Refuted: of seventeen keys accepted in one scan the last is lost. Proved: without messages, as long as no more than sixteen codes pile up nothing is lost, duplicated or reordered; every execution decomposes into offers per tick."
  },
  {
   "property": "C64",
   "status": "partial",
   "theorems": [
    "C64_exact_delay_partial",
    "C64_delay_bound_refuted"
   ],
   "note": "Refuted: messages typed meanwhile overtake the code for 400 ticks. Proved: without new messages the delay is exactly the number of characters ahead."
  },
  {
   "property": "C65",
   "status": "partial",
   "theorems": [
    "C65_recorded_outputs_partial",
    "C65_recorded_outputs_refuted"
   ],
   "note": "Refuted: five of the six open-collector devices are recorded under OUT1_OPEN_HI. Proved: exact for all other outputs, and what the six share."
  },
  {
   "property": "C66",
   "status": "proved",
   "theorems": [
    "C66_pulse_detector"
   ],
   "note": ""
  },
  {
   "property": "C67",
   "status": "partial",
   "theorems": [
    "C67_pulses_independent_partial",
    "C67_pulses_independent_refuted"
   ],
   "note": "Refuted: a delay in the pulse of one output puts the detectors of all others in an absorbing error state. Proved: detected when every earlier delay was the middle of a pulse of the same output."
  },
  {
   "property": "C68",
   "status": "proved",
   "theorems": [
    "C68_sent_code"
   ],
   "note": ""
  },
  {
   "property": "C69",
   "status": "proved",
   "theorems": [
    "C69_osi_row"
   ],
   "note": "The behaviour of the keyboard on its bus is an assumption stated in PropOsi.v. The function is not called by the firmware."
  },
  {
   "property": "C70",
   "status": "partial",
   "theorems": [
    "C70_switches_after_osi_partial",
    "C70_switches_after_osi_refuted"
   ],
   "note": "Refuted: the read leaves only one column with a pull-up. Proved: exactly which switches read right and what the others read."
  },
  {
   "property": "C71",
   "status": "partial",
   "theorems": [
    "C71_bus_contention_refuted",
    "C71_bus_contention_partial"
   ],
   "note": "Refuted for every OSI read that follows another. Proved: the row number is driven by the processor alone while RW is low, and the processor has released the bus at the end."
  },
  {
   "property": "C72",
   "status": "proved",
   "theorems": [
    "C72_session"
   ],
   "note": "Stated for sessions built from waits, keystrokes and modifier presses and releases; held keys must not carry ACTION_NOTHING or the code being typed."
  },
  {
   "property": "C73",
   "status": "proved",
   "theorems": [
    "C73_any_text"
   ],
   "note": "Composition of C72 with C56."
  },
  {
   "property": "C74",
   "status": "proved",
   "theorems": [
    "C74_whole_board"
   ],
   "note": "Refinement: System.v (firmware on the ports) behaves as Asdf.v fed with the true matrix rows."
  },
  {
   "property": "C75",
   "status": "proved",
   "theorems": [
    "C75_keys_to_pins"
   ],
   "note": "Composition of C73, C74 and C56."
  },
  {
   "property": "C76",
   "status": "proved",
   "theorems": [
    "C76_output_pins",
    "C76_pins_2560",
    "C76_pins_328p"
   ],
   "note": "For single-bit writes compiled to single instructions (rmw = false), which the build flags give."
  },
  {
   "property": "C77",
   "status": "partial",
   "theorems": [
    "C77_caps_led_lit_partial",
    "C77_caps_led_lit_refuted",
    "C77_caps_led_lit_328p_refuted"
   ],
   "note": "Refuted: on the 2560 the CAPS LED of keyboard 0 is lit from power-on with CAPS LOCK off; on the 328p it is dark with CAPS LOCK on after a switch to keyboard 2 and back. Proved: keyboard 2 on both boards always; keyboard 0 on the 328p until a keyboard change; keyboard 0 on both boards once CAPS LOCK was changed since the last keyboard change."
  },
  {
   "property": "C78",
   "status": "proved",
   "theorems": [
    "C78_bouncing_typist"
   ],
   "note": ""
  },
  {
   "property": "C79",
   "status": "proved",
   "theorems": [
    "C79_falls_silent"
   ],
   "note": ""
  },
  {
   "property": "C80",
   "status": "partial",
   "theorems": [
    "C80_recovers_partial",
    "C80_recovers_refuted"
   ],
   "note": "Refuted: a stale last key (C30) survives the rest and the next keystroke of 145 ticks on that key is typed twice. Proved: exact for all bouncing sessions whose first code is not the stale one."
  },
  {
   "property": "C81",
   "status": "proved",
   "theorems": [
    "C81_real_time"
   ],
   "note": "Computation and the 10 us pulses take no time in the clock model (Timed.v)."
  },
  {
   "property": "C82",
   "status": "proved",
   "theorems": [
    "C82_typing_in_real_time"
   ],
   "note": ""
  },
  {
   "property": "C83",
   "status": "partial",
   "theorems": [
    "C83_one_second_partial",
    "C83_short_press_refuted"
   ],
   "note": "Refuted: while a message is sent scans come only every 40 ms, and a key held 369 ms is never seen. Proved: a contact that stays closed (or open) for 1001 ms is always accepted within that time."
  },
  {
   "property": "C84",
   "status": "proved",
   "theorems": [
    "C84_message_spacing"
   ],
   "note": ""
  },
  {
   "property": "C85",
   "status": "partial",
   "theorems": [
    "C85_message_paced_partial",
    "C85_pause_after_message_refuted"
   ],
   "note": "Refuted: a code typed while the message runs is sent in the same millisecond as the last message character. Proved: the waiting characters of a message go out at least 40 ms apart and at most 91 ms apart whatever the keys do."
  },
  {
   "property": "C86",
   "status": "proved",
   "theorems": [
    "C86_scan_rate"
   ],
   "note": ""
  },
  {
   "property": "C87",
   "status": "proved",
   "theorems": [
    "C87_autorepeat_in_real_time"
   ],
   "note": ""
  },
  {
   "property": "C88",
   "status": "proved",
   "theorems": [
    "C88_apply_all_actions"
   ],
   "note": "asdf_apply_all_actions is never called by the firmware."
  },
  {
   "property": "C89",
   "status": "proved",
   "theorems": [
    "C89_switches_honoured_from_start"
   ],
   "note": "About the program asdf_init; asdf_apply_all_actions; ticks. The polarity part is for unchanged mode switches: selecting a keyboard does not set the polarity."
  },
  {
   "property": "C90",
   "status": "proved",
   "theorems": [
    "C90_real_time_to_connector"
   ],
   "note": "For single-bit writes compiled to single instructions, which the build flags give. Computation takes no time in the clock model."
  },
  {
   "property": "C91",
   "status": "proved",
   "theorems": [
    "C91_any_text_in_real_time"
   ],
   "note": ""
  },
  {
   "property": "C92",
   "status": "proved",
   "theorems": [
    "C92_any_computing_time",
    "C92_host",
    "C92_no_time"
   ],
   "note": "C92_any_computing_time and C92_host; C92_no_time relates the model to that of C81."
  },
  {
   "property": "C93",
   "status": "proved",
   "theorems": [
    "C93_message_spacing"
   ],
   "note": ""
  },
  {
   "property": "C94",
   "status": "proved",
   "theorems": [
    "C94_typing_in_continuous_time"
   ],
   "note": "The bound G on a pass is an assumption about the speed of the processor (1 for the real firmware unless a message is being sent)."
  },
  {
   "property": "C95",
   "status": "partial",
   "theorems": [
    "C95_sync_partial",
    "C95_sync_pins_refuted"
   ],
   "note": "Refuted: asdf_virtual_sync also drives unassigned devices, and the unused OUT3_OPEN_LO shares its pin with OUT3_OPEN_HI and comes later, so that pin is driven high instead of pulled up. Proved: every declared device is last driven with its declared level, and every other declared pin is right on both boards. No code under src calls asdf_virtual_sync (the test keymaps do), so this is about the API, not about the running firmware."
  },
  {
   "property": "C96",
   "status": "proved",
   "theorems": [
    "C96_caps_lock_law",
    "C96_caps_lock_parity"
   ],
   "note": ""
  },
  {
   "property": "C97",
   "status": "proved",
   "theorems": [
    "C97_recording",
    "C97_pulse_width"
   ],
   "note": "The recorder of PropPulse.v notes calls with times; C97_recording shows it records the run of Jitter.v. The short delay of 10 us counts as no time (Timed.v)."
  },
  {
   "property": "C98",
   "status": "proved",
   "theorems": [
    "C98_any_keymaps_safe",
    "C98_any_four_shipped_safe",
    "C98_fifth_keyboard_refuted",
    "C98_rows_refuted",
    "C98_percent_refuted"
   ],
   "note": "C98_fifth_keyboard_refuted, C98_rows_refuted and C98_percent_refuted show that the bounds on indices and rows and the condition on messages cannot be dropped."
  },
  {
   "property": "C99",
   "status": "proved",
   "theorems": [
    "C99_own_readings",
    "C99_persistent_change_accepted",
    "C99_ten_readings_needed"
   ],
   "note": ""
  },
  {
   "property": "C100",
   "status": "proved",
   "theorems": [
    "C100_setting",
    "C100_same_transitions"
   ],
   "note": ""
  },
  {
   "property": "C101",
   "status": "proved",
   "theorems": [
    "C101_no_stuck_ctrl",
    "C101_no_stuck_shift",
    "C101_single_ctrl",
    "C101_shipped",
    "C101_any_keymap_refuted"
   ],
   "note": "C101_any_keymap_refuted shows that the positions of the modifiers have to be fixed."
  },
  {
   "property": "C102",
   "status": "proved",
   "theorems": [
    "C102_sent",
    "C102_all_sent",
    "C102_in_order"
   ],
   "note": ""
  },
  {
   "property": "C103",
   "status": "proved",
   "theorems": [
    "C103_dead"
   ],
   "note": ""
  },
  {
   "property": "C104",
   "status": "proved",
   "theorems": [
    "C104_exact"
   ],
   "note": ""
  },
  {
   "property": "C105",
   "status": "proved",
   "theorems": [
    "C105_session"
   ],
   "note": ""
  },
  {
   "property": "C106",
   "status": "proved",
   "theorems": [
    "C106_whole_board"
   ],
   "note": ""
  },
  {
   "property": "C107",
   "status": "proved",
   "theorems": [
    "C107_latched",
    "C107_strobe_kept"
   ],
   "note": ""
  },
  {
   "property": "C108",
   "status": "proved",
   "theorems": [
    "C108_all_calls",
    "C108_pins"
   ],
   "note": ""
  },
  {
   "property": "C109",
   "status": "proved",
   "theorems": [
    "C109_lamps"
   ],
   "note": "A lamp that has not been driven since its keyboard was set up (y = None) shows whatever its pin shows; C62, C76 and C108 say what that is."
  },
  {
   "property": "C110",
   "status": "proved",
   "theorems": [
    "C110_any_keymaps_in_real_time",
    "C110_whole_board_in_real_time"
   ],
   "note": "Timing as in C92 (Jitter.v): any number of timer interrupts in every piece of computing; T in the theorem is the moment each row was read."
  },
  {
   "property": "C111",
   "status": "proved",
   "theorems": [
    "C111_bouncing_session"
   ],
   "note": "Sessions as in C105 with bouncing contacts; strokes stay below the autorepeat delay (C105 covers longer ones without bounces)."
  },
  {
   "property": "C112",
   "status": "proved",
   "theorems": [
    "C112_any_keymaps_in_continuous_time"
   ],
   "note": "The hypothesis bounds the length of each pass (computing time) by G; G = 1 when computing fits into a millisecond."
  },
  {
   "property": "C113",
   "status": "proved",
   "theorems": [
    "C113_host_gets_all_sent",
    "C113_typing_to_connector"
   ],
   "note": "Firmwares that do switch the strobe polarity: C107 and C110 say exactly what is latched."
  },
  {
   "property": "C114",
   "status": "proved",
   "theorems": [
    "C114_characters",
    "C114_rollover"
   ],
   "note": "Why modes should not move with character keys down: C30 (a release under other modes leaves the repeat count running). C114_rollover follows from C114_characters."
  },
  {
   "property": "C115",
   "status": "proved",
   "theorems": [
    "C115_message_spacing",
    "C115_message_paced"
   ],
   "note": "Characters 0xA0 and above in a message are not sent (C104), hence the hypothesis that the waiting ones are below."
  },
  {
   "property": "C116",
   "status": "proved",
   "theorems": [
    "C116_falls_silent",
    "C116_recovers"
   ],
   "note": "154 = 10 scans to accept the keys + 16 + 128 for the two queues. Why the remembered character has to be exempted: C80_recovers_refuted."
  },
  {
   "property": "C117",
   "status": "proved",
   "theorems": [
    "C117_recovers_in_continuous_time"
   ],
   "note": "156 passes: 10 to accept the keys, 144 for the queues, two at the ends. The pass bound G is needed only from A on; a message pause counts into G."
  },
  {
   "property": "C118",
   "status": "proved",
   "theorems": [
    "C118_client_refines"
   ],
   "note": "The client may do all a program linked to the firmware can do through its headers, except the five internal functions named in DESIGN.md section 5."
  },
  {
   "property": "C119",
   "status": "proved",
   "theorems": [
    "C119_client_safe"
   ],
   "note": "C119_conditions_needed shows sessions that break one condition each and are undefined."
  },
  {
   "property": "C120",
   "status": "proved",
   "theorems": [
    "C120_queries_are_transparent",
    "C120_negative_room_refuted"
   ],
   "note": "C120_negative_room_refuted: a negative size does change something (the next buffer granted overlaps the key queue), so the condition cannot be dropped."
  },
  {
   "property": "C121",
   "status": "proved",
   "theorems": [
    "C121_what_is_put_comes_out"
   ],
   "note": "Message character 0xA0 is excepted: it reads as \"no code\"."
  },
  {
   "property": "C122",
   "status": "proved",
   "theorems": [
    "C122_restart_is_power_on",
    "C122_init_alone_refuted"
   ],
   "note": "C122_init_alone_refuted: asdf_init keeps the modifiers (compare C49)."
  },
  {
   "property": "C123",
   "status": "proved",
   "theorems": [
    "C123_rules",
    "C123_letters",
    "C123_modes_in_place"
   ],
   "note": "The rules are checked against all tables by computation (a finite fact for each mode combination) and lifted to every session by C105."
  },
  {
   "property": "C124",
   "status": "proved",
   "theorems": [
    "C124_any_text",
    "C124_nothing_else",
    "C124_every_character_refuted"
   ],
   "note": "C124_every_character_refuted: the Sol-20 keymap lacks { | }, so the list of exceptions cannot be empty."
  },
  {
   "property": "C125",
   "status": "proved",
   "theorems": [
    "C125_rolls"
   ],
   "note": "Overlapping strokes with bounces; C114 is the case of single-scan transitions, C111 that of strokes one after the other."
  },
  {
   "property": "C126",
   "status": "proved",
   "theorems": [
    "C126_rolls_in_continuous_time"
   ],
   "note": "Continuous-time form of C125, by the passes of C112."
  },
  {
   "property": "C127",
   "status": "proved",
   "theorems": [
    "C127_response_time"
   ],
   "note": "From C126 applied to the script cut at the beginning of each stroke and at the moment its contact has kept still long enough."
  },
  {
   "property": "C128",
   "status": "proved",
   "theorems": [
    "C128_holds"
   ],
   "note": "Contains C125 (every rolling script is such a script without holds). While a key is held the other keys keep still; its repeats are counted exactly in readings and bounded in scans, as bounces shift the moment of acceptance."
  },
  {
   "property": "C129",
   "status": "proved",
   "theorems": [
    "C129_holds_in_continuous_time"
   ],
   "note": "Continuous-time form of C128, by the passes of C112."
  },
  {
   "property": "C130",
   "status": "proved",
   "theorems": [
    "C130_message_keys"
   ],
   "note": "Contains C128 (a script without message keys). Characters typed while a message is still going out are not covered here; C104 gives the output exactly for all readings."
  },
  {
   "property": "C131",
   "status": "proved",
   "theorems": [
    "C131_message_keys_in_continuous_time"
   ],
   "note": "Continuous-time form of C130; C129 with a pass bound for each stretch of the script."
  },
  {
   "property": "C132",
   "status": "proved",
   "theorems": [
    "C132_fingers_to_connector"
   ],
   "note": "C131 seen at the connector by C113_host_gets_all_sent. Firmwares that switch the strobe polarity: C107, C110."
  },
  {
   "property": "C133",
   "status": "proved",
   "theorems": [
    "C133_nothing_lost",
    "C133_lost_exactly_in_bursts"
   ],
   "note": "Generalises C63 from the shipped keymaps to any. The condition room is checked along the replay of C104 (work gives what each scan types and calls up). The second theorem is an equivalence."
  },
  {
   "property": "C134",
   "status": "proved",
   "theorems": [
    "C134_exact_delay"
   ],
   "note": "Generalises C64 to any keymaps. Message characters of 0xA0 and above (other than 0xA0) take their turn but are not sent."
  },
  {
   "property": "C135",
   "status": "proved",
   "theorems": [
    "C135_once",
    "C135_each_key_sent_once"
   ],
   "note": "Generalises the second half of C58 to any keymaps and any readings. A switch that is open from the start never moves and so does not turn autorepeat off (C41, C58, C89)."
  },
  {
   "property": "C136",
   "status": "proved",
   "theorems": [
    "C136_all_device_functions",
    "C136_physical_init_refuted"
   ],
   "note": "Extends C11-C15 and C118 to the functions Client.v leaves out. XNext says nothing about devices that are still free. The companion theorem refutes the guarantees for asdf_physical_init called alone, which no file but asdf_virtual.c does."
  },
  {
   "property": "C137",
   "status": "proved",
   "theorems": [
    "C137_buffers_start_afresh"
   ],
   "note": "Extends C01: initialisation anywhere and calls before the first one. asdf_buffer_new of a negative size stays excluded (C02)."
  },
  {
   "property": "C138",
   "status": "proved",
   "theorems": [
    "C138_repeat_rate",
    "C138_sent_rate",
    "C138_no_loss_at_human_pace",
    "C138_same_code_refuted"
   ],
   "note": "kind: characters of the kind exclude 0xA0, or all codes are counted. sharing quantifies over all modes of registered keyboards. C138_same_code_refuted shows that the bound is false with d = 1 when two keys bear the same character. typed is the list of codes of accepted presses (C102, C135)."
  },
  {
   "property": "C139",
   "status": "proved",
   "theorems": [
    "C139_only_live_keys_matter",
    "C139_nothing_keys_refuted"
   ],
   "note": "Two-run statement (noninterference) over the whole call trace, for any sound firmware with keymaps of one size. C139_nothing_keys_refuted: a key coded ACTION_NOTHING does influence the rest."
  },
  {
   "property": "C140",
   "status": "proved",
   "theorems": [
    "C140_debounced_view",
    "C140_stray_readings",
    "C140_ten_spikes_refuted"
   ],
   "note": "Noninterference over the whole call trace. closed_readings counts readings only and does not mention the debouncer. C140_ten_spikes_refuted shows that nine cannot be replaced by ten, even with isolated spikes (the counter is not restarted by equal readings, C24)."
  },
  {
   "property": "C141",
   "status": "proved",
   "theorems": [
    "C141_same_keyboards",
    "C141_lines_commute",
    "C141_lamp_after_caps_refuted"
   ],
   "note": "Two-program statement over the whole call trace. C141_lines_commute: exchanging neighbouring lines. C141_lamp_after_caps_refuted: lines for outputs and CAPS LOCK cannot be exchanged."
  },
  {
   "property": "C142",
   "status": "proved",
   "theorems": [
    "C142_repeat_key",
    "C142_repeat_ignored_refuted"
   ],
   "note": "Sessions with the modes fast, auto and tired spelled out in the inductive definition session_r. C142_repeat_ignored_refuted: REPEAT pressed after a long stroke is ignored (compare C07)."
  },
  {
   "property": "C143",
   "status": "proved",
   "theorems": [
    "C143_texts",
    "C143_exactly",
    "C143_unsteady_refuted"
   ],
   "note": "C143_texts: existence of a run for every text; C143_exactly: characterisation of the characters that can be sent. C143_unsteady_refuted: keys with changing roles break the characterisation."
  },
  {
   "property": "C144",
   "status": "proved",
   "theorems": [
    "C144_cadence",
    "C144_repeat_key",
    "C144_shipped",
    "C144_equal_times_refuted",
    "C144_no_time_refuted",
    "C144_repeat_ignored"
   ],
   "note": "Model Config.v, parametric in the settings; states are the numbers of the C enumeration, so that coinciding settings are modelled. C144_shipped: with the shipped settings it answers as Repeat.v. The _refuted theorems hold for every setting of the kind named and show that the conditions are needed; C144_repeat_ignored covers A <= P."
  },
  {
   "property": "C145",
   "status": "proved",
   "theorems": [
    "C145_scanner",
    "C145_law",
    "C145_shipped",
    "C145_zero_refuted",
    "C145_large_refuted"
   ],
   "note": "Model Config.v, parametric in the debounce time, row words and byte counters as in the code. C145_law says what accepted means without counters; C145_shipped: with the shipped time these are the transitions of C100. C145_zero_refuted, C145_large_refuted: 0 and times above 255."
  },
  {
   "property": "C146",
   "status": "proved",
   "theorems": [
    "C146_texts",
    "C146_never_told"
   ],
   "note": "The texts are written as strings in the specification, independent of the tables of KeymapData.v."
  },
  {
   "property": "C147",
   "status": "partial",
   "theorems": [
    "C147_identifies_refuted",
    "C147_identifies_partial"
   ],
   "note": "Refuted by C147_identifies_refuted: classic and classic caps print the same text. C147_identifies_partial: the other pairs are told apart."
  },
  {
   "property": "C148",
   "status": "proved",
   "theorems": [
    "C148_every_setting",
    "C148_large_buffers",
    "C148_shipped",
    "C148_large_refuted"
   ],
   "note": "Only asdf_buffer_new depends on the settings; it is modelled with them as parameters (PropBufConfig.v), the other functions are those of Buffer.v. C148_large_refuted: for every size of 256 and more the queue law fails, because count, head and tail are bytes."
  },
  {
   "property": "C149",
   "status": "proved",
   "theorems": [
    "C149_outputs",
    "C149_ace_reset_refuted"
   ],
   "note": "The functions of the keys and their calls are written out as a table in the specification. The companion C149_ace_reset_refuted shows that the ACE 1000 assigns RESET and CLEAR SCREEN outputs that no key works. Modes are those of C100."
  },
  {
   "property": "C150",
   "status": "proved",
   "theorems": [
    "C150_unselected_keymaps",
    "C150_shipped",
    "C150_shipped_outputs",
    "C150_switch_refuted"
   ],
   "note": "The hypothesis only_common speaks about the accepted transitions and modes of C100. C150_shipped_outputs transfers C149 to the shipped firmware. The companion C150_switch_refuted shows that the condition on switch 2 cannot be dropped."
  },
  {
   "property": "C151",
   "status": "proved",
   "theorems": [
    "C151_otherwise_as_four",
    "C151_at_once",
    "C151_within_ten",
    "C151_exactly_when"
   ],
   "note": "C151_exactly_when is the equivalence: all prefixes are defined with one of the keyboards 0 to 3 selected, if and only if switch 2 is never accepted as closed on keyboard 0 or 1. C151_within_ten: afterwards ten scans suffice for the out-of-bounds read, for all readings. C151_otherwise_as_four: else the calls are those of the first four keymaps."
  }
 ]
}