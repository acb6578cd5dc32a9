{"id": "C01", "title": "Buffers behave as bounded FIFO queues", "statement": "Every buffer obtained from asdf_buffer_new behaves exactly like a bounded first-in-first-out queue of the requested capacity: put appends while fewer than `capacity` codes are stored and is a no-op otherwise, get removes and returns the oldest code, and get on an empty or unknown handle returns ASDF_INVALID_CODE and changes nothing.", "quantifier": "every finite sequence of asdf_buffer_new / asdf_buffer_put / asdf_buffer_get calls after asdf_buffer_init, with any non-negative sizes, any handles and any codes, in any interleaving", "why_tests_cant": "Head, tail and count wrap independently; a test can exercise a few wrap points for one or two buffers, not every interleaving of operations on several buffers that share one pool.", "anchors": ["firmware/asdf/src/asdf_buffer.c: asdf_buffer_init, asdf_buffer_new, asdf_buffer_put, asdf_buffer_get, buffer_handle_valid"]}
{"id": "C02", "title": "Buffer operations never leave the shared pool", "statement": "No sequence of buffer calls with non-negative sizes reads or writes outside the 144-byte pool, divides by zero, or overflows the 16-bit allocation counter, whatever handle value the caller passes.", "quantifier": "every finite sequence of new/put/get calls with sizes in 0..32767 and arbitrary handles and codes", "why_tests_cant": "An out-of-bounds access usually goes unnoticed in a host-side unit test; absence of undefined behaviour for every call sequence cannot be sampled.", "anchors": ["firmware/asdf/src/asdf_buffer.c: asdf_buffer_new, asdf_buffer_put, asdf_buffer_get"]}
{"id": "C03", "title": "Buffers are isolated from each other", "statement": "A put or get on one buffer handle never changes the contents visible through another handle, and creating a buffer never changes the contents of existing buffers.", "quantifier": "every reachable buffer-module state, every pair of distinct handles, every operation", "why_tests_cant": "The buffers alias one pool; overlap only shows for particular size combinations and fill levels.", "anchors": ["firmware/asdf/src/asdf_buffer.c: asdf_buffer_new, asdf_buffer_put, asdf_buffer_get"]}
{"id": "C04", "title": "Buffer allocation succeeds exactly when there is room", "statement": "asdf_buffer_new(n) returns a fresh valid handle if and only if fewer than four buffers exist and n does not exceed the unallocated part of the pool; otherwise it returns ASDF_BUFFER_INVALID and nothing changes.", "quantifier": "every reachable buffer-module state and every requested size", "why_tests_cant": "The accounting depends on the whole allocation history; requests of unusual size (including negative sizes, which the int16_t parameter admits) are outside any realistic test set.", "anchors": ["firmware/asdf/src/asdf_buffer.c: asdf_buffer_new"]}
{"id": "C05", "title": "Autorepeat cadence", "statement": "With autorepeat selected and a key continuously held, the first repeat is reported exactly 525 calls after the count was reset and then exactly every 66 calls, forever.", "quantifier": "every number n of consecutive asdf_repeat calls after a count reset", "why_tests_cant": "The claim is about unboundedly many ticks and about the absence of extra repeats at every other tick.", "anchors": ["firmware/asdf/src/asdf_repeat.c: asdf_repeat, asdf_repeat_reset_count, asdf_repeat_auto_on"]}
{"id": "C06", "title": "No repeat when repeating is off", "statement": "When autorepeat is deselected and the REPEAT key has not been pressed since, asdf_repeat never reports a repeat, no matter how many ticks, count resets, REPEAT releases or further autorepeat-off events occur.", "quantifier": "every finite sequence of repeat-module calls that contains neither repeat_activate nor repeat_auto_on after repeat_auto_off", "why_tests_cant": "Absence of an event over all histories.", "anchors": ["firmware/asdf/src/asdf_repeat.c: asdf_repeat_auto_off, asdf_repeat"]}
{"id": "C07", "title": "REPEAT key gives immediate fast repeat", "statement": "While the REPEAT key is held, a newly pressed key repeats every 66 ticks with no initial autorepeat delay.", "quantifier": "every history of the repeat module up to the REPEAT press, every later count reset", "why_tests_cant": "Depends on the timer phase at which REPEAT is pressed; a test checks one phase.", "anchors": ["firmware/asdf/src/asdf_repeat.c: asdf_repeat_activate, asdf_repeat_reset_count"]}
{"id": "C08", "title": "Releasing REPEAT restores the selected autorepeat mode", "statement": "After the REPEAT key is released, the repeat behaviour is the one chosen by the most recent autorepeat on/off selection (the default being autorepeat on), regardless of everything that happened in between.", "quantifier": "every finite history of repeat-module calls", "why_tests_cant": "History-dependent: the selection may change any number of times while REPEAT is held.", "anchors": ["firmware/asdf/src/asdf_repeat.c: asdf_repeat_deactivate, asdf_repeat_auto_on, asdf_repeat_auto_off"]}
{"id": "C09", "title": "Modifier precedence", "statement": "The keycode map in force is always: CTRL map if CTRL is active; otherwise SHIFT map if SHIFT or SHIFT LOCK is active; otherwise CAPS map if CAPS LOCK is on; otherwise the plain map - where 'active' is determined by the history of modifier events.", "quantifier": "every finite sequence of modifier events", "why_tests_cant": "The state space is history-indexed; tests exercise a handful of sequences.", "anchors": ["firmware/asdf/src/asdf_modifiers.c: asdf_modifier_index and all asdf_modifier_* functions"]}
{"id": "C10", "title": "Shift lock discipline", "statement": "SHIFT LOCK stays on until SHIFT is next pressed or released, and any press or release of SHIFT cancels it; the toggle form is its own inverse when no SHIFT event intervenes.", "quantifier": "every finite sequence of modifier events", "why_tests_cant": "Requires quantifying over all intervening events.", "anchors": ["firmware/asdf/src/asdf_modifiers.c: asdf_modifier_shift_activate, asdf_modifier_shiftlock_on_activate, asdf_modifier_shiftlock_toggle_activate, asdf_modifier_shift_deactivate"]}
{"id": "C11", "title": "A physical output belongs to at most one virtual output", "statement": "After initialisation, whatever assignments a keymap requests (including invalid, repeated or conflicting ones), every physical device is either free or in the device list of exactly one virtual output, an assignment takes effect iff both identifiers are valid and the device is still free, and device lists are never cyclic.", "quantifier": "every finite sequence of asdf_virtual_assign calls with arbitrary arguments after asdf_virtual_init", "why_tests_cant": "Linked-list surgery inside a shared table: corruption needs specific sequences of conflicting assignments.", "anchors": ["firmware/asdf/src/asdf_virtual.c: asdf_virtual_assign, asdf_virtual_init", "firmware/asdf/src/asdf_physical.c: asdf_physical_allocate, physical_device_is_available, asdf_physical_init"]}
{"id": "C12", "title": "Virtual output operations terminate and stay in bounds", "statement": "Activating, setting, pulsing or toggling any virtual output after any sequence of assignments terminates and never indexes outside the device tables.", "quantifier": "every assignment sequence, every virtual device, every function", "why_tests_cant": "Non-termination needs a cyclic list; tests cannot show there is none.", "anchors": ["firmware/asdf/src/asdf_virtual.c: asdf_virtual_action, asdf_virtual_map_function", "firmware/asdf/src/asdf_physical.c: physical_device_is_available"]}
{"id": "C13", "title": "Virtual output operations drive exactly the assigned devices", "statement": "Set-high, set-low and toggle on a virtual output drive every physical device assigned to it exactly once with the right value and drive no other device.", "quantifier": "every reachable device table, every virtual output, every function", "why_tests_cant": "Needs every possible fan-out and every previous output level.", "anchors": ["firmware/asdf/src/asdf_virtual.c: asdf_virtual_action, asdf_virtual_map_function", "firmware/asdf/src/asdf_physical.c: asdf_physical_on, asdf_physical_off, asdf_physical_toggle"]}
{"id": "C14", "title": "Pulses return outputs to their prior level", "statement": "A short or long pulse drives each assigned device to the opposite of its recorded level, waits exactly one pulse delay, then drives it back; all recorded levels are afterwards what they were before, and no other device is driven.", "quantifier": "every reachable device table with recorded levels 0/1, every virtual output", "why_tests_cant": "Depends on fan-out and prior levels of all devices.", "anchors": ["firmware/asdf/src/asdf_virtual.c: asdf_virtual_action (V_PULSE_SHORT, V_PULSE_LONG)"]}
{"id": "C15", "title": "Recorded level equals last driven level", "statement": "Once all outputs have been asserted (asdf_virtual_sync), the recorded level of every device equals the value most recently driven onto it, for ever after under any virtual output operations.", "quantifier": "every finite sequence of virtual-output operations after a sync", "why_tests_cant": "Invariant over all histories of all 13 devices.", "anchors": ["firmware/asdf/src/asdf_virtual.c: asdf_virtual_sync", "firmware/asdf/src/asdf_physical.c: asdf_physical_set, asdf_physical_assert"]}
{"id": "C16", "title": "Keymap initial output values reach the pins", "statement": "After the firmware selects a keymap, every output or LED the keymap assigns is driven to the initial value the keymap declares for it.", "quantifier": "every keymap, every previous state of the output pins", "why_tests_cant": "The unit tests call the synchronisation routine themselves, so they cannot reveal that the firmware does not.", "anchors": ["firmware/asdf/src/asdf_keymaps.c: asdf_keymaps_switch", "firmware/asdf/src/asdf_virtual.c: asdf_virtual_assign, asdf_virtual_sync"]}
{"id": "C17", "title": "Hook table: last assignment wins and ids are isolated", "statement": "asdf_hook_get/execute use the function most recently assigned to that hook id since initialisation (or the documented default); assignments to invalid ids are ignored and never affect other ids.", "quantifier": "every finite sequence of asdf_hook_assign calls with arbitrary ids and functions", "why_tests_cant": "All ids (including out-of-range ones) and all histories.", "anchors": ["firmware/asdf/src/asdf_hook.c: asdf_hook_assign, asdf_hook_get, asdf_hook_execute, asdf_hook_init"]}
{"id": "C18", "title": "Keymap registration is bounds checked", "statement": "asdf_keymaps_add_map either installs the map with exactly the given dimensions (valid modifier, at most 16 rows and 8 columns) or changes nothing; so the scanner never indexes its per-key arrays out of bounds.", "quantifier": "every sequence of add_map calls with arbitrary arguments", "why_tests_cant": "Arbitrary 8-bit arguments and histories.", "anchors": ["firmware/asdf/src/asdf_keymaps.c: asdf_keymaps_add_map"]}
{"id": "C19", "title": "Every key lookup reads inside the active keymap", "statement": "In every reachable firmware state, looking up the code of any key that the scanner visits reads a valid keymap entry inside the selected keymap.", "quantifier": "every keyboard index, every key position, every modifier state, every input history", "why_tests_cant": "An out-of-range table index reads adjacent memory and often appears to work.", "anchors": ["firmware/asdf/src/asdf_keymaps.c: asdf_keymaps_get_code, keymaps[]", "firmware/asdf/src/asdf.c: asdf_lookup_keycode, asdf_keyscan"]}
{"id": "C20", "title": "The selected keyboard is always a valid one", "statement": "Whatever the keymap-select switches do, the active keyboard index always denotes a keymap present in the build; an invalid selection leaves the current keymap fully unchanged.", "quantifier": "every finite sequence of keymap-select events", "why_tests_cant": "All 2^n switch histories.", "anchors": ["firmware/asdf/src/asdf_keymaps.c: asdf_keymaps_select, asdf_keymaps_switch, asdf_keymaps_map_select_*"]}
{"id": "C21", "title": "The active keymap follows the DIP switches", "statement": "Once the keymap-select switches are stable at a valid position, the active keymap is the one they denote.", "quantifier": "every sequence of switch movements ending at a valid position", "why_tests_cant": "Depends on which intermediate positions are passed through.", "anchors": ["firmware/asdf/src/asdf_keymaps.c: asdf_keymaps_map_select_0_set .. asdf_keymaps_map_select_3_clear"]}
{"id": "C22", "title": "Selecting a keymap is a complete, history-independent reset of the keymap tables", "statement": "After a keymap is selected, keycode maps, hooks, virtual output assignments and message delay are exactly those of that keymap, independent of which keymap was active before.", "quantifier": "every previous state, every valid index", "why_tests_cant": "Leftovers from a previous keymap only show for particular switch orders.", "anchors": ["firmware/asdf/src/asdf_keymaps.c: asdf_keymaps_switch, asdf_keymaps_reset", "firmware/asdf/src/Keymaps/*.c: setup_*_keymap"]}
{"id": "C23", "title": "Apple II, Sol-20 and ACE keymaps start with CAPS LOCK on", "statement": "Selecting the Apple II, Sol-20 or ACE 1000 keymap leaves CAPS LOCK on.", "quantifier": "every previous modifier state", "why_tests_cant": "The tests start from a freshly initialised process.", "anchors": ["firmware/asdf/src/Keymaps/asdf_keymap_apple2.c: setup_apple2_keymap", "firmware/asdf/src/Keymaps/asdf_keymap_sol.c: setup_sol_keymap", "firmware/asdf/src/Keymaps/asdf_keymap_ace1000.c: setup_ace1000_keymap"]}
{"id": "C24", "title": "Debounce: only persistent changes are accepted", "statement": "A key changes its accepted state only after it has been read in the new state on 10 consecutive scans.", "quantifier": "every bit sequence read from a key, every state", "why_tests_cant": "All bounce patterns; tests use one clean press.", "anchors": ["firmware/asdf/src/asdf.c: asdf_handle_key_press_or_release, asdf_keyscan"]}
{"id": "C25", "title": "Debounce: a persistent change is always accepted, on the right scan", "statement": "A key that reads differently from its accepted state for 10 consecutive scans changes state by the 10th of those scans at the latest (exactly on the 10th if it was settled before), and a key reading equal to its accepted state never changes.", "quantifier": "every history, every key, every simultaneous activity on other keys", "why_tests_cant": "All interleavings with other keys.", "anchors": ["firmware/asdf/src/asdf.c: asdf_handle_key_press_or_release, asdf_keyscan"]}
{"id": "C26", "title": "Keys are debounced independently (n-key rollover)", "statement": "The accepted state of a key after any number of scans is a function of that key's own readings only; no combination of other keys masks, delays or fakes a press or release.", "quantifier": "every sequence of full-matrix readings, every key position", "why_tests_cant": "2^72 matrix readings per scan.", "anchors": ["firmware/asdf/src/asdf.c: asdf_keyscan"]}
{"id": "C27", "title": "Debounce counters never wrap", "statement": "All debounce counters stay between 1 and 10 in every reachable state and all scanner array accesses are in bounds.", "quantifier": "every reachable state", "why_tests_cant": "A wrapped 8-bit counter would silently give a 255-scan debounce.", "anchors": ["firmware/asdf/src/asdf.c: debounce_counters, last_stable_key_state"]}
{"id": "C28", "title": "Each accepted press sends exactly the mapped code once, in scan order", "statement": "The codes entered into the key buffer by a scan are exactly those of the newly accepted character keys, in row-major order, each looked up under the modifiers in force at that moment, plus at most repeats of the most recent character key.", "quantifier": "every reachable state, every matrix reading", "why_tests_cant": "All simultaneous presses.", "anchors": ["firmware/asdf/src/asdf.c: asdf_keyscan, asdf_activate_key, asdf_handle_key_held_pressed"]}
{"id": "C29", "title": "Autorepeat end to end", "statement": "From rest, holding a single character key makes the host receive its code once after debounce and then repeats exactly at the autorepeat cadence, and nothing else.", "quantifier": "every character key of every usable keymap, every holding time", "why_tests_cant": "Unbounded holding time.", "anchors": ["firmware/asdf/src/main.c: main", "firmware/asdf/src/asdf.c: asdf_keyscan, asdf_next_code", "firmware/asdf/src/asdf_repeat.c: asdf_repeat"]}
{"id": "C30", "title": "Every new press restarts the autorepeat delay", "statement": "When all keys have been released and a character key is pressed again, its first autorepeat comes only after the full autorepeat delay.", "quantifier": "every history that ends with all keys released", "why_tests_cant": "Needs modifier changes between press and release.", "anchors": ["firmware/asdf/src/asdf.c: asdf_activate_key, asdf_deactivate_key"]}
{"id": "C31", "title": "Repeat rate does not depend on which other keys are held", "statement": "While one character key is repeating, holding further keys does not speed up the repeat rate.", "quantifier": "every set of held keys", "why_tests_cant": "Needs two keys that currently produce the same code.", "anchors": ["firmware/asdf/src/asdf.c: asdf_handle_key_held_pressed", "firmware/asdf/src/asdf_repeat.c: asdf_repeat"]}
{"id": "C32", "title": "REPEAT mode ends when all keys are released", "statement": "When no key is pressed any more, the keyboard is not in REPEAT mode.", "quantifier": "every input history ending with all keys released", "why_tests_cant": "Needs a modifier change while REPEAT is held.", "anchors": ["firmware/asdf/src/asdf.c: asdf_deactivate_key, asdf_deactivate_action"]}
{"id": "C33", "title": "CTRL is active exactly while the CTRL key is down", "statement": "In every reachable state of the classic and Apple keymaps, CTRL is active iff the CTRL key's accepted state is pressed, across arbitrary other activity including keymap switches.", "quantifier": "every input history", "why_tests_cant": "A stuck CTRL needs a special interleaving; absence must hold for all.", "anchors": ["firmware/asdf/src/asdf.c: asdf_activate_action, asdf_deactivate_action", "firmware/asdf/src/asdf_modifiers.c: asdf_modifier_ctrl_activate, asdf_modifier_ctrl_deactivate", "firmware/asdf/src/Keymaps/asdf_keymap_classic_add_map.c, asdf_keymap_apple2_add_map.c"]}
{"id": "C34", "title": "SHIFT is active while a SHIFT key is down", "statement": "SHIFT is active whenever at least one SHIFT key is down, and inactive when none is (keymaps without shift lock).", "quantifier": "every input history", "why_tests_cant": "Two SHIFT keys and all their interleavings.", "anchors": ["firmware/asdf/src/asdf_modifiers.c: asdf_modifier_shift_activate, asdf_modifier_shift_deactivate", "firmware/asdf/src/Keymaps/asdf_keymap_classic_add_map.c: ACTION_SHIFT"]}
{"id": "C35", "title": "CAPS LOCK indicator shows the CAPS LOCK state", "statement": "Whenever CAPS LOCK changes, the CAPS LED assigned by the keymap is driven to the new state; and the LED always agrees with the state.", "quantifier": "every input history including keymap switches", "why_tests_cant": "Keymap switches re-assign LEDs without touching the modifier state.", "anchors": ["firmware/asdf/src/asdf_modifiers.c: asdf_modifier_set_caps_state", "firmware/asdf/src/asdf_keymaps.c: asdf_keymaps_switch"]}
{"id": "C36", "title": "Host receives exactly what was queued, in order", "statement": "The codes sent to the host are, for each of the two sources (messages and keys), exactly the codes accepted into that source's queue, in order, without loss, duplication or invention; codes at or above 0xA0 are never sent.", "quantifier": "every input history", "why_tests_cant": "Unbounded histories with both queues wrapping.", "anchors": ["firmware/asdf/src/asdf.c: asdf_next_code, asdf_put_code, asdf_putc", "firmware/asdf/src/main.c: main"]}
{"id": "C37", "title": "At most one code per tick, messages first", "statement": "Each tick sends at most one code; a key code is sent only when no message character is waiting; the message delay is applied to message characters only.", "quantifier": "every reachable state and input", "why_tests_cant": "All combinations of queue fill levels.", "anchors": ["firmware/asdf/src/asdf.c: asdf_next_code", "firmware/asdf/src/main.c: main"]}
{"id": "C38", "title": "Messages arrive intact", "statement": "When a keymap's message hook runs with an empty message queue, the host subsequently receives exactly that message (line feed expanded to CR LF), contiguously and before any further key code.", "quantifier": "every message of every keymap, every key activity while it is being sent that does not trigger another message", "why_tests_cant": "All concurrent typing.", "anchors": ["firmware/asdf/src/asdf.c: asdf_putc, asdf_next_code", "firmware/asdf/src/asdf_print.c: asdf_print", "firmware/asdf/src/Keymaps/*.c: *_id_message, applesoft_keyboard_test, ace1000_keyboard_test"]}
{"id": "C39", "title": "Unassigned keys are inert", "statement": "Pressing a key position with no assigned code has no effect on what the host receives.", "quantifier": "every history", "why_tests_cant": "Needs a nearly full key queue or a running autorepeat.", "anchors": ["firmware/asdf/src/asdf.c: asdf_activate_key, ACTION_NOTHING"]}
{"id": "C40", "title": "Configuration switches never type", "statement": "Moving any DIP switch never sends a code to the host.", "quantifier": "every DIP switch position and history", "why_tests_cant": "The unused switch position is an implicit zero initialiser.", "anchors": ["firmware/asdf/src/Keymaps/asdf_keymap_defs_dipswitch.h: ASDF_KEYMAP_DIP_SWITCHES"]}
{"id": "C41", "title": "Strobe polarity follows its DIP switch", "statement": "After any sequence of events, strobe polarity is the one selected by the strobe DIP switch.", "quantifier": "every input history including keymap switches", "why_tests_cant": "Needs a keymap switch after the polarity switch was set.", "anchors": ["firmware/asdf/src/asdf.c: asdf_activate_action", "firmware/asdf/src/Arch/asdf_arch_atmega328p.c: asdf_arch_init, asdf_arch_set_pos_strobe"]}
{"id": "C42", "title": "ATmega328p row read returns exactly the pressed keys of the row", "statement": "On the ATmega328p, asdf_arch_read_row(row) returns a byte whose bit c is set iff the key at (row, c) is closed, for rows 0..15, and leaves every LED, OUT, STROBE and data pin unchanged.", "quantifier": "every port state, every matrix contents, every row", "why_tests_cant": "All port contents times all column patterns.", "anchors": ["firmware/asdf/src/Arch/asdf_arch_atmega328p.c: asdf_arch_read_row"]}
{"id": "C43", "title": "ATmega2560 row read returns exactly the pressed keys of the row", "statement": "On the ATmega2560, asdf_arch_read_row(row) selects exactly the requested row (active low) and returns exactly its closed keys, for rows 0..15.", "quantifier": "every port state, every matrix contents, every row", "why_tests_cant": "All port contents times all column patterns.", "anchors": ["firmware/asdf/src/Arch/asdf_arch_atmega2560.c: asdf_arch_read_row"]}
{"id": "C44", "title": "Output handlers touch only their own pin", "statement": "Each LED/OUT handler on each AVR board changes only its own pin and puts it into the documented electrical state (driven high, driven low, pulled up or floating).", "quantifier": "every port state, every handler, every value", "why_tests_cant": "All port contents.", "anchors": ["firmware/asdf/src/Arch/asdf_arch_atmega328p.c: asdf_arch_led*_set, asdf_arch_out*_set", "firmware/asdf/src/Arch/asdf_arch_atmega2560.c: asdf_arch_led*_set, asdf_arch_out*_set"]}
{"id": "C45", "title": "Open-collector emulation never drives the wrong way, even transiently", "statement": "An open-high output is never actively driven high and an open-low output is never actively driven low, including between the individual register writes, once the output is used only in that mode.", "quantifier": "every sequence of set operations in that mode, every intermediate register write", "why_tests_cant": "Transients between two register writes are invisible to functional tests.", "anchors": ["firmware/asdf/src/Arch/asdf_arch_atmega328p.c: asdf_arch_out1_open_hi_set, asdf_arch_out1_open_lo_set, asdf_arch_out3_open_*", "firmware/asdf/src/Arch/asdf_arch_atmega2560.c: asdf_arch_out*_open_*"]}
{"id": "C46", "title": "Strobe protocol", "statement": "Sending a code puts the code on the data port before the strobe edge, keeps it stable during the strobe, gives exactly one strobe pulse of the configured polarity, and disturbs no other pin (optimised builds, in which the compiler turns the single-bit write of PINB into SBI).", "quantifier": "every code, both polarities, every port state", "why_tests_cant": "All port contents; relies on the toggle-register write being a single-bit operation.", "anchors": ["firmware/asdf/src/Arch/asdf_arch_atmega328p.c: asdf_arch_send_code", "firmware/asdf/src/Arch/asdf_arch_atmega2560.c: asdf_arch_send_code"]}
{"id": "C47", "title": "Tick accounting under interrupts", "statement": "Every tick reported to the main loop corresponds to at least one timer interrupt since the previous report, and no timer interrupt goes unreported.", "quantifier": "every interleaving of the timer interrupt with the main loop's read and clear", "why_tests_cant": "Race between reading and clearing the flag.", "anchors": ["firmware/asdf/src/Arch/asdf_arch_atmega328p.c: asdf_arch_tick, ISR(TIMER0_COMPA_vect)"]}
{"id": "C48", "title": "Clock prescaler is set at initialisation", "statement": "asdf_arch_init leaves the CPU clock prescaler at divide-by-1 whatever it was at reset.", "quantifier": "every prescaler value at reset", "why_tests_cant": "Host-side tests have no clock prescaler.", "anchors": ["firmware/asdf/src/Arch/asdf_arch_atmega328p.c: asdf_arch_init_clock", "firmware/asdf/src/Arch/asdf_arch_atmega2560.c: asdf_arch_init_clock"]}
{"id": "C49", "title": "Initialisation is history independent", "statement": "asdf_init brings the keyboard into the same observable state whatever happened before (no modifier active, no keys pending, autorepeat default).", "quantifier": "every previous state", "why_tests_cant": "Modifier state survives re-initialisation only if it was active before.", "anchors": ["firmware/asdf/src/asdf.c: asdf_init", "firmware/asdf/src/asdf_modifiers.c: asdf_modifiers_init", "firmware/asdf/src/asdf_keymaps.c: asdf_keymaps_init"]}
{"id": "C50", "title": "Every function key runs its hook", "statement": "Activating function action n runs user hook n, for every function action that a keymap can contain.", "quantifier": "every function action, every hook table", "why_tests_cant": "The mapping is a hand-written switch.", "anchors": ["firmware/asdf/src/asdf.c: asdf_activate_action"]}
{"id": "C51", "title": "Idle scans change nothing", "statement": "A scan in which every reading equals the accepted state and no key is down leaves the whole keyboard state unchanged and emits nothing.", "quantifier": "every reachable state", "why_tests_cant": "All states.", "anchors": ["firmware/asdf/src/asdf.c: asdf_keyscan"]}
{"id": "C52", "title": "The firmware never enters undefined behaviour while a four-map keyboard is selected", "statement": "Starting from power-on, for any key activity, as long as the keymap-select switches 2 and 3 stay off, no out-of-bounds access, null access, wrong-type hook call, arithmetic fault or endless loop occurs.", "quantifier": "every infinite input stream (every finite prefix)", "why_tests_cant": "Absence of undefined behaviour over all histories.", "anchors": ["firmware/asdf/src/asdf.c, asdf_keymaps.c, asdf_virtual.c, asdf_physical.c, asdf_buffer.c, asdf_hook.c, main.c"]}
{"id": "C53", "title": "Every registered message can be typed", "statement": "Each message a keymap registers for a function key is sent when some key of that keymap is pressed.", "quantifier": "every keymap with four maps, every registered message", "why_tests_cant": "Needs a search of all map tables against all registrations.", "anchors": ["firmware/asdf/src/Keymaps/asdf_keymap_apple2.c", "firmware/asdf/src/Keymaps/asdf_keymap_classic.c"]}
{"id": "C54", "title": "The tick timer fires every millisecond", "statement": "After asdf_arch_init, whatever calls follow, the tick interrupt is enabled and its period is F_CPU/1000 clock cycles times the power-on clock division, i.e. exactly 1 ms when the clock is undivided.", "quantifier": "every sequence of architecture calls after initialisation, both AVR boards", "why_tests_cant": "Host-side tests have no timer.", "anchors": ["firmware/asdf/src/Arch/asdf_arch_atmega328p.c: asdf_arch_tick_timer_init, arch_timer0_config", "firmware/asdf/src/Arch/asdf_arch_atmega2560.c: asdf_arch_tick_timer_init, arch_timer0_config"]}
{"id": "C55", "title": "Sending disturbs no other pin in the unoptimised build", "statement": "Also in the Debug (-O0) build, where the write to PINB is a read-modify-write, sending a code changes no pin other than data and strobe.", "quantifier": "every code, every port state", "why_tests_cant": "Needs the AVR toggle register and the unoptimised code.", "anchors": ["firmware/asdf/src/Arch/asdf_arch_atmega328p.c: set_bit, asdf_arch_send_code", "firmware/asdf/src/Arch/asdf_arch_atmega2560.c: set_bit, asdf_arch_send_code"]}
{"id": "C56", "title": "The host latches exactly the codes sent", "statement": "A host that latches the eight data lines on every rising edge (or on every falling edge) of the strobe line receives exactly the codes the firmware sends, in order and once each.", "quantifier": "every sequence of matrix readings, every interleaving of the firmware's hardware calls with row reads, both boards, both edge directions", "why_tests_cant": "Needs the pin-level register history and the scanner together, for unbounded runs.", "anchors": ["firmware/asdf/src/Arch/asdf_arch_atmega328p.c: asdf_arch_send_code, asdf_arch_set_pos_strobe, asdf_arch_set_neg_strobe", "firmware/asdf/src/Arch/asdf_arch_atmega2560.c: asdf_arch_send_code", "firmware/asdf/src/asdf.c: asdf_keyscan", "firmware/asdf/src/main.c"]}
{"id": "C57", "title": "The firmware behaves exactly as the reference keyboard machine", "statement": "Whatever matrix readings are scanned, the set of accepted keys, both output queues, every output event, the modifier state, the repeat state, the selected keyboard and all output levels are those of a reference machine that has no bytes, ring buffers, linked lists or registered maps; where the reference machine has no result the firmware reads outside its keymap table.", "quantifier": "every sequence of matrix readings", "why_tests_cant": "A step-by-step refinement for unbounded input.", "anchors": ["firmware/asdf/src/asdf.c", "firmware/asdf/src/asdf_keymaps.c", "firmware/asdf/src/asdf_buffer.c", "firmware/asdf/src/asdf_virtual.c", "firmware/asdf/src/asdf_physical.c", "firmware/asdf/src/asdf_modifiers.c", "firmware/asdf/src/asdf_repeat.c", "firmware/asdf/src/asdf_hook.c"]}
{"id": "C58", "title": "Autorepeat follows its DIP switch", "statement": "While the REPEAT key is not in use, held keys autorepeat iff the autorepeat switch is closed; with it open a held key is typed exactly once however long it is held.", "quantifier": "every sequence of matrix readings, every key held for any time", "why_tests_cant": "Depends on the whole switch history and on unbounded holds.", "anchors": ["firmware/asdf/src/asdf.c: asdf_activate_action, asdf_deactivate_action", "firmware/asdf/src/asdf_repeat.c: asdf_repeat_auto_on, asdf_repeat_auto_off, asdf_repeat_init", "firmware/asdf/src/Keymaps/asdf_keymap_defs_dipswitch.h"]}
{"id": "C59", "title": "RESET and CLEAR outputs pulse once per accepted press, RESET only with CTRL", "statement": "On keyboards 0 to 3 a tick drives the RESET and CLEAR outputs exactly when the panel key becomes accepted in it: one RESET pulse if CTRL is held, one CLEAR pulse if SHIFT but not CTRL is active, and no change otherwise; between ticks both outputs are always at rest.", "quantifier": "every sequence of matrix readings", "why_tests_cant": "Negative and counting claims over unbounded runs.", "anchors": ["firmware/asdf/src/Keymaps/asdf_keymap_defs_apple2.h", "firmware/asdf/src/Keymaps/asdf_keymap_defs_classic.h", "firmware/asdf/src/asdf.c: asdf_activate_action", "firmware/asdf/src/asdf_virtual.c: asdf_virtual_action"]}
{"id": "C60", "title": "Letter keys type their letter", "statement": "On keyboards 0 to 3 every letter has exactly one key; pressed from rest it queues the upper-case, lower-case or control form of the letter that the modifiers in force ask for.", "quantifier": "every letter, every modifier state, every reachable state", "why_tests_cant": "All maps, all letters, all states.", "anchors": ["firmware/asdf/src/Keymaps/asdf_keymap_apple2.c", "firmware/asdf/src/Keymaps/asdf_keymap_classic.c", "firmware/asdf/src/asdf.c: asdf_lookup_keycode, asdf_activate_key"]}
{"id": "C61", "title": "Every printable ASCII character can be typed", "statement": "On the two upper/lower-case keyboards (0 and 2) every printable ASCII character is sent by some sequence of presses.", "quantifier": "every printable character", "why_tests_cant": "The negative answer quantifies over all runs.", "anchors": ["firmware/asdf/src/Keymaps/asdf_keymap_apple2.c", "firmware/asdf/src/Keymaps/asdf_keymap_classic.c"]}
{"id": "C62", "title": "Modifier events drive exactly the lock LEDs", "statement": "Whatever devices are assigned, every SHIFT or SHIFT LOCK event drives all SHIFT LED devices with the resulting lock state, every CAPS LOCK press drives all CAPS LED devices with the resulting CAPS state, CTRL drives nothing; so a LED always shows its lock.", "quantifier": "every device assignment, every sequence of modifier events", "why_tests_cant": "Quantifies over unbounded histories and all assignments.", "anchors": ["firmware/asdf/src/asdf_modifiers.c: asdf_modifier_set_shift_state, asdf_modifier_set_caps_state", "firmware/asdf/src/asdf_virtual.c: asdf_virtual_action"]}
{"id": "C63", "title": "Every accepted keystroke is sent", "statement": "Every code that an accepted press or repeat offers is eventually sent, once and in order.", "quantifier": "every sequence of matrix readings", "why_tests_cant": "Needs all interleavings of presses, repeats and messages.", "anchors": ["firmware/asdf/src/asdf.c: asdf_put_code, asdf_next_code, asdf_activate_key", "firmware/asdf/src/asdf_buffer.c: asdf_buffer_put"]}
{"id": "C64", "title": "A waiting code is sent within 144 ticks", "statement": "A code in the key queue is sent within 144 ticks (16 codes plus 128 message characters), after exactly the message characters and codes ahead of it.", "quantifier": "every reachable state, every continuation", "why_tests_cant": "A bound on the waiting time for all continuations.", "anchors": ["firmware/asdf/src/asdf.c: asdf_next_code", "firmware/asdf/src/main.c"]}
{"id": "C65", "title": "The test architecture records what is driven on each output", "statement": "After any sequence of calls, asdf_arch_check_output(d) of the test architecture is the value last driven on device d since initialisation (0 if none).", "quantifier": "every device, every sequence of calls", "why_tests_cant": "The unit tests rely on this recorder; they cannot test it against itself for all devices and sequences.", "anchors": ["firmware/asdf/src/Arch/asdf_arch_test.c: set_output, asdf_arch_*_set, asdf_arch_check_output", "firmware/asdf/src/asdf_physical.c: physical_device_table"]}
{"id": "C66", "title": "The pulse detector of the test architecture is exact", "statement": "For every output that is not open collector, asdf_arch_check_pulse reports a high (low) pulse exactly when the last three things that happened to the output were the rise (fall), a delay and the return, and every earlier delay was the middle of such a pulse; it reports an error exactly when some delay was not.", "quantifier": "every such device, every sequence of calls", "why_tests_cant": "Quantifies over all histories of an automaton with absorbing error states.", "anchors": ["firmware/asdf/src/Arch/asdf_arch_test.c: pulse_transition_table, pulse_detect"]}
{"id": "C67", "title": "Pulses on different outputs are detected independently", "statement": "In the test architecture a pulse of an output that starts from a stable level is reported, whatever happened on other outputs before.", "quantifier": "every device, every earlier sequence of calls", "why_tests_cant": "Quantifies over interleavings of outputs.", "anchors": ["firmware/asdf/src/Arch/asdf_arch_test.c: asdf_arch_pulse_delay, pulse_detect"]}
{"id": "C68", "title": "The test architecture reports the code sent last", "statement": "asdf_arch_was_code_sent is true exactly when a code was sent after the last query and the last initialisation; asdf_arch_get_sent_code returns the last code sent and clears the mark.", "quantifier": "every sequence of sends, queries and other calls", "why_tests_cant": "Quantifies over all interleavings of sends and queries.", "anchors": ["firmware/asdf/src/Arch/asdf_arch_test.c: asdf_arch_send_code, asdf_arch_get_sent_code, asdf_arch_was_code_sent"]}
{"id": "C69", "title": "OSI row read returns exactly the pressed keys of the row", "statement": "On the ATmega2560 with a polled OSI keyboard, asdf_arch_osi_read_row(row) for rows 0-7 returns the keys pressed in that row, after any history of calls and reads.", "quantifier": "every history, every key matrix, every row, both build kinds", "why_tests_cant": "Needs the hardware protocol for all register states.", "anchors": ["firmware/asdf/src/Arch/asdf_arch_atmega2560.c: asdf_arch_osi_read_row"]}
{"id": "C70", "title": "OSI row reads do not disturb the switch row", "statement": "On the ATmega2560, reading the DIP switch row returns the closed switches also after rows of an OSI keyboard were read.", "quantifier": "every history, every switch setting, every level of floating lines", "why_tests_cant": "The failure depends on floating inputs.", "anchors": ["firmware/asdf/src/Arch/asdf_arch_atmega2560.c: asdf_arch_osi_read_row, asdf_arch_read_row"]}
{"id": "C71", "title": "Processor and OSI keyboard never drive the bus at the same time", "statement": "During an OSI row read there is no moment at which the keyboard is enabled for output and a column pin of the processor is an output.", "quantifier": "every history, every intermediate register state", "why_tests_cant": "Transient bus contention is invisible to functional tests.", "anchors": ["firmware/asdf/src/Arch/asdf_arch_atmega2560.c: asdf_arch_osi_read_row"]}
{"id": "C72", "title": "Typing from rest sends exactly the codes typed", "statement": "Starting with nothing pending, any sequence of keystrokes and of SHIFT, CTRL and CAPS presses and releases, one key changing at a time and every contact change kept for at least ten scans, sends exactly the codes of the keys under the modifiers then in force, in order, each once plus its autorepeats, and leaves nothing pending.", "quantifier": "every keyboard 0-3, every set of keys held meanwhile, every sequence of keystrokes of any length and duration", "why_tests_cant": "Unbounded sequences of keystrokes with arbitrary durations.", "anchors": ["firmware/asdf/src/asdf.c: asdf_keyscan, asdf_handle_key_press_or_release, asdf_activate_key, asdf_deactivate_key", "firmware/asdf/src/asdf_repeat.c", "firmware/asdf/src/asdf_modifiers.c", "firmware/asdf/src/main.c"]}
{"id": "C73", "title": "Any text can be typed and reaches the host", "statement": "For each of keyboards 0-3 and every text over its characters (ASCII without 30, 31, ^ and _ on the classic keyboards, without 0 and 28-31 on the Apple keyboards, without small letters on the capitals-only keyboards) there are matrix readings with the switches left alone after which the codes sent, and the codes latched by a host on either strobe edge of either board, are exactly that text.", "quantifier": "every text of any length, every keyboard 0-3, both boards, both edges", "why_tests_cant": "Quantifies over all texts and spans scanner, queues and port registers.", "anchors": ["firmware/asdf/src/Keymaps/asdf_keymap_classic.c", "firmware/asdf/src/Keymaps/asdf_keymap_apple2.c", "firmware/asdf/src/asdf.c: asdf_keyscan", "firmware/asdf/src/Arch/asdf_arch_atmega328p.c: asdf_arch_send_code", "firmware/asdf/src/Arch/asdf_arch_atmega2560.c: asdf_arch_send_code"]}
{"id": "C74", "title": "The board sees exactly the keys closed when each row is read", "statement": "Running from power-on on either board, with every row read through the ports and every architecture call carried out on them, the firmware behaves as if told truthfully which keys of each row are closed at the moment the row is read, also when keys move during a scan, for any initial register contents, any level at undriven pins and either build kind; the ports go through the initialisation and exactly the calls of that run.", "quantifier": "every sequence of key matrices that may change between any two row reads, every initial register state, both boards, both build kinds", "why_tests_cant": "Spans scanner and port registers for unbounded runs and all register states.", "anchors": ["firmware/asdf/src/main.c", "firmware/asdf/src/asdf.c: asdf_keyscan", "firmware/asdf/src/Arch/asdf_arch_atmega328p.c: asdf_arch_read_row", "firmware/asdf/src/Arch/asdf_arch_atmega2560.c: asdf_arch_read_row"]}
{"id": "C75", "title": "From physical keys to connector pins", "statement": "For each of keyboards 0-3 and every text over its characters there are movements of the physical keys, the switches left alone, such that a host at the connector of either board, latching the data pins on either strobe edge from power-on, receives exactly that text.", "quantifier": "every text, every keyboard 0-3, both boards, both edges, every level at undriven pins", "why_tests_cant": "End-to-end over scanner, queues, row select hardware and output port for texts of any length.", "anchors": ["firmware/asdf/src/main.c", "firmware/asdf/src/asdf.c: asdf_keyscan", "firmware/asdf/src/Arch/asdf_arch_atmega328p.c: asdf_arch_read_row, asdf_arch_send_code", "firmware/asdf/src/Arch/asdf_arch_atmega2560.c: asdf_arch_read_row, asdf_arch_send_code"]}
{"id": "C76", "title": "Output pins follow the last call on their devices", "statement": "Running from reset on either board, every LED and output pin shows at every tick the value of the last call of the run on a device wired to it, in that device's manner (inverted, open-collector or open-source); with no such call an LED pin is low and an output pin floats.", "quantifier": "every run of any length, both boards, every LED and output pin", "why_tests_cant": "Unbounded runs in which scanning and sending use the same ports.", "anchors": ["firmware/asdf/src/Arch/asdf_arch_atmega328p.c: asdf_arch_led*_set, asdf_arch_out*_set, asdf_arch_read_row, asdf_arch_send_code", "firmware/asdf/src/Arch/asdf_arch_atmega2560.c: asdf_arch_led*_set, asdf_arch_out*_set, asdf_arch_read_row, asdf_arch_send_code"]}
{"id": "C77", "title": "The CAPS LED is lit exactly while CAPS LOCK is on", "statement": "On either board, from reset on, the LED that keyboard 0 (LED3) or keyboard 2 (LED1) uses for CAPS LOCK is physically lit at every tick exactly when CAPS LOCK is on.", "quantifier": "every run of any length on either board, every tick", "why_tests_cant": "Follows one LED through keyboard changes and port initialisation for unbounded runs.", "anchors": ["firmware/asdf/src/asdf_modifiers.c: asdf_modifier_capslock_toggle", "firmware/asdf/src/asdf_virtual.c", "firmware/asdf/src/Arch/asdf_arch_atmega328p.c: asdf_arch_init, asdf_arch_led3_set", "firmware/asdf/src/Arch/asdf_arch_atmega2560.c: asdf_arch_init, asdf_arch_led3_set"]}
{"id": "C78", "title": "Typing with bouncing contacts is exact", "statement": "From any reachable state of keyboards 0-3 with nothing queued and autorepeat on, a session of keystrokes and modifier presses and releases on bouncing contacts (each contact change has at least ten readings of the new level and at most nine of the old one, in any order; at most 525 closed readings per keystroke) sends exactly the codes of the keystrokes, in order, each once; afterwards exactly the keys held in the session are down and the modifiers are as the session says.", "quantifier": "every reachable starting state, every session of any length, every interleaving of right and wrong readings within the limits", "why_tests_cant": "Exponentially many bounce patterns per keystroke, unbounded sessions, arbitrary left-over counter values.", "anchors": ["firmware/asdf/src/asdf.c: asdf_keyscan, asdf_handle_key_press_or_release, asdf_activate_key, asdf_deactivate_key", "firmware/asdf/src/asdf_repeat.c", "firmware/asdf/src/main.c"]}
{"id": "C79", "title": "The keyboard falls silent when left alone", "statement": "From any reachable state of keyboards 0-3 with the unassigned switch open, once all keys are released and the switches kept as they are, after 144 ticks exactly what was queued has been sent, the queues are empty and all keys are up; from then on, for as long as it is left alone, the firmware makes no further architecture call and its state does not change.", "quantifier": "every reachable state (any keys down, any bounce counters, any queue contents), every length of rest", "why_tests_cant": "Stability for ever after any input; needs invariants over all reachable states.", "anchors": ["firmware/asdf/src/asdf.c: asdf_keyscan, asdf_next_code", "firmware/asdf/src/asdf_repeat.c: asdf_repeat", "firmware/asdf/src/main.c"]}
{"id": "C80", "title": "After a rest typing is exact", "statement": "After any input followed by a rest of 144 ticks or more, with autorepeat on, a keystroke on a key with a code, held shorter than the repeat delay, sends its code exactly once.", "quantifier": "every input, every rest, every following session", "why_tests_cant": "Depends on hidden state (the last key) that survives an arbitrarily long rest.", "anchors": ["firmware/asdf/src/asdf.c: asdf_keyscan, asdf_deactivate_key", "firmware/asdf/src/asdf_repeat.c"]}
{"id": "C81", "title": "In real time both boards behave as the tick-by-tick model", "statement": "With keys moving in real time and delays taking their milliseconds, both boards, from power-on, whatever the keys do: each pass of the main loop scans rows at times that never go back and lie after the previous pass; the firmware behaves exactly as the tick-by-tick model fed with the readings taken at those times; both boards give the same firmware state and the same codes at the same times.", "quantifier": "every movement of the keys in time, any number of passes, both boards, any prior port state", "why_tests_cant": "Quantifies over all real-time behaviours of the matrix and over delays inside scans.", "anchors": ["firmware/asdf/src/main.c", "firmware/asdf/src/Arch/asdf_arch_atmega328p.c: ISR, asdf_arch_tick, asdf_arch_delay_ms", "firmware/asdf/src/Arch/asdf_arch_atmega2560.c: ISR, asdf_arch_tick, asdf_arch_delay_ms"]}
{"id": "C82", "title": "Typing is exact in real time", "statement": "From any state reached in real time on keyboards 0-3 with nothing queued, autorepeat on and no timer interrupt pending, a session of bouncing keystrokes laid out millisecond by millisecond (as in C78) runs at one scan a millisecond and sends exactly its codes, in order, each once.", "quantifier": "every real-time history, every bouncing session of any length", "why_tests_cant": "Needs that no pass of the session spends a millisecond, for unboundedly many passes.", "anchors": ["firmware/asdf/src/main.c", "firmware/asdf/src/asdf.c: asdf_keyscan", "firmware/asdf/src/Arch/asdf_arch_atmega328p.c: asdf_arch_tick"]}
{"id": "C83", "title": "A keystroke of a third of a second is typed, whatever else goes on", "statement": "In real time, from power-on, a key with a code that is held closed for 350 ms is accepted and typed, also while a message is being sent.", "quantifier": "every real-time history, every key, every moment", "why_tests_cant": "The number of scans that fall into the keystroke depends on everything else the firmware does.", "anchors": ["firmware/asdf/src/asdf.c: asdf_keyscan, asdf_next_code", "firmware/asdf/src/asdf_config.h: ASDF_DEBOUNCE_TIME_MS", "firmware/asdf/src/main.c"]}
{"id": "C84", "title": "Message characters are spaced", "statement": "In real time, every message character is sent at least 40 ms after whatever code was sent before it, and 40 or 41 ms after the end of the previous pass of the main loop.", "quantifier": "every real-time history, every message character", "why_tests_cant": "Unbounded histories with keys, repeats and messages interleaved.", "anchors": ["firmware/asdf/src/asdf.c: asdf_next_code", "firmware/asdf/src/asdf.c: asdf_set_print_delay"]}
{"id": "C85", "title": "The host has 40 ms after every message character", "statement": "In real time, after a message character no further code is sent for 40 ms.", "quantifier": "every real-time history, every message character", "why_tests_cant": "Depends on what was typed while the message ran.", "anchors": ["firmware/asdf/src/asdf.c: asdf_next_code", "firmware/asdf/src/main.c"]}
{"id": "C86", "title": "The scan rate is bounded on both sides", "statement": "In real time, whatever keys are pressed and messages sent, each pass of the main loop (one code sent, one scan) takes at most 91 ms, and there is at most one pass per millisecond.", "quantifier": "every real-time history, any number of passes, all keyboards", "why_tests_cant": "The worst case needs the right combination of a message character, an output pulse and no pending interrupt.", "anchors": ["firmware/asdf/src/main.c", "firmware/asdf/src/asdf.c: asdf_keyscan, asdf_next_code", "firmware/asdf/src/asdf_virtual.c: asdf_virtual_action", "firmware/asdf/src/Arch/asdf_arch_atmega328p.c: asdf_arch_tick"]}
{"id": "C87", "title": "Autorepeat timing in milliseconds", "statement": "In real time, a character key pressed from rest with autorepeat on and held sends its code one millisecond after the press is accepted, again 525 ms later and then every 66 ms, at exactly these times, for as long as it is held.", "quantifier": "every real-time history, every key, every holding time", "why_tests_cant": "Exact time stamps for unboundedly long holds.", "anchors": ["firmware/asdf/src/asdf_repeat.c: asdf_repeat", "firmware/asdf/src/asdf.c: asdf_keyscan", "firmware/asdf/src/asdf_config.h: ASDF_AUTOREPEAT_TIME_MS, ASDF_REPEAT_TIME_MS"]}
{"id": "C88", "title": "Applying all actions puts the configuration switches into effect", "statement": "In every state reached on keyboards 0-3, with mode switches 2 and 3 read open, asdf_apply_all_actions ends without undefined behaviour; afterwards the accepted state of every key is the one just read, the keyboard is the number shown by mode switches 0 and 1, the strobe polarity and the autorepeat mode are those of their switches, CTRL is on exactly if its key is read closed, and no code is typed or queued as a keystroke.", "quantifier": "every reachable state of keyboards 0-3, every matrix reading with switches 2 and 3 open", "why_tests_cant": "The function is never called in the firmware, so no test runs it; it changes the keymap in the middle of its own loop over the keys.", "anchors": ["firmware/asdf/src/asdf.c: asdf_apply_all_actions, asdf_activate_action, asdf_deactivate_action, asdf_lookup_keycode"]}
{"id": "C89", "title": "Started with all actions applied, the firmware honours its switches for ever", "statement": "If asdf_apply_all_actions is called after asdf_init (switches 2 and 3 open throughout), then for every later input there is no undefined behaviour, the keyboard is always the number shown by accepted mode switches 0 and 1, the autorepeat mode outside repeat mode is always that of its switch, and while the mode switches are left alone the strobe polarity is always that of its switch - also if the switches are open at start, where the firmware as written does not honour them (C41, C58).", "quantifier": "every start reading, every later input of any length", "why_tests_cant": "A statement about a repaired program over unbounded runs.", "anchors": ["firmware/asdf/src/asdf.c: asdf_apply_all_actions, asdf_init", "firmware/asdf/src/main.c"]}
{"id": "C90", "title": "In real time the host at the connector gets exactly the codes sent", "statement": "On either board from reset, with keys moving in real time and delays taking their milliseconds: the ports go through the initialisation followed by exactly the architecture calls of the firmware with row reads in between; and with mode switch 2 open and the polarity switch not moved, a host that latches the data lines on either strobe edge has received, after any number of passes of the main loop, exactly the codes sent so far (those with a time stamp), in order, once each.", "quantifier": "every movement of the keys in time, any number of passes, both boards, both edges, any level at undriven pins", "why_tests_cant": "Combines all key histories in continuous operation with the pin level history of the ports; no test bench covers unbounded time.", "anchors": ["firmware/asdf/src/main.c", "firmware/asdf/src/asdf.c: asdf_keyscan, asdf_next_code", "firmware/asdf/src/Arch/asdf_arch_atmega328p.c: asdf_arch_send_code, asdf_arch_read_row, asdf_arch_tick", "firmware/asdf/src/Arch/asdf_arch_atmega2560.c: asdf_arch_send_code, asdf_arch_read_row, asdf_arch_tick"]}
{"id": "C91", "title": "Every text can be typed in real time at 42 ms per character", "statement": "On each of keyboards 0-3, for every text over the printable characters and control codes of the keyboard, there is a movement of the keys in time, never moving the switches, such that from 36 + 42 n milliseconds after power-on (n the length of the text) and for ever after, the host at the connector of either board has received exactly that text.", "quantifier": "every text of any length, keyboards 0-3, both boards, both strobe edges, every later moment", "why_tests_cant": "Infinitely many texts; the claim is about the whole chain from contacts to connector and about all later time.", "anchors": ["firmware/asdf/src/main.c", "firmware/asdf/src/asdf.c", "firmware/asdf/src/asdf_keymaps.c", "firmware/asdf/src/Keymaps/", "firmware/asdf/src/Arch/asdf_arch_atmega328p.c", "firmware/asdf/src/Arch/asdf_arch_atmega2560.c"]}
{"id": "C92", "title": "Nothing observable depends on how long computing takes", "statement": "Let timer interrupts occur anywhere in the program, any number of them in each stretch of computing, also between the load and the clear of the tick flag (where they are lost). Then after any number of passes of the main loop: the firmware is in the state reached from matrix readings taken at times that never go backwards and at most one pass per millisecond; the time stamps are exactly the codes sent; the ports of either board went through exactly the architecture calls of the firmware with row reads in between; with mode switch 2 open and the polarity switch not moved a host on either strobe edge has received exactly the codes sent; and if computing takes no time this is the model of C81.", "quantifier": "every assignment of interrupts to stretches of computing, every movement of the keys in time, any number of passes, both boards, both edges", "why_tests_cant": "Interrupt timing is not under the control of a test, and lost interrupts only occur in a window of a few cycles.", "anchors": ["firmware/asdf/src/main.c", "firmware/asdf/src/asdf.c: asdf_keyscan", "firmware/asdf/src/Arch/asdf_arch_atmega328p.c: asdf_arch_tick, ISR", "firmware/asdf/src/Arch/asdf_arch_atmega2560.c: asdf_arch_tick, ISR"]}
{"id": "C93", "title": "Message characters keep 40 ms distance however long computing takes", "statement": "With interrupts occurring anywhere: when a message is waiting, the next pass sends its next character at a time at least 40 ms after every code sent before and at least 40 ms after the end of the previous pass.", "quantifier": "every assignment of interrupts to stretches of computing, every history, every message", "why_tests_cant": "As C92: interrupt timing is not under the control of a test.", "anchors": ["firmware/asdf/src/main.c", "firmware/asdf/src/asdf.c: asdf_next_code, asdf_set_print_delay", "firmware/asdf/src/Arch/asdf_arch_atmega328p.c: asdf_arch_delay_ms"]}
{"id": "C94", "title": "Typing in continuous time, however long computing takes", "statement": "Let each pass of the main loop take at most G ms (interrupts anywhere otherwise). A person at rest on keyboards 0-3 types in continuous time: contacts bounce freely for up to 7 ms after each press or release and then keep still for at least 11 G ms, strokes last at most half a second, modifier keys go down and up and are held meanwhile. Then the host has been sent exactly one code per stroke, the one of the key under the modifiers then in force, in order, nothing else, when the typing is over, and the modifiers are as typed. Nothing is assumed about when scans happen.", "quantifier": "every sequence of strokes and modifier changes of any length, every bounce pattern, every assignment of interrupts with passes of at most G ms, every G, keyboards 0-3", "why_tests_cant": "Every alignment of scans to contact movements, for unboundedly long sessions.", "anchors": ["firmware/asdf/src/main.c", "firmware/asdf/src/asdf.c: asdf_keyscan, asdf_handle_key_press_or_release, asdf_next_code", "firmware/asdf/src/asdf_repeat.c", "firmware/asdf/src/asdf_config.h: ASDF_DEBOUNCE_TIME_MS"]}
{"id": "C95", "title": "Synchronising the outputs after selecting a keyboard puts the declared levels at the pins", "statement": "After asdf_keymaps_switch to keyboard 0-5 followed by asdf_virtual_sync, from any reachable state: every physical device the keymap assigns a virtual device to has last been driven with the level the keymap declares for it, and on either board the pin of every declared output is at that level.", "quantifier": "every reachable state, keyboards 0-5, both boards, any earlier history of the ports", "why_tests_cant": "Quantifies over all states and all port histories; several physical devices share a pin, so the outcome depends on the order of all calls.", "anchors": ["firmware/asdf/src/asdf_virtual.c: asdf_virtual_sync", "firmware/asdf/src/asdf_physical.c: asdf_physical_assert", "firmware/asdf/src/asdf_keymaps.c: asdf_keymaps_switch", "firmware/asdf/src/Arch/asdf_arch_atmega328p.c", "firmware/asdf/src/Arch/asdf_arch_atmega2560.c"]}
{"id": "C96", "title": "CAPS LOCK changes by its key and by selecting keyboard 2, and by nothing else", "statement": "With mode switches 2 and 3 open: in every scan CAPS LOCK changes exactly if either the CAPS LOCK key of the keyboard in use is accepted as pressed or mode switches 0 and 1 pass through the setting of keyboard 2 (switch 0 taken before switch 1), and not if both happen; over a whole run from power-on CAPS LOCK is on exactly if the number of such presses plus the number of such passages is odd.", "quantifier": "every sequence of matrix readings of any length with mode switches 2 and 3 open", "why_tests_cant": "A parity over unbounded histories of all keys and switches, including both switches moving in one scan.", "anchors": ["firmware/asdf/src/asdf_modifiers.c: asdf_modifier_capslock_activate", "firmware/asdf/src/asdf.c: asdf_keyscan, asdf_activate_action", "firmware/asdf/src/asdf_keymaps.c: asdf_keymaps_select", "firmware/asdf/src/Keymaps/"]}
{"id": "C97", "title": "CLEAR SCREEN is asserted for 50 ms each time, RESET for less than a millisecond", "statement": "In real time, with interrupts occurring anywhere: whenever the firmware asserts the CLEAR SCREEN output (OUT1_OPEN_LO), its next two calls to the hardware are the long delay and the release of that output, at least 50 ms later and exactly 50 ms later if computing takes no time; whenever it asserts RESET (OUT3_OPEN_HI), its next two calls are the short delay and the release, in the same millisecond if computing takes no time. So neither output is ever left asserted, whatever keys move meanwhile.", "quantifier": "every motion of the keys in time, every assignment of interrupts to stretches of computing, every number of passes, every occurrence in the whole history", "why_tests_cant": "The pulse is the composition of toggles of a recorded level, a delay call and the key handler; its width has to hold for every history and every interleaving with messages, keymap changes and repeats.", "anchors": ["firmware/asdf/src/asdf_virtual.c: asdf_virtual_activate, asdf_virtual_action", "firmware/asdf/src/asdf_physical.c: asdf_physical_toggle", "firmware/asdf/src/Arch/asdf_arch_atmega328p.c: asdf_arch_pulse_delay_long", "firmware/asdf/src/asdf_config.h: ASDF_PULSE_DELAY_LONG_MS", "firmware/asdf/src/main.c"]}
{"id": "C98", "title": "A firmware built from any sound keymaps never does anything undefined", "statement": "keymap_list.cmake lets a builder put keymaps of their own under the indices of their choice. If the indices are 0-3 with 0 among them, and every keymap registers four tables of one size (at most 16 rows and 8 columns, each as long as its size says) whose hooks only print messages (with every '%' doubled) and whose keyboard-selection codes lie in the rows that all keymaps of the firmware have, then for every sequence of matrix readings the firmware runs without undefined behaviour. In particular any choice of the six shipped keymaps for indices 0-3 is safe, the Sol-20 and ACE-1000 ones included. Each condition matters: a fifth keymap, or a selection code in a row another keymap lacks, lets key presses alone lead to out-of-bounds accesses. A message with a single '%' leads to undefined behaviour in vfprintf, since asdf_print passes the message as the format.", "quantifier": "every assignment of keymap setup functions (any lists of add_map, hook and device calls with any tables) to indices 0-3 meeting the conditions, every sequence of matrix readings of any length", "why_tests_cant": "There are infinitely many keymaps and no test of the shipped ones says anything about a keymap not yet written.", "anchors": ["firmware/asdf/keymap_list.cmake", "firmware/asdf/src/CMakeLists.txt", "firmware/asdf/src/asdf_keymaps.c: asdf_keymaps_add_map, asdf_keymaps_select, asdf_keymaps_get_code", "firmware/asdf/src/asdf.c: asdf_keyscan, asdf_keyscan_default", "firmware/asdf/src/asdf_hook.c: asdf_hook_assign", "firmware/asdf/src/asdf_print.c: asdf_print"]}
{"id": "C99", "title": "Debouncing works the same under any keymaps", "statement": "In a firmware built from any sound keymaps (C98), for every key in the rows and columns all its keymaps have: the accepted state of the key depends on the readings of that key alone, so two firmwares with different keymaps accept the same states from the same readings of the key, whatever other keys do and whichever keymaps get selected; ten consecutive readings of the other state are accepted; and a change is accepted only after ten readings of the new state since the old one was accepted, the last one on the accepting scan.", "quantifier": "every pair of firmwares of sound keymaps, every key within their common rows and columns, every sequence of matrix readings of any length", "why_tests_cant": "Quantifies over all keymaps and all histories, including selections of other keymaps in the middle of a scan.", "anchors": ["firmware/asdf/src/asdf.c: asdf_keyscan, asdf_handle_key_press_or_release", "firmware/asdf/src/asdf_keymaps.c: asdf_keymaps_select", "firmware/asdf/keymap_list.cmake"]}
{"id": "C100", "title": "Modes, selected keyboard and outputs follow from the accepted key transitions alone, under any keymaps", "statement": "In a firmware of any sound keymaps of one size (C98): compute, for each key from its own readings, when its accepted state changes, and list these transitions in scan order. Then the selected keyboard, SHIFT, CAPS LOCK and CTRL are what results from replaying that list on the keymaps' tables: each press or release is looked up under the modes then in force and acts as its code says (SHIFT, SHIFT LOCK, CAPS LOCK, CTRL, keyboard selection with the CAPS LOCK toggles of the setup function), all other codes changing nothing. Two runs with the same transitions, however different their timing, bounce and repeats, moreover make the same calls to the outputs in the same order and are ready to repeat the same code.", "quantifier": "every firmware of sound keymaps of one size, every sequence of matrix readings of any length, every pair of runs with equal transitions", "why_tests_cant": "The code of a release is looked up in the table of the modes at that time, autorepeat, queues and messages run in between, and keymap selections happen in the middle of scans; equality over all timings cannot be tested.", "anchors": ["firmware/asdf/src/asdf.c: asdf_keyscan, asdf_handle_key_press_or_release, asdf_handle_key_held_pressed, asdf_activate_key, asdf_deactivate_key", "firmware/asdf/src/asdf_modifiers.c", "firmware/asdf/src/asdf_keymaps.c: asdf_keymaps_select, asdf_keymaps_get_code", "firmware/asdf/keymap_list.cmake"]}
{"id": "C101", "title": "No stuck modifiers, provided the keymaps keep each modifier key in place", "statement": "In a firmware of any sound keymaps of one size in which every position carries CTRL in all tables or in none, CTRL is on only while some CTRL key is accepted as pressed, after any sequence of matrix readings; with a single CTRL key, exactly while it is. The same for SHIFT if no SHIFT LOCK key exists. Any assignment of the first four shipped keymaps to indices 0-3 satisfies this. Without the proviso it is false: a keymap that leaves SHIFT out of its SHIFT table has SHIFT on for ever after one keystroke.", "quantifier": "every firmware of sound keymaps of one size with fixed modifier positions, every sequence of matrix readings of any length", "why_tests_cant": "The condition under which no history of key movements leaves a modifier stuck is a statement about all histories and all keymaps.", "anchors": ["firmware/asdf/src/asdf.c: asdf_handle_key_press_or_release, asdf_activate_action, asdf_deactivate_action", "firmware/asdf/src/asdf_modifiers.c: asdf_modifier_shift_deactivate, asdf_modifier_ctrl_deactivate", "firmware/asdf/src/asdf_keymaps.c: asdf_keymaps_get_code", "firmware/asdf/src/Keymaps/"]}
{"id": "C102", "title": "What is sent comes from what was typed, in order, under any keymaps", "statement": "In a firmware of any sound keymaps of one size (C98): the bytes sent are an interleaving of two streams. One consists of characters of the messages its keymaps print. The other is what a 16-place queue delivers from the accepted key transitions: every press whose code under the tables and modes then in force is a character enters that character, a character typed with 16 waiting is lost, characters leave in the order they entered, and besides those only repeats of the latest character typed enter. If all keys have been released for 144 scans nothing is left waiting, if no keymap prints a message on each scan. If no keymap prints messages at all, every byte sent was typed, in that order.", "quantifier": "every firmware of sound keymaps of one size, every sequence of matrix readings of any length", "why_tests_cant": "The streams interleave with keymap changes, repeats and messages over unbounded histories, for keymaps not yet written.", "anchors": ["firmware/asdf/src/asdf.c: asdf_keyscan, asdf_activate_key, asdf_process_key, asdf_next_code, asdf_send_code", "firmware/asdf/src/asdf_buffer.c", "firmware/asdf/src/asdf_repeat.c", "firmware/asdf/src/asdf_print.c", "firmware/asdf/keymap_list.cmake"]}
{"id": "C103", "title": "A keymap without a table for some modifiers locks the keyboard up", "statement": "In a firmware of any keymaps whatever: if at some scan the selected keymap has registered no table for the modifiers in force (CTRL, else SHIFT, else CAPS LOCK, else none), then from there on no key is ever accepted as pressed or released, no mode changes and no other keyboard gets selected, whatever the keys do, including the release of the modifier that led there.", "quantifier": "every firmware of any keymaps (no soundness assumed), every sequence of readings leading to such a state, every sequence of readings afterwards", "why_tests_cant": "That nothing ever brings the keyboard back is a statement about all continuations.", "anchors": ["firmware/asdf/src/asdf_keymaps.c: asdf_keymaps_num_rows, asdf_keymaps_add_map, asdf_keymaps_select", "firmware/asdf/src/asdf.c: asdf_keyscan_default", "firmware/asdf/src/asdf_modifiers.c: asdf_modifier_index", "firmware/asdf/keymap_list.cmake"]}
{"id": "C104", "title": "The output of a firmware of any keymaps, computed exactly from the readings of each key", "statement": "In a firmware of any sound keymaps of one size (C98), the bytes sent after any sequence of scans are exactly those computed as follows. Each key is debounced from its own readings. In every scan one character leaves, messages first; then the keys are visited in order. An accepted press enters the character of its code under the modes in force into a 16-place queue and, unless it is the one already set to repeat, makes it the one to repeat after 525 scans (66 in REPEAT mode, never with autorepeat off); an accepted release of that character stops it; a key read as held whose code is that character counts one scan down and at zero types it again, then every 66. REPEAT and autorepeat keys change the mode (REPEAT pressed within the last 66 scans before a repeat changes nothing); function keys enter the message their keymap registered, with CR before LF, into a 128-place queue; other action codes change the modes as in C100.", "quantifier": "every firmware of sound keymaps of one size, every sequence of matrix readings of any length, every byte sent", "why_tests_cant": "An exact functional specification over all keymaps and all histories; it fixes every byte including repeats, losses at full queues, messages and keymap changes in the middle of a scan.", "anchors": ["firmware/asdf/src/main.c", "firmware/asdf/src/asdf.c", "firmware/asdf/src/asdf_repeat.c", "firmware/asdf/src/asdf_buffer.c", "firmware/asdf/src/asdf_print.c", "firmware/asdf/src/asdf_hook.c", "firmware/asdf/src/asdf_keymaps.c", "firmware/asdf/keymap_list.cmake"]}
{"id": "C105", "title": "Typing sessions print what is on the keys, under any keymaps", "statement": "In a firmware of any sound keymaps of one size without a message for each scan: consider any session, of any length, in which mode keys (SHIFT, locks, CTRL, keyboard selection, output keys: keys that are no character keys under any modes) are pressed and released in any order and held as long as one likes, ten scans apart, and character keys are struck one at a time, pressed for h scans (10 or more) and released for 10. Then what is sent is the sequence of the struck keys' characters under the modes then in force, each as often as its duration says: once, again after 525 further scans, and then once for every 66. Nothing is lost, doubled or left waiting.", "quantifier": "every firmware of sound keymaps of one size, every session as described, of any length and with any durations", "why_tests_cant": "Sessions are unbounded, durations are unbounded, and the keymaps are arbitrary.", "anchors": ["firmware/asdf/src/asdf.c: asdf_keyscan, asdf_activate_key, asdf_deactivate_key, asdf_handle_key_held_pressed", "firmware/asdf/src/asdf_repeat.c", "firmware/asdf/src/asdf_modifiers.c", "firmware/asdf/src/asdf_keymaps.c", "firmware/asdf/keymap_list.cmake"]}
{"id": "C106", "title": "On the board, a firmware of any keymaps makes exactly the port accesses its calls say", "statement": "The firmware built from any keymaps (sound or not), running on the ATmega328P or the ATmega2560 board with every row read through the ports while the keys may move between row reads, behaves exactly as the program given the values of each key at the moment its row is read: it does the same undefined thing if the program does, and otherwise ends in the same state, the port registers having gone through the initialisation followed by the program's calls, in order, with row reads in between.", "quantifier": "every list of keymaps with a keymap 0 (no soundness assumed), every sequence of key matrices changing between row reads, every port state, both boards, with interrupts in read-modify-write sequences or not", "why_tests_cant": "Row reads and output calls share ports; that they never disturb one another has to hold for all keymaps, not just shipped ones, and for all histories.", "anchors": ["firmware/asdf/src/main.c", "firmware/asdf/src/asdf.c: asdf_keyscan", "firmware/asdf/src/Arch/asdf_arch_atmega328p.c", "firmware/asdf/src/Arch/asdf_arch_atmega2560.c", "firmware/asdf/keymap_list.cmake"]}
{"id": "C107", "title": "What a host latches, computed exactly, under any keymaps", "statement": "A firmware of any sound keymaps of one size (C98) runs on either board from reset; a host latches the data lines on every edge of one direction of the strobe. What it has latched is exactly this: replay the moves of the keys as in C104, writing down every character as it leaves, every change of the strobe polarity (pressing and releasing a polarity key, setup functions asking for negative strobes) and every keyboard selection that takes place; the host gets each character once, plus the data then on the lines at each change of the idle level in the direction of its edge (zero at a selection). If no negative polarity is ever asked for, it has latched exactly the bytes of C104, on either edge.", "quantifier": "every firmware of sound keymaps of one size, every sequence of key matrices changing between row reads, both boards, both edges", "why_tests_cant": "From key contacts to latched bytes through debouncing, modes, queues, repeats, selections and port writes, for keymaps not yet written and unbounded histories.", "anchors": ["firmware/asdf/src/main.c", "firmware/asdf/src/asdf.c", "firmware/asdf/src/asdf_keymaps.c: asdf_keymaps_select", "firmware/asdf/src/Arch/asdf_arch_atmega328p.c: asdf_arch_send_code, asdf_arch_set_neg_strobe", "firmware/asdf/src/Arch/asdf_arch_atmega2560.c: asdf_arch_send_code", "firmware/asdf/keymap_list.cmake"]}
{"id": "C108", "title": "Every call on outputs, strobe and delays, exactly, under any keymaps", "statement": "In a firmware of any sound keymaps of one size (C98), the complete sequence of calls into the board after any sequence of scans (initialisations, output and LED levels, pulses, strobe polarities, delays, characters) is exactly the one computed from the readings of each key: the moves of the keys are replayed as in C104, next to a front panel holding which device hangs on which output at which level and what the output's key does. SHIFT, locks and CAPS LOCK set their lamps, output keys set, clear, toggle or pulse all devices of the output, the latest assigned first; selecting a keyboard initialises the board and builds a new panel from its setup function, whose assignments of devices already taken or out of range are ignored; a message character is preceded by the pause last set. On either board each LED and output pin shows what the last of these calls on one of its devices asks for.", "quantifier": "every firmware of sound keymaps of one size, every sequence of matrix readings of any length, every call; both boards", "why_tests_cant": "An exact functional specification of all outward effects over all keymaps and histories.", "anchors": ["firmware/asdf/src/asdf_virtual.c", "firmware/asdf/src/asdf_physical.c", "firmware/asdf/src/asdf_modifiers.c", "firmware/asdf/src/asdf_keymaps.c", "firmware/asdf/src/asdf.c: asdf_activate_action, asdf_deactivate_action, asdf_send_code", "firmware/asdf/src/Arch/", "firmware/asdf/keymap_list.cmake"]}
{"id": "C109", "title": "Lamps show their mode and outputs their count of presses, under any keymaps", "statement": "In a firmware of any sound keymaps of one size: after any sequence of scans, each device of the selected keyboard has last been driven, since that keyboard was set up, as follows. A CAPS LOCK lamp: to the state of CAPS LOCK; a SHIFT LOCK lamp: to the state of SHIFT LOCK; in either case it may not have been driven at all, but only if no key of that mode has been pressed since. Any other output: not at all if its key was not pressed since (or has no function), else, with initial level 0 or 1, high or low for set and clear keys, the opposite of its initial level exactly after an odd number of presses for a toggle key, and its initial level after pulses.", "quantifier": "every firmware of sound keymaps of one size, every sequence of matrix readings of any length, every device of the selected keyboard", "why_tests_cant": "Parity of presses and agreement of lamps with modes over unbounded histories with keyboard selections in between, for any assignment of devices.", "anchors": ["firmware/asdf/src/asdf_virtual.c: asdf_virtual_activate, asdf_virtual_action, asdf_virtual_assign", "firmware/asdf/src/asdf_physical.c: asdf_physical_set, asdf_physical_toggle", "firmware/asdf/src/asdf_modifiers.c", "firmware/asdf/src/asdf_keymaps.c: asdf_keymaps_select", "firmware/asdf/keymap_list.cmake"]}
{"id": "C110", "title": "Under any keymaps and any computing time, the firmware in real time on either board", "statement": "Take the main loop against the clock: timer interrupts come every millisecond, computing takes any time, keys move at any moment, messages pause. A firmware of any keymaps (sound or not) on the ATmega328P or ATmega2560 board behaves exactly as the program run on the readings taken at the moments its rows were read; these moments go forward, no pass is shorter than a timer period, and every character is stamped once in the order sent. For sound keymaps of one size it never stops, and the calls, the bytes, what a host latches on either strobe edge and the level of every LED and output pin are the ones computed from those readings as in C104, C107 and C108.", "quantifier": "every list of keymaps with a keymap 0 (second part: sound, one size), every computing time for every piece of work, every motion of the keys in time, every number of passes, both boards, with interrupts in read-modify-write sequences or not", "why_tests_cant": "All keymaps, all motions of keys in time and all timings at once; tests fix a keymap and a timing.", "anchors": ["firmware/asdf/src/main.c", "firmware/asdf/src/asdf.c", "firmware/asdf/src/Arch/asdf_arch_atmega328p.c", "firmware/asdf/src/Arch/asdf_arch_atmega2560.c", "firmware/asdf/keymap_list.cmake"]}
{"id": "C111", "title": "Typing with bouncing contacts prints what is on the keys, under any keymaps", "statement": "In a firmware of any sound keymaps of one size without a message for each scan: consider any session, of any length, of waits, of mode keys going down or up, and of strokes of character keys (held for less than the autorepeat delay), where the contact that moves may read anything while it bounces as long as it is read at its old value too few times to matter (at most 9 times) and at its new value at least 10 times. What is sent is exactly the characters of the struck keys under the modes then in force, once each; the modes at the end are those the mode keys ask for, and the keys held down are those the hands hold.", "quantifier": "every firmware of sound keymaps of one size, every session as described with every pattern of bounces", "why_tests_cant": "Bounce patterns, sessions and keymaps are all unbounded.", "anchors": ["firmware/asdf/src/asdf.c: asdf_keyscan, asdf_activate_key, asdf_deactivate_key", "firmware/asdf/src/asdf_modifiers.c", "firmware/asdf/src/asdf_keymaps.c", "firmware/asdf/keymap_list.cmake"]}
{"id": "C112", "title": "Someone types in continuous time, under any keymaps and any computing time", "statement": "In a firmware of any sound keymaps of one size without a message for each scan, running against the clock with passes of at most G ms: someone waits, moves mode keys and strikes character keys (each for at most half a second), every contact bouncing for up to 7 ms and then still for at least 11 G ms. At the pass in which they are done, the host has been sent exactly the characters of the struck keys under the modes then in force, once each, in order; the modes are those asked for and the keys held are those held.", "quantifier": "every firmware of sound keymaps of one size, every computing time keeping passes within G ms for any G, every such motion of the keys in continuous time, of any length", "why_tests_cant": "A statement from finger motion in continuous time to the bytes sent, for all keymaps, timings and bounces.", "anchors": ["firmware/asdf/src/main.c", "firmware/asdf/src/asdf.c", "firmware/asdf/src/asdf_repeat.c", "firmware/asdf/src/asdf_modifiers.c", "firmware/asdf/src/Arch/", "firmware/asdf/keymap_list.cmake"]}
{"id": "C113", "title": "From fingers in continuous time to what the host latches, under any keymaps", "statement": "In a firmware of any sound keymaps of one size none of which asks for negative strobes or has a polarity key: running against the clock on either board from reset, with any computing times, a host latching on either strobe edge has at any pass latched exactly the bytes sent, each once. In particular, if someone types in continuous time as in C112, with bouncing contacts, it has latched exactly the characters of the struck keys under the modes then in force.", "quantifier": "every firmware of sound keymaps of one size with a fixed strobe, every computing time and motion of the keys in time, both boards, both edges; second part: every script as in C112", "why_tests_cant": "From finger motion in continuous time to latched bytes, for keymaps not yet written, unbounded scripts and any timing.", "anchors": ["firmware/asdf/src/main.c", "firmware/asdf/src/asdf.c", "firmware/asdf/src/asdf_keymaps.c", "firmware/asdf/src/Arch/asdf_arch_atmega328p.c: asdf_arch_send_code", "firmware/asdf/src/Arch/asdf_arch_atmega2560.c: asdf_arch_send_code", "firmware/asdf/keymap_list.cmake"]}
{"id": "C114", "title": "Rollover: with several keys down at once every character struck is sent once, in order, under any keymaps", "statement": "In a firmware of any sound keymaps of one size without a message for each scan: any number of character keys may be down at the same time, as long as no two of them carry the same character, each is read as held at most 524 times, mode keys move while no character key is down, and never more than 16 characters wait. Then the bytes sent so far, followed by the waiting ones, are exactly the characters of the accepted presses under the modes in force, once each, in the order in which they were accepted (row by row within a scan), and the modes are those the mode keys ask for. More generally the same holds whatever the modes do, as long as no character is struck that is the one struck last and not lifted since, and that one is read as held at most 524 times.", "quantifier": "every firmware of sound keymaps of one size, every sequence of readings as described, of any length, any number of keys down", "why_tests_cant": "Overlapping strokes in all orders over unbounded histories, for keymaps not yet written; the tests press one key at a time.", "anchors": ["firmware/asdf/src/asdf.c: asdf_keyscan, asdf_activate_key, asdf_deactivate_key, asdf_handle_key_held_pressed", "firmware/asdf/src/asdf_repeat.c", "firmware/asdf/src/asdf_buffer.c", "firmware/asdf/keymap_list.cmake"]}
{"id": "C115", "title": "Messages keep the pace their keyboard asks for, in real time, under any keymaps", "statement": "In a firmware of any sound keymaps of one size, running against the clock with any computing times: whenever a message waits and the selected keyboard's setup function asks for a pause of d ms (the last such call counts, modulo 256), the next pass sends the first waiting character, at least d ms after everything sent before and after the pass began, and what was behind it is still waiting in order. If every keymap asks for at least d ms, any m waiting characters of messages leave in the next m passes, in order, with nothing in between, each at least d ms after the one before.", "quantifier": "every firmware of sound keymaps of one size, every computing time and motion of the keys in time, every pass at which a message waits", "why_tests_cant": "Timing under all interrupt positions and key motions, for any keymaps and any messages.", "anchors": ["firmware/asdf/src/asdf.c: asdf_next_code, asdf_set_print_delay, asdf_putc", "firmware/asdf/src/main.c", "firmware/asdf/keymap_list.cmake"]}
{"id": "C116", "title": "However it was treated, after a short rest the keyboard is silent and then types what is struck, under any keymaps", "statement": "In a firmware of any sound keymaps of one size without a message for each scan: after any history whatever, let the keys stay as they are for 154 scans, no character key held. Then the keys are accepted as they stand, everything that waited has been sent, and as long as the keys stay, nothing is sent and neither modes, repeat state nor remembered character change. From there on anyone who, one key after the other and with bouncing contacts, moves mode keys, switches autorepeat, presses HERE IS and function keys (and lets the text run out), and strikes character keys briefly, gets exactly those texts and the characters of the struck keys under the modes in force, once each, in order; the modes, the autorepeat setting and the keys held are those asked for. The only trace of the past is the modes and the remembered character: the first keystroke must not be of that one.", "quantifier": "every firmware of sound keymaps of one size, every history of readings, every rest of at least 154 scans, every use afterwards of any length as described, every pattern of bounces", "why_tests_cant": "Recovery from arbitrary abuse over unbounded histories and unbounded later use, for keymaps not yet written.", "anchors": ["firmware/asdf/src/asdf.c: asdf_keyscan, asdf_next_code, asdf_activate_action", "firmware/asdf/src/asdf_repeat.c", "firmware/asdf/src/asdf_buffer.c", "firmware/asdf/src/asdf_hook.c", "firmware/asdf/keymap_list.cmake"]}
{"id": "C117", "title": "Recovery in continuous time, under any keymaps and any computing time", "statement": "In a firmware of any sound keymaps of one size without a message for each scan, running against the clock: whatever the keys did before a time A, and however long passes took until then, let the keys rest from A to B, no character key held, for the time of 156 passes of at most G ms. Someone who from B on waits, moves mode keys, switches autorepeat, presses HERE IS or function keys (allowing one pass for each character of the text) and strikes character keys (too briefly to repeat), every contact bouncing for up to 7 ms and then still for at least 11 G ms, has at the pass in which they are done sent exactly those texts and characters after what was sent by B, once each, in order, under the modes then in force. The modes, autorepeat and keys held are those asked for. The first character struck must not be the one still remembered for repeating.", "quantifier": "every firmware of sound keymaps of one size, every motion of the keys in continuous time before A, every computing time, every rest, every use afterwards of any length, every bounce", "why_tests_cant": "Recovery from an arbitrary past, in continuous time, for all keymaps, timings and bounces.", "anchors": ["firmware/asdf/src/main.c", "firmware/asdf/src/asdf.c", "firmware/asdf/src/asdf_repeat.c", "firmware/asdf/src/asdf_buffer.c", "firmware/asdf/src/asdf_hook.c", "firmware/asdf/src/asdf_modifiers.c", "firmware/asdf/keymap_list.cmake"]}
{"id": "C118", "title": "Any client of the public functions sees the small machine", "statement": "Power the firmware up with any keymaps and call its public functions in any order, any number of times, with any arguments (scans with any readings, key codes and message characters put in, codes asked for, keymaps registered and selected, modifiers, repeat timer, buffers, virtual and physical outputs, hooks, printing). Every value returned and every call made to the hardware is what a small machine with two bounded queues, a table of debounced keys, four registered tables and three modifier fields gives; and the session is undefined just when that machine says so, and in the same way. Only asking asdf_buffer_new for no or negative room is excepted.", "quantifier": "every firmware, every sequence of calls of any length with any arguments (buffer sizes positive)", "why_tests_cant": "All orders of all public functions with all arguments: a test plays one order.", "anchors": ["firmware/asdf/src/asdf.h", "firmware/asdf/src/asdf.c", "firmware/asdf/src/asdf_keymaps.c", "firmware/asdf/src/asdf_modifiers.c", "firmware/asdf/src/asdf_repeat.c", "firmware/asdf/src/asdf_buffer.c", "firmware/asdf/src/asdf_virtual.c", "firmware/asdf/src/asdf_physical.c", "firmware/asdf/src/asdf_hook.c", "firmware/asdf/src/asdf_print.c"]}
{"id": "C119", "title": "No client that respects the tables can break the firmware", "statement": "In a firmware of any sound keymaps, any sequence of calls to public functions whose arguments respect the tables (virtual outputs below 12, lines below 13, a registered table as long as it says and of the size all keyboards have, hook functions of the type their hook wants, rows and columns asked for within the keyboards' size, positive buffer sizes, texts that show as something) never leads to undefined behaviour, whatever the order and whatever the key switches read.", "quantifier": "every firmware of sound keymaps, every sequence of calls of any length meeting the stated argument conditions, every reading", "why_tests_cant": "Absence of undefined behaviour over all call orders.", "anchors": ["firmware/asdf/src/asdf.c", "firmware/asdf/src/asdf_keymaps.c: asdf_keymaps_add_map, asdf_keymaps_get_code", "firmware/asdf/src/asdf_virtual.c", "firmware/asdf/src/asdf_physical.c", "firmware/asdf/src/asdf_hook.c", "firmware/asdf/src/asdf_print.c", "firmware/asdf/src/asdf_buffer.c"]}
{"id": "C120", "title": "Asking changes nothing", "statement": "Asking for the number of rows or columns, the modifier index, the code of a key in any table, a registered hook function, or for a further buffer of any positive size changes nothing: put anywhere into any session, every other call returns what it returned without, and the firmware's state and everything done to the hardware are the same. (A further buffer is always refused, as the two queues take the whole pool.)", "quantifier": "every firmware, every session before and after, every such question", "why_tests_cant": "Non-interference over all sessions.", "anchors": ["firmware/asdf/src/asdf_keymaps.c: asdf_keymaps_num_rows, asdf_keymaps_num_cols, asdf_keymaps_get_code", "firmware/asdf/src/asdf_modifiers.c: asdf_modifier_index", "firmware/asdf/src/asdf_hook.c: asdf_hook_get", "firmware/asdf/src/asdf_buffer.c: asdf_buffer_new"]}
{"id": "C121", "title": "What is put comes out, after any session", "statement": "After any session of calls, however many codes and characters it left behind or dropped, ask for 144 codes; then put up to 16 key codes and message characters that take up to 128 places (a line feed takes two), in any interleaving, and ask again: all message characters come out in the order put, a carriage return before each line feed, then all key codes in the order put, then 'no code' for ever.", "quantifier": "every firmware, every session before, every interleaving of puts within the capacities, any number of further questions", "why_tests_cant": "All earlier sessions leave the ring buffers at all offsets.", "anchors": ["firmware/asdf/src/asdf.c: asdf_put_code, asdf_putc, asdf_next_code", "firmware/asdf/src/asdf_buffer.c"]}
{"id": "C122", "title": "Three calls bring back power-on", "statement": "After any session of calls, asdf_modifiers_init, asdf_set_print_delay(0) and asdf_init bring the firmware back to where it was at power-on: any further session returns the values and drives the hardware as it would after power-on, and is undefined just when it would be. The three calls themselves do nothing to the hardware but put lamps out and initialise the board. asdf_init alone is not enough.", "quantifier": "every firmware, every session before, every session after", "why_tests_cant": "Equality of behaviour over unbounded futures after unbounded pasts.", "anchors": ["firmware/asdf/src/asdf.c: asdf_init, asdf_set_print_delay", "firmware/asdf/src/asdf_modifiers.c: asdf_modifiers_init", "firmware/asdf/src/asdf_keymaps.c: asdf_keymaps_init", "firmware/asdf/src/asdf_buffer.c: asdf_buffer_init", "firmware/asdf/src/asdf_repeat.c: asdf_repeat_init"]}
{"id": "C123", "title": "What every key of the six shipped keyboards types, by rule", "statement": "In a firmware of any of the six shipped keymaps (one alone, or up to four of one size selected by DIP switches), after any session of mode-key movements, DIP switch changes and keystrokes, striking a key sends what the rule of the selected keymap makes of the character the key has without modes: CTRL goes before SHIFT and SHIFT LOCK, those before CAPS LOCK. Letters: capital under SHIFT, SHIFT LOCK and CAPS LOCK, low five bits under CTRL. Others: bit-paired SHIFT (bit 4 of 0x21 to 0x3F, bit 5 above) on the classic, Apple and Sol keyboards, typewriter SHIFT on the ACE 1000; CTRL as each keyboard has it, with the exceptions listed in the rule. Every letter has exactly one key on every keyboard. No mode moves SHIFT, SHIFT LOCK, CAPS LOCK, CTRL or a DIP switch.", "quantifier": "all six shipped keymaps, every session before, every combination of modes, every key, every stroke shorter than the autorepeat delay", "why_tests_cant": "Some 9000 combinations of key and modes after unbounded sessions; the tests check no shipped table.", "anchors": ["firmware/asdf/src/Keymaps/asdf_keymap_classic.c", "firmware/asdf/src/Keymaps/asdf_keymap_apple2.c", "firmware/asdf/src/Keymaps/asdf_keymap_sol.c", "firmware/asdf/src/Keymaps/asdf_keymap_ace1000.c", "firmware/asdf/src/asdf_keymaps.c: asdf_keymaps_get_code", "firmware/asdf/src/asdf_modifiers.c: asdf_modifier_index"]}
{"id": "C124", "title": "Which texts can be typed on the six shipped keyboards", "statement": "With any of the six shipped keymaps built alone, every text of ASCII characters outside a list of 4 to 30 codes for that keymap can be typed: there are movements of the keys after which exactly that text has been sent. Conversely whatever is done to the keys, a code of the list is never sent except as a character of a message, and no code above 127 except by the Sol-20 keymap. So not every printable character can be typed everywhere: no run of the Sol-20 keymap ever sends a brace or the bar.", "quantifier": "all six shipped keymaps, every text of any length; every run of any length for the converse", "why_tests_cant": "Existence of input for unboundedly many texts, and absence from all runs.", "anchors": ["firmware/asdf/src/Keymaps/asdf_keymap_classic.c", "firmware/asdf/src/Keymaps/asdf_keymap_apple2.c", "firmware/asdf/src/Keymaps/asdf_keymap_sol.c", "firmware/asdf/src/Keymaps/asdf_keymap_ace1000.c", "firmware/asdf/src/asdf.c", "firmware/asdf/src/asdf_modifiers.c", "firmware/asdf/src/asdf_repeat.c"]}
{"id": "C125", "title": "Rolling from key to key with bouncing contacts, whatever the keymaps", "statement": "Whatever the keymaps (no message at each scan): a typist whose contacts bounce may press the next keys before lifting the earlier ones, any number of keys being down at once and lifted in any order. If no two of the keys down have the same character, mode keys move only between words (with no character key down), every contact comes to rest (at least ten readings of the new state, at most nine of the old one), and as long as a key is down at most 525 scans pass from the beginning of one stroke to the end of the next, then every key pressed is sent once, in the order of the strokes; at most one character is still to be sent, and the next scan sends it whatever the keys do. Modes and keys held are those of the last movements.", "quantifier": "every sound set of keymaps, every rolling script of any length, any number of overlapping keys, every bouncing pattern of every contact", "why_tests_cant": "Unbounded scripts, interleavings of overlapping strokes and bouncing patterns.", "anchors": ["firmware/asdf/src/asdf.c: asdf_keyscan, asdf_handle_key_press_or_release", "firmware/asdf/src/asdf_repeat.c", "firmware/asdf/src/asdf_buffer.c", "firmware/asdf/src/asdf_keymaps.c"]}
{"id": "C126", "title": "Rolling from key to key in real time", "statement": "The same in continuous time, whatever the keymaps and however the program's computing is interrupted, rows being read at different times: if each contact bounces for at most 7 ms and then keeps still for 11 scan times, and as long as a character key is down at most half a second passes from the beginning of one stroke to the end of the next movement, then when the script ends every character struck has been sent in order, or all but the last, which the scan in progress sends.", "quantifier": "every sound set of keymaps, every course of the contacts in continuous time that follows a rolling script of any length, every pattern of interruptions within the scan time bound", "why_tests_cant": "Continuous time, all phase relations between the scans and the fingers.", "anchors": ["firmware/asdf/src/main.c", "firmware/asdf/src/asdf.c: asdf_keyscan", "firmware/asdf/src/asdf_repeat.c", "firmware/asdf/src/Arch/asdf_arch_atmega328p.c: asdf_arch_tick", "firmware/asdf/src/Arch/asdf_arch_atmega328p.c: asdf_arch_read_row"]}
{"id": "C127", "title": "How soon a keystroke is answered", "statement": "Whatever the keymaps (no message at each scan), in continuous time: in any rolling script of bouncing strokes, with passes of the main loop of at most G ms, each character is put on the output lines after the contact of its key begins to move and at most 7 + 12 G ms later (19 ms with passes of 1 ms), each once, in the order of the strokes.", "quantifier": "every sound set of keymaps, every course of the contacts in continuous time that follows a rolling script of any length, every pattern of interruptions within the pass bound, every stroke", "why_tests_cant": "A bound on the delay of every stroke of unbounded scripts over all phase relations.", "anchors": ["firmware/asdf/src/main.c", "firmware/asdf/src/asdf.c: asdf_keyscan, asdf_handle_key_press_or_release, asdf_next_code", "firmware/asdf/src/asdf_config.h: ASDF_DEBOUNCE_TIME_MS", "firmware/asdf/src/Arch/asdf_arch_atmega328p.c: asdf_arch_tick, asdf_arch_send_code"]}
{"id": "C128", "title": "Holding a key repeats it, and only the key struck last", "statement": "Whatever the keymaps (no message at each scan): in a rolling script with bouncing contacts (as in the rolling property) the key struck last may moreover be held for any number of scans while other keys stay down, and once it is lifted the other keys may stay down for any number of scans. Every key pressed is sent once, in the order of the strokes; a held key is sent again after 525 readings of its closed contact and after every 66 further ones, so that the number of repeats lies between that for the readings of the steady hold and that for all scans of the stroke; keys other than the one struck last are never repeated, however long they are down. At most one character is still to be sent, and the next scan sends it.", "quantifier": "every sound set of keymaps, every script of any length, holds of any length, any number of other keys down, every bouncing pattern of every contact", "why_tests_cant": "Unbounded holds and scripts, and the absence of repeats of other keys for ever.", "anchors": ["firmware/asdf/src/asdf_repeat.c: asdf_repeat", "firmware/asdf/src/asdf.c: asdf_keyscan, asdf_handle_key_held_pressed, asdf_activate_key, asdf_deactivate_key", "firmware/asdf/src/asdf_config.h: ASDF_AUTOREPEAT_TIME_MS, ASDF_REPEAT_TIME_MS"]}
{"id": "C129", "title": "Holding a key in real time", "statement": "The same in continuous time, whatever the keymaps and however the program's computing is interrupted: a key held from its stroke at time b, steady from a to m and lifted by d, with passes of the main loop of at most G ms, is repeated at least as often as (m - a) / G - 1 readings give and at most as often as d - b + 2 readings give (first after 525, then every 66), so never within the first 523 ms; everything struck is sent in order.", "quantifier": "every sound set of keymaps, every course of the contacts in continuous time that follows a script of any length with holds of any length, every pattern of interruptions within the pass bound", "why_tests_cant": "Continuous time, unbounded holds, all phase relations between scans and fingers.", "anchors": ["firmware/asdf/src/main.c", "firmware/asdf/src/asdf_repeat.c: asdf_repeat", "firmware/asdf/src/asdf.c: asdf_keyscan, asdf_handle_key_held_pressed", "firmware/asdf/src/Arch/asdf_arch_atmega328p.c: asdf_arch_tick"]}
{"id": "C130", "title": "Message keys among typing, holding and mode keys", "statement": "Whatever the keymaps (no message at each scan): into a script of overlapping, held and bouncing strokes (as in C128) HERE IS and function keys may be put wherever no character key is down. Each prints the message that the keymap selected at that moment registered for it, up to 128 characters, a doubled percent sign shown once and a line feed preceded by a carriage return, characters of 0xA0 and above left out; nothing is dropped if the keys keep still for as many scans as the message has characters. The output is exactly the characters struck, their repeats and the messages, in the order of the keys; holding a message key does not repeat it, and releasing it does nothing. At most one character is still to be sent, and the next scan sends it.", "quantifier": "every sound set of keymaps, every message, every script of any length, every bouncing pattern of every contact", "why_tests_cant": "Unbounded scripts mixing messages, modes, overlapping and held keys.", "anchors": ["firmware/asdf/src/asdf.c: asdf_activate_action, asdf_next_code, asdf_putc", "firmware/asdf/src/asdf_print.c", "firmware/asdf/src/asdf_hook.c: asdf_hook_execute", "firmware/asdf/src/asdf_repeat.c", "firmware/asdf/src/asdf_buffer.c"]}
{"id": "C131", "title": "Message keys among typing, holding and mode keys, in real time", "statement": "The same in continuous time, whatever the keymaps and however the program's computing is interrupted. The passes may be slow while a message goes out (each character waits for the pause the keymap asks for) and fast elsewhere: in each stretch of the script the contacts keep still for 11 times the longest pass under way in that stretch, and a message of k characters is given (k + 1) such times after its key has settled. When the script ends everything has been sent in order, or all but the last character, which the pass under way sends.", "quantifier": "every sound set of keymaps, every course of the contacts in continuous time that follows such a script of any length, every pattern of interruptions and pauses", "why_tests_cant": "Continuous time, unbounded scripts, passes of different length.", "anchors": ["firmware/asdf/src/main.c", "firmware/asdf/src/asdf.c: asdf_keyscan, asdf_next_code, asdf_set_print_delay", "firmware/asdf/src/asdf_print.c", "firmware/asdf/src/Arch/asdf_arch_atmega328p.c: asdf_arch_tick, asdf_arch_delay_ms", "firmware/asdf/src/Arch/asdf_arch_atmega2560.c: asdf_arch_tick, asdf_arch_delay_ms"]}
{"id": "C132", "title": "From fingers to the connector: all kinds of strokes, real time, both boards, any keymaps", "statement": "In a firmware of any sound keymaps of one size without a message at each scan none of which asks for negative strobes or has a polarity key, started from reset on either board with any computing times: someone rolls over keys, holds them, moves mode keys and calls up messages in continuous time with bouncing contacts (as in C131). Then a host latching on either strobe edge has latched exactly the characters struck, their repeats and the messages, each once, in order, by the end of the pass under way when the script ends; at its beginning it lacks at most the last character.", "quantifier": "every such set of keymaps, both boards, both strobe edges, every state of the hardware at reset, every course of the contacts in continuous time that follows such a script of any length, every pattern of interruptions and pauses", "why_tests_cant": "The whole way from contacts to pins over continuous time and unbounded scripts.", "anchors": ["firmware/asdf/src/main.c", "firmware/asdf/src/asdf.c", "firmware/asdf/src/asdf_repeat.c", "firmware/asdf/src/asdf_print.c", "firmware/asdf/src/Arch/asdf_arch_atmega328p.c: asdf_arch_send_code, asdf_arch_read_row, asdf_arch_tick", "firmware/asdf/src/Arch/asdf_arch_atmega2560.c: asdf_arch_send_code, asdf_arch_read_row, asdf_arch_tick"]}
{"id": "C133", "title": "When keystrokes are lost, under any keymaps", "statement": "Whatever the keymaps and the readings. Count the codes waiting and the message characters waiting: each scan takes one away, message characters first, then adds what it types (presses of character keys, repeats that are due) and calls up (messages, in full). As long as the counts stay within 16 and 128 (and no message contains the code 0xA0) nothing is lost: what is sent, together with what still waits, is a shuffle of all codes typed and all message characters called up, each kind complete and in order. Without messages this is exact: what was typed, followed by 16 scans without typing, is all sent if and only if no n scans in a row typed more than n + 15 codes; otherwise fewer codes are sent than were typed.", "quantifier": "every sound set of keymaps of one size, every sequence of matrix readings of any length", "why_tests_cant": "An equivalence over all sequences of readings; losses need bursts no test tries.", "anchors": ["firmware/asdf/src/asdf_buffer.c: asdf_buffer_put, asdf_buffer_get", "firmware/asdf/src/asdf.c: asdf_next_code, asdf_activate_key, asdf_putc, asdf_keyscan", "firmware/asdf/src/asdf_config.h: ASDF_KEYCODE_BUFFER_SIZE, ASDF_MESSAGE_BUFFER_SIZE"]}
{"id": "C134", "title": "How long a code waits, under any keymaps", "statement": "Whatever the keymaps and whatever was done before: in the following scans, no more than there are message characters and codes waiting, and as long as no further message is called up, exactly one of them leaves per scan, the waiting message first and then the codes in their order, whatever is typed meanwhile. So a code with p codes and m message characters before it is sent in the (m + p + 1)-th following scan, never earlier or later.", "quantifier": "every sound set of keymaps of one size, every sequence of readings before and after, of any length", "why_tests_cant": "Exact delays after arbitrary histories.", "anchors": ["firmware/asdf/src/asdf.c: asdf_next_code", "firmware/asdf/src/asdf_buffer.c: asdf_buffer_get", "firmware/asdf/src/main.c"]}
{"id": "C135", "title": "With autorepeat off every key is typed exactly once, under any keymaps", "statement": "Whatever the keymaps and the readings: REPEAT has not been pressed, and the last move of an autorepeat key or switch turned autorepeat off. From then on, for as long as neither REPEAT nor autorepeat is pressed, the codes typed are exactly those of the accepted presses, one for each, in order, however long keys are held and in whatever combinations; if there is room (C133) and no message, the host gets exactly these, each once.", "quantifier": "every sound set of keymaps of one size, every sequence of readings before and after, of any length", "why_tests_cant": "Keys held for ever, in all combinations.", "anchors": ["firmware/asdf/src/asdf_repeat.c: asdf_repeat_auto_off, asdf_repeat_reset_count, asdf_repeat", "firmware/asdf/src/asdf.c: asdf_handle_key_held_pressed, asdf_activate_key"]}
{"id": "C136", "title": "All functions of the device modules, in any order", "statement": "From the initialisation of the outputs on, a client may make any calls of the virtual and physical output functions in any order: assign, act on, activate and synchronise virtual outputs, initialise them all again, set, switch, toggle and assert physical outputs directly, allocate a physical output directly (asdf_physical_allocate, with any number as its tail), ask whether one is available and what follows it. No call fails or runs for ever, each drives exactly the values the small specification says, and the answers are: allocation succeeds exactly when the output exists and is neither assigned nor allocated; it is reported available under the same condition; an output allocated directly is driven by no virtual output and cannot be assigned; the successor of an assigned output is the next in its owner's list, that of an allocated one the number it was given. asdf_physical_init alone does not have these guarantees: afterwards a virtual output drives physical outputs never assigned to it.", "quantifier": "every sequence of calls of any length, every argument (output numbers of the direct drive functions within the enumeration), every earlier state of the tables", "why_tests_cant": "Linked lists in a shared table under arbitrary sequences of mutations and direct allocations.", "anchors": ["firmware/asdf/src/asdf_physical.c: asdf_physical_allocate, physical_device_is_available, asdf_physical_next_device, asdf_physical_set, asdf_physical_toggle, asdf_physical_init", "firmware/asdf/src/asdf_virtual.c"]}
{"id": "C137", "title": "Buffers initialised again start afresh", "statement": "From power-on, before any initialisation, and with asdf_buffer_init anywhere among the calls of the buffer functions (sizes not negative): the answers are those of bounded queues, and the answers after an initialisation are those of a machine just switched on, whatever was left in the buffers; handles handed out before are invalid until as many buffers have been made again.", "quantifier": "every sequence of calls of any length with initialisations anywhere, every handle", "why_tests_cant": "The initialisation leaves the pool and the descriptors as they are; that no old code resurfaces has to hold after every history.", "anchors": ["firmware/asdf/src/asdf_buffer.c"]}
{"id": "C138", "title": "How fast keys can repeat, whatever is held and moved, under any keymaps", "statement": "Whatever the keymaps, the history and the readings: let at most d keys bear the same character (in any modes of any keyboard). In any stretch of n scans in which k accepted key movements occur, the characters of any chosen kind are typed at most once for each of their keys struck plus (d (n + k) + 65) / 66 times, and no more of them are sent. So with distinct characters a keyboard never repeats faster than every 66th scan, however keys, mode keys and REPEAT are moved and held. The number d matters: two keys with the same character repeat twice as fast when held together. Consequence: with at most 8 keys of the same code and no messages, someone who never makes more than n/2 + 12 key movements in n scans loses nothing: what is sent and what waits is everything typed, in order.", "quantifier": "every sound set of keymaps, every kind of characters, every sequence of readings before and in the stretch, of any length", "why_tests_cant": "A bound over all ways of holding and moving any number of keys.", "anchors": ["firmware/asdf/src/asdf_repeat.c: asdf_repeat, asdf_repeat_reset_count, asdf_repeat_activate, asdf_repeat_auto_on", "firmware/asdf/src/asdf.c: asdf_handle_key_held_pressed, asdf_activate_key, asdf_deactivate_key", "firmware/asdf/src/asdf_buffer.c: asdf_buffer_put"]}
{"id": "C139", "title": "Only keys with a function, inside the matrix, can influence what the keyboard does, under any keymaps", "statement": "Take any firmware whose keymaps all have the same size. Call a key live unless its code in every mode of every keyboard is ACTION_FN_11 (which asdf.c gives no case) or above the last action code. Two sequences of scans of the same length in which every live key of the matrix reads the same, whatever the other keys and the bits beside the matrix read, make exactly the same calls on the hardware: same codes, outputs, strobes and delays in the same order. The same is false of keys marked ACTION_NOTHING: pressing one ends the repeat of a held key.", "quantifier": "all keymaps and keyboard tables of one size, all sets of live keys, all pairs of scan sequences alike on them, of any length", "why_tests_cant": "Independence of two infinite families of inputs is a statement about pairs of runs; a test compares finitely many pairs.", "anchors": ["firmware/asdf/src/asdf.c: asdf_keyscan, asdf_activate_action, asdf_deactivate_action, asdf_activate_key, asdf_deactivate_key, asdf_handle_key_held_pressed"]}
{"id": "C140", "title": "Up to nine stray readings of a key are never noticed, and nothing but the debounced keys matters, under any keymaps", "statement": "Take any firmware whose keymaps all have the same size. If two scan sequences of equal length make the firmware take the same keys for pressed after every scan, and read alike the keys that stay pressed, then both runs make exactly the same calls on the hardware. In particular keys that are read closed at most nine times in the whole run, however these readings are spread, have no influence on anything: the run makes the same calls as with any other such readings, for example none. Ten readings, no two of them in succession and with any number of open readings between, do type the key.", "quantifier": "all keymaps and keyboard tables of one size, all sets of keys with stray readings, all pairs of scan sequences of any length", "why_tests_cant": "A statement about pairs of runs and all placements of spikes in time, in all states of the rest of the keyboard; the unit tests feed clean readings only.", "anchors": ["firmware/asdf/src/asdf.c: asdf_keyscan, asdf_handle_key_press_or_release, asdf_handle_key_held_pressed", "firmware/asdf/src/asdf_config.h: ASDF_DEBOUNCE_TIME_MS"]}
{"id": "C141", "title": "Keymaps that describe the same keyboards cannot be told apart", "statement": "Two firmwares with the same numbers of keyboards behave the same on every sequence of scans - same calls on the hardware in the same order - if corresponding setup functions give every key of the matrix the same code in each of the four tables, register messages that show the same under each hook, and have the same lines for outputs, print delay, CAPS LOCK and strobe in the same order. In particular two neighbouring lines of a setup function that register different tables or hooks, or one of which registers a table or hook and the other does not, can be exchanged. It is false for the lines that concern outputs and CAPS LOCK: a lamp assigned after CAPS LOCK was toggled is not lit.", "quantifier": "all pairs of sound firmwares with keymaps of one size that agree in the sense stated, all scan sequences of any length", "why_tests_cant": "Equivalence of programs over all inputs; a test compares two given keymaps on given inputs.", "anchors": ["firmware/asdf/src/asdf_keymaps.c: asdf_keymaps_add_map, asdf_keymaps_get_code, asdf_keymaps_select_keymap", "firmware/asdf/src/asdf_hook.c: asdf_hook_assign, asdf_hook_execute", "firmware/asdf/src/Keymaps/"]}
{"id": "C142", "title": "Typing with the REPEAT key and the autorepeat key, under any keymaps", "statement": "In every typing session in which one key at a time moves (character keys for ten scans or more, mode keys, REPEAT and the autorepeat key held or not meanwhile), what is sent is exactly this: a character key held for h scans is sent 1 + (h - 10) / 66 times while REPEAT is in force; otherwise, with autorepeat on, once if h < 535 and 2 + (h - 535) / 66 times from there; otherwise once. REPEAT comes into force when its key is pressed, unless autorepeat is on and the key typed last was held for 469 scans or more with neither REPEAT nor the autorepeat key moved since; it ends when its key is released. That REPEAT is always obeyed is false: after a key held for 470 scans it is ignored.", "quantifier": "all keymaps of one size without a message at every scan, all sessions of any length, all holding times", "why_tests_cant": "Unbounded sessions and holding times over all keymaps; the tests of the repeat module call its functions directly and never type a key before.", "anchors": ["firmware/asdf/src/asdf_repeat.c: asdf_repeat_activate, asdf_repeat_deactivate, asdf_repeat_auto_on, asdf_repeat_auto_off, asdf_repeat_reset_count, asdf_repeat", "firmware/asdf/src/asdf.c: asdf_activate_key, asdf_handle_key_held_pressed, asdf_activate_action, asdf_deactivate_action"]}
{"id": "C143", "title": "Exactly which characters and texts a firmware of any keymaps can send", "statement": "Take any firmware with keymaps of one size and no message at every scan. Press and release keys for SHIFT, SHIFT LOCK, CAPS LOCK, CTRL and keyboard selection one after the other in any way: in the modes this leads to, every text made of characters on the keys can be typed, that is, some sequence of scans sends exactly this text. If moreover every key changes modes in all tables or in none, nothing else can be sent: a character that occurs in no message is sent in some run, whatever keys are moved together and however contacts behave, if and only if it is on a key in modes that are reached one key at a time. The condition on the keys cannot be dropped: a key that is SHIFT in one table and a character in another types a character that no such key leads to.", "quantifier": "all sound firmwares with keymaps of one size, all texts of any length, all characters, all scan sequences (both as witness and as adversary)", "why_tests_cant": "Which characters no input whatsoever can produce is a statement about all inputs; that a given text can be produced needs a run found for each text.", "anchors": ["firmware/asdf/src/asdf_keymaps.c: asdf_keymaps_get_code, asdf_keymaps_select_keymap", "firmware/asdf/src/asdf_modifiers.c: asdf_modifier_shift_activate, asdf_modifier_index", "firmware/asdf/src/asdf.c: asdf_keyscan, asdf_activate_key, asdf_activate_action, asdf_deactivate_action"]}
{"id": "C144", "title": "Repeating, for every setting of the repeat times in asdf_config.h", "statement": "Let the autorepeat time A and the repeat time P be any two different positive numbers that fit an int, and let autorepeat be on or off at power-on. After any sequence of calls of the repeat module, with REPEAT not held: from the next restart of the count on the timer reports repeats at calls A, A + P, A + 2P, ... if autorepeat was selected last (or is the default), and never otherwise; REPEAT pressed while autorepeat is off gives repeats at P, 2P, 3P, ... With the shipped settings this is the module as shipped. The conditions matter: with A = P turning autorepeat off is not obeyed; with P = 0 (a rate above 1000 per second) a held key is repeated once and never again; with A <= P the REPEAT key does nothing at all while autorepeat is on.", "quantifier": "all settings of ASDF_AUTOREPEAT_TIME_MS, ASDF_REPEAT_TIME_MS and ASDF_DEFAULT_REPEAT_STATE, all histories of calls of any length", "why_tests_cant": "The settings are compiled in: a test covers one setting at a time, and all histories for none.", "anchors": ["firmware/asdf/src/asdf_config.h: ASDF_AUTOREPEAT_TIME_MS, ASDF_REPEAT_TIME_MS, ASDF_DEFAULT_REPEAT_STATE", "firmware/asdf/src/asdf_repeat.c: repeat_state_t, asdf_repeat_init, asdf_repeat_reset_count, asdf_repeat_auto_off, asdf_repeat_auto_on, asdf_repeat_activate, asdf_repeat_deactivate, asdf_repeat"]}
{"id": "C145", "title": "Debouncing, for every debounce time in asdf_config.h", "statement": "For every debounce time t and every size of the matrix: in each scan the keys activated and deactivated are, row by row and column by column, exactly those for which the number of readings that differ from the accepted state since it last changed reaches d, where d is t modulo 256, or 256 if that is 0. Fewer differing readings never change anything, however they are spread; other keys have no influence. With the shipped time these are the transitions on which the other properties rest (C100). A debounce time of 0 does not switch debouncing off: it takes 256 readings; a time of 300 takes 44.", "quantifier": "all settings of ASDF_DEBOUNCE_TIME_MS, all sizes of the matrix, all sequences of readings of any length", "why_tests_cant": "The setting is compiled in, and the statement is about all patterns of readings of all keys at once.", "anchors": ["firmware/asdf/src/asdf_config.h: ASDF_DEBOUNCE_TIME_MS", "firmware/asdf/src/asdf.c: asdf_keyscan, asdf_handle_key_press_or_release, asdf_init"]}
{"id": "C146", "title": "What the message keys of the six shipped keyboards print, letter for letter", "statement": "With any choice of up to four shipped keyboards of one size: if in a scan one key is accepted as pressed or released, with at most one character of an earlier message waiting, then the text that goes out next, whole and before anything else whatever keys are moved meanwhile, is: with CTRL, [Keymap: classic] and a new line for key (6,5) of the classic and classic caps keyboards, [Keymap: Apple 2 (u/l case)] and [Keymap: Apple 2 CAPS] for that key of the Apple keyboards, and a one-line BASIC program that shows key codes for key (6,6) of the classic keyboards and (7,5) of the Apple II; nothing for every other key, for every release, and without CTRL. The Sol-20 and the ACE 1000 register messages but never print one, whatever is typed.", "quantifier": "all choices of shipped keyboards of one size, all histories, all keys, all continuations; for the Sol-20 and the ACE 1000 all scan sequences", "why_tests_cant": "All histories and continuations; that a message is never printed is about all inputs.", "anchors": ["firmware/asdf/src/Keymaps/asdf_keymap_classic.c: classic_id_message", "firmware/asdf/src/Keymaps/asdf_keymap_apple2.c: apple2_id_message", "firmware/asdf/src/Keymaps/asdf_keymap_apple2_add_map.c: applesoft_keyboard_test", "firmware/asdf/src/Keymaps/asdf_keymap_sol.c: sol_id_message", "firmware/asdf/src/Keymaps/asdf_keymap_ace1000.c: asdf_keymap_ace1000", "firmware/asdf/src/asdf.c: asdf_print, asdf_activate_action", "firmware/asdf/src/asdf_hook.c: asdf_hook_execute"]}
{"id": "C147", "title": "The identifying message tells which keyboard is in use", "statement": "The texts with which the keyboards identify themselves are different, so that the host can tell which keyboard is selected. This is false: classic and classic caps print the same text, and the Sol-20 and the ACE 1000 none. Among the four that print one, any two others are told apart, whatever follows the text.", "quantifier": "all pairs of shipped keyboards that print an identifying text, all texts that follow", "why_tests_cant": "All continuations of the text; the tests do not look at the keymaps' messages.", "anchors": ["firmware/asdf/src/Keymaps/asdf_keymap_classic_caps.c: classic_caps_id_message", "firmware/asdf/src/Keymaps/asdf_keymap_classic.c: classic_id_message", "firmware/asdf/src/Keymaps/asdf_keymap_apple2_caps.c: apple2_caps_id_message"]}
{"id": "C148", "title": "Buffers, for every setting of their sizes and number", "statement": "For every pool of up to 32767 places and every number of buffers up to 127: all calls of the buffer module in which no buffer of more than 255 places is requested are answered as by bounded queues, requests being granted exactly if there is a free buffer and room. Larger buffers never lead to undefined behaviour, but are queues that the 256th waiting code empties. So 256 codes put one after the other into a buffer of 256 places or more are all lost. With the shipped settings this is the module of C01.", "quantifier": "all settings of ASDF_BUFFER_POOL_SIZE and ASDF_BUFFER_NUM_HANDLES, all sizes requested, all sequences of calls of any length", "why_tests_cant": "The settings are compiled in: a test covers one setting, and no test fills a buffer of 256 places.", "anchors": ["firmware/asdf/src/asdf_config.h: ASDF_KEYCODE_BUFFER_SIZE, ASDF_MESSAGE_BUFFER_SIZE, ASDF_BUFFER_POOL_SIZE", "firmware/asdf/src/asdf_buffer.h: ASDF_BUFFER_NUM_HANDLES", "firmware/asdf/src/asdf_buffer.c: asdf_buffer_new, asdf_buffer_put, asdf_buffer_get"]}
{"id": "C149", "title": "What the keys of the six shipped keyboards do to lamps and output lines", "statement": "With any choice of the shipped keymaps of one size on the DIP switch settings, the calls on lamps, output lines and strobe polarity are, in order, exactly these: at power-on and whenever another keyboard is selected the initialisation, and the CAPS lamp of the Apple II, Sol-20 and ACE 1000, which invert CAPS LOCK; for each other accepted press or release what the function of the key asks for: CTRL RESET a short low pulse, SHIFT CLEAR and the Sol-20's BREAK a long pulse, LOCAL inverts its lamp and line, CAPS LOCK, SHIFT LOCK and SHIFT their lamps, the strobe switch the polarity; all other keys nothing. That each keymap has a key for the RESET and CLEAR outputs it assigns is false: no key of the ACE 1000 ever moves them.", "quantifier": "all choices of up to four of the six keymaps of one size, all scan sequences of any length with any readings", "why_tests_cant": "All orders and combinations of keys and modes over any time; the tests use keymaps of their own.", "anchors": ["firmware/asdf/src/Keymaps/asdf_keymap_sol.c: setup_sol_keymap", "firmware/asdf/src/Keymaps/asdf_keymap_ace1000.c: setup_ace1000_keymap", "firmware/asdf/src/Keymaps/asdf_keymap_classic.c: setup_classic_keymap", "firmware/asdf/src/Keymaps/asdf_keymap_apple2.c: setup_apple2_keymap", "firmware/asdf/src/asdf.c: asdf_activate_action, asdf_deactivate_action", "firmware/asdf/src/asdf_virtual.c: asdf_virtual_activate, asdf_virtual_action"]}
{"id": "C150", "title": "Keymaps that are never selected make no difference", "statement": "Take two firmwares with the same keymap on setting 0, the first with tables of one size. As long as the mode switches ask only for settings at which both have the same keymap, or both none, they behave alike: every call, every character sent, the selected keyboard, the modes and the accepted keys are the same, whatever the second has on its other settings. So while DIP switches 2 and 3 are open, the shipped firmware, though it carries two keymaps too many for its table, never misbehaves, whatever is typed, and works lamps and output lines as stated in C149 for its first four keymaps. Closing switch 2 can end this: keys are then looked up outside the table of keymaps (C151).", "quantifier": "all pairs of firmwares as described, all scan sequences of any length; for the shipped firmware all scan sequences in which switches 2 and 3 are not accepted as closed", "why_tests_cant": "A relation between two firmwares over all histories; a test runs one firmware on one history.", "anchors": ["firmware/asdf/src/asdf_keymaps.c: asdf_keymaps_select, asdf_keymaps_map_select_0_set, asdf_keymaps_map_select_0_clear", "firmware/asdf/src/asdf.c: asdf_activate_action, asdf_deactivate_action, asdf_keyscan"]}
{"id": "C151", "title": "Exactly when the shipped firmware leaves defined behaviour", "statement": "The shipped firmware never misbehaves as long as DIP switch 2 is not accepted as closed while keyboard 0 or 1 is selected: keyboards 0 to 3 stay selected and it behaves in every call as the firmware of its first four keymaps, whatever the other keys and switches do, switch 3 and switch 2 at other times included. From that moment on, keyboard 4 or 5 is selected and every key that is looked up is read outside the table of keymaps; at the latest ten scans later this has happened, whatever is read, even if the switch is opened at once. Ten is sharp.", "quantifier": "all scan sequences of any length with any readings, all continuations of at least ten scans", "why_tests_cant": "That undefined behaviour is unavoidable, and that nothing else leads to it, is about all inputs; on a PC the read beyond the table goes unnoticed.", "anchors": ["firmware/asdf/src/asdf_keymaps.c: asdf_keymaps_select, asdf_keymaps_map_select_2_set, asdf_keymaps_get_code, keymaps[]", "firmware/asdf/src/asdf.c: asdf_keyscan, asdf_lookup_keycode, asdf_handle_key_press_or_release", "firmware/asdf/src/asdf_config.h: ASDF_DEBOUNCE_TIME_MS"]}
