{
 "claims": [
  {
   "property": "C01",
   "status": "proved",
   "theorems": [
    "C01_stack_words",
    "C01_pick",
    "C01_depth"
   ],
   "note": ""
  },
  {
   "property": "C02",
   "status": "proved",
   "theorems": [
    "C02_lifo",
    "C02_lifo_from"
   ],
   "note": ""
  },
  {
   "property": "C03",
   "status": "proved",
   "theorems": [
    "C03_no_false_alarm"
   ],
   "note": ""
  },
  {
   "property": "C04",
   "status": "proved",
   "theorems": [
    "C04_alarm"
   ],
   "note": "Depth -128 is indistinguishable from 128 and is reported as overflow; an underflow after an earlier overflow may be reported as overflow. Both are spelled out in the statement."
  },
  {
   "property": "C05",
   "status": "partial",
   "theorems": [
    "C05_underflow_detected_refuted",
    "C05_underflow_detected_partial"
   ],
   "note": "The full statement is false of the code: dup on an empty stack and over on one cell are not reported (refuted with witnesses). Proved part: every word of the shrinking group that takes the depth below zero is reported."
  },
  {
   "property": "C06",
   "status": "proved",
   "theorems": [
    "C06_arithmetic"
   ],
   "note": ""
  },
  {
   "property": "C07",
   "status": "proved",
   "theorems": [
    "C07_division",
    "C07_division_by_zero"
   ],
   "note": ""
  },
  {
   "property": "C08",
   "status": "proved",
   "theorems": [
    "C08_bitwise",
    "C08_shifts"
   ],
   "note": ""
  },
  {
   "property": "C09",
   "status": "proved",
   "theorems": [
    "C09_comparisons"
   ],
   "note": ""
  },
  {
   "property": "C10",
   "status": "proved",
   "theorems": [
    "C10_store",
    "C10_fetch",
    "C10_store_out_of_range",
    "C10_fetch_out_of_range",
    "C10_cell_unique"
   ],
   "note": "The first address of the data space is refused by @ and !; stated in the theorems."
  },
  {
   "property": "C11",
   "status": "proved",
   "theorems": [
    "C11_c_store",
    "C11_c_fetch",
    "C11_out_of_range"
   ],
   "note": ""
  },
  {
   "property": "C12",
   "status": "proved",
   "theorems": [
    "C12_move",
    "C12_move_nothing",
    "C12_move_out_of_range"
   ],
   "note": ""
  },
  {
   "property": "C13",
   "status": "partial",
   "theorems": [
    "C13_memory_safety_refuted",
    "C13_memory_safety_partial"
   ],
   "note": "False of the code as stated (refuted: -8 @ and 0 -8 ! leave the data space in release builds and panic in debug builds; f@ just below an unaligned limit). Proved part: c@ c! always; @ ! f@ f! move whenever the end address does not exceed 2^64 (and the limit is 8-aligned for floats)."
  },
  {
   "property": "C14",
   "status": "proved",
   "theorems": [
    "C14_here_inside",
    "C14_word_keeps_here_inside"
   ],
   "note": ""
  },
  {
   "property": "C15",
   "status": "proved",
   "theorems": [
    "C15_comma",
    "C15_string"
   ],
   "note": ""
  },
  {
   "property": "C16",
   "status": "partial",
   "theorems": [
    "C16_allot_refuted",
    "C16_allot_partial"
   ],
   "note": "False of the code: an allot that does not fit is silently ignored (refuted). Proved: exact movement in range; out of range nothing changes."
  },
  {
   "property": "C17",
   "status": "proved",
   "theorems": [
    "C17_aligned_to",
    "C17_aligned",
    "C17_align"
   ],
   "note": ""
  },
  {
   "property": "C18",
   "status": "proved",
   "theorems": [
    "C18_find",
    "C18_find_answers",
    "C18_booted",
    "C18_definitions"
   ],
   "note": "For every dictionary reachable from the freshly loaded system by definitions with anything in between that leaves names and marker data alone. Programs that overwrite names in memory are outside (see C63)."
  },
  {
   "property": "C19",
   "status": "proved",
   "theorems": [
    "C19_invisible_until_semicolon",
    "C19_early_binding"
   ],
   "note": "Early binding: no defining or finishing word changes an older word or the memory below the old here."
  },
  {
   "property": "C20",
   "status": "proved",
   "theorems": [
    "C20_marker_restores"
   ],
   "note": "Provided later programs do not overwrite the names or the marker's saved data and the marker is still a marker (does> right after it would change it)."
  },
  {
   "property": "C21",
   "status": "proved",
   "theorems": [
    "C21_find_xt",
    "C21_increasing"
   ],
   "note": ""
  },
  {
   "property": "C22",
   "status": "partial",
   "theorems": [
    "C22_marker_refuted",
    "C22_fconstant_refuted",
    "C22_nameless_partial"
   ],
   "note": "False of the code (refuted): marker and fconstant without a name raise -39, but when the handler returns they still compile their data (520 and 8 bytes). Proved for : create constant."
  },
  {
   "property": "C23",
   "status": "proved",
   "theorems": [
    "C23_unbalanced_rejected",
    "C23_balanced_accepted",
    "C23_word_fits_or_raises",
    "C23_raises_only_misfits",
    "C23_semicolon_interprets"
   ],
   "note": "The stacks are checked after every word, as the text interpreter does; every word has 40 free bytes of data space. What the handler does with the exception is C41-C43."
  },
  {
   "property": "C24",
   "status": "proved",
   "theorems": [
    "C24_if_else_compiles",
    "C24_if_then_compiles",
    "C24_if_else_runs",
    "C24_if_then_runs",
    "C24_every_nesting",
    "C24_reaching_is_running"
   ],
   "note": ""
  },
  {
   "property": "C25",
   "status": "proved",
   "theorems": [
    "C25_until_compiles",
    "C25_while_compiles",
    "C25_again_compiles",
    "C25_until_runs",
    "C25_while_runs",
    "C25_again_runs"
   ],
   "note": ""
  },
  {
   "property": "C26",
   "status": "proved",
   "theorems": [
    "C26_do_compiles",
    "C26_do_loop_runs",
    "C26_index"
   ],
   "note": ""
  },
  {
   "property": "C27",
   "status": "proved",
   "theorems": [
    "C27_loop_round",
    "C27_crosses_is_crossing"
   ],
   "note": ""
  },
  {
   "property": "C28",
   "status": "proved",
   "theorems": [
    "C28_skip",
    "C28_enter",
    "C28_leave",
    "C28_unloop",
    "C28_outer_index"
   ],
   "note": ""
  },
  {
   "property": "C29",
   "status": "proved",
   "theorems": [
    "C29_case_compiles",
    "C29_case_runs"
   ],
   "note": ""
  },
  {
   "property": "C30",
   "status": "proved",
   "theorems": [
    "C30_goto_reaches_label",
    "C30_label_has_one_place",
    "C30_accepted_definition",
    "C30_pending_label_rejected",
    "C30_label_twice_rejected",
    "C30_label_range",
    "C30_goto_succeeds",
    "C30_label_succeeds",
    "C30_call_pushes_return_address"
   ],
   "note": ""
  },
  {
   "property": "C31",
   "status": "proved",
   "theorems": [
    "C31_call",
    "C31_call_and_return",
    "C31_recurse"
   ],
   "note": ""
  },
  {
   "property": "C32",
   "status": "proved",
   "theorems": [
    "C32_integer_compiles",
    "C32_integer_runs",
    "C32_float_compiles",
    "C32_float_runs",
    "C32_text_runs"
   ],
   "note": ""
  },
  {
   "property": "C33",
   "status": "proved",
   "theorems": [
    "C33_next_word",
    "C33_words",
    "C33_one_reading"
   ],
   "note": ""
  },
  {
   "property": "C34",
   "status": "proved",
   "theorems": [
    "C34_parse",
    "C34_comments",
    "C34_determined"
   ],
   "note": ""
  },
  {
   "property": "C35",
   "status": "proved",
   "theorems": [
    "C35_interpreted",
    "C35_compiled",
    "C35_refused"
   ],
   "note": ""
  },
  {
   "property": "C36",
   "status": "partial",
   "theorems": [
    "C36_round_trip",
    "C36_all_widths_refuted"
   ],
   "note": "Round trip proved for field widths from -2^63+65; in a debug build .R with a width near the smallest cell overflows (C36_all_widths_refuted)."
  },
  {
   "property": "C37",
   "status": "partial",
   "theorems": [
    "C37_refuted",
    "C37_digits_needed_partial"
   ],
   "note": "False of the code: $ % # - and a prefix with a sign are accepted as 0 (C37_refuted). Proved for all other tokens without digits."
  },
  {
   "property": "C38",
   "status": "partial",
   "theorems": [
    "C38_token",
    "C38_line",
    "C38_only",
    "C38_complete",
    "C38_in_order",
    "C38_pending_refuted",
    "C38_cleared_refuted"
   ],
   "note": "Proved for every line that starts without a pending exception and does not call the evaluator itself (C38_token, C38_line, C38_only, C38_complete, C38_in_order): the meaning of every token, completeness, and the order. False of the code in two cases, with witnesses: a pending exception from an earlier line stops the code of the first word of the next line and runs it later (C38_pending_refuted); a line that executes evaluate-input goes on after an exception and clears it (C38_cleared_refuted)."
  },
  {
   "property": "C39",
   "status": "proved",
   "theorems": [
    "C39_unknown",
    "C39_compile_only"
   ],
   "note": ""
  },
  {
   "property": "C40",
   "status": "partial",
   "theorems": [
    "C40_refuted",
    "C40_partial",
    "C40_library"
   ],
   "note": "False: eight lines that panic or are undefined on the freshly loaded system (C40_refuted, crash_lines in Ex9). Proved (C40_partial): a line whose known words are harmless - 129 built-in words, constants, variables, and colon definitions made of harmless words with conditionals, BEGIN loops and unbounded recursion - never crashes, for every contents of the stacks and every other token; the library words of Spec23.safe_library are among them (C40_library)."
  },
  {
   "property": "C41",
   "status": "proved",
   "theorems": [
    "C41_abort_with",
    "C41_abort"
   ],
   "note": ""
  },
  {
   "property": "C42",
   "status": "partial",
   "theorems": [
    "C42_refuted",
    "C42_bye_partial",
    "C42_outside_partial"
   ],
   "note": "False of the code (refuted): with the handler of a fresh VM (word 0, a no-op) the inner loop continues with the next word after an exception. Proved: nothing more runs when the handler moves the instruction pointer out of the data space."
  },
  {
   "property": "C43",
   "status": "partial",
   "theorems": [
    "C43_refuted",
    "C43_partial"
   ],
   "note": "False of the code (refuted): `' abort handler!` or a handler number that is no word makes abort_with recurse forever. Proved: it returns for the default handler, for colon definitions and for some simple words."
  },
  {
   "property": "C44",
   "status": "proved",
   "theorems": [
    "C44_pause",
    "C44_pause_only",
    "C44_next_unique"
   ],
   "note": ""
  },
  {
   "property": "C45",
   "status": "proved",
   "theorems": [
    "C45_no_starvation"
   ],
   "note": ""
  },
  {
   "property": "C46",
   "status": "partial",
   "theorems": [
    "C46_refuted",
    "C46_partial"
   ],
   "note": "False of the code (refuted): pause spins forever when no task is awake (e.g. the only awake task executes stop). Proved: it returns iff some task is awake."
  },
  {
   "property": "C47",
   "status": "partial",
   "theorems": [
    "C47_refuted",
    "C47_word_partial",
    "C47_chain_partial",
    "C47_line_chain_partial"
   ],
   "note": "False of the code (refuted): with pause as exception handler a failing ; changes the compilation state of another task. Proved: isolation for every word when neither the word nor the handler is a task word or dispatcher; and every execution decomposes into isolated steps, task switches, wake-flag updates and restarts."
  },
  {
   "property": "C48",
   "status": "proved",
   "theorems": [
    "C48_installed",
    "C48_exclusive",
    "C48_get",
    "C48_release",
    "C48_waits",
    "C48_woken",
    "C48_blocked"
   ],
   "note": "For every machine holding the compiled core.fth definitions (C48_installed: the loaded system does, in both builds). In an interleaving the instructions of GET and RELEASE are executed one by one by the modelled machine, with real task switches in PAUSE; between them any task may do anything except writing to the facility or the code and jumping into the middle of the two words. C48_blocked shows a limit: GET by the owner itself never returns if nobody else is awake."
  },
  {
   "property": "C49",
   "status": "partial",
   "theorems": [
    "C49_refuted",
    "C49_activate_partial",
    "C49_activate_bad",
    "C49_suspend_resume",
    "C49_suspend_resume_bad"
   ],
   "note": "False of the code (refuted): self-activation loses the return address. Proved for every other task, for invalid numbers, and for suspend/resume. The smallest cell as task number overflows (panic in debug builds) and is excluded."
  },
  {
   "property": "C50",
   "status": "partial",
   "theorems": [
    "C50_opened",
    "C50_closed",
    "C50_refused",
    "C50_history",
    "C50_source_opened",
    "C50_source_closed",
    "C50_source_current",
    "C50_source_refused",
    "C50_open_source_refused",
    "C50_source_line_refuted"
   ],
   "note": "Proved for file identifiers over every history, and for source identifiers per word. One source word, .source-line, does not refuse a closed identifier (C50_source_line_refuted), hence partial."
  },
  {
   "property": "C51",
   "status": "partial",
   "theorems": [
    "C51_inside",
    "C51_returns",
    "C51_refuted"
   ],
   "note": "What is stored is inside the buffer whenever read-file returns, and it returns unless caddr+u1 wraps. When it wraps, release is undefined behaviour and debug panics (C51_refuted)."
  },
  {
   "property": "C52",
   "status": "partial",
   "theorems": [
    "C52_effect",
    "C52_returns",
    "C52_delete_refuted",
    "C52_delete_partial"
   ],
   "note": "Proved for all file words except delete-file, which leaves two cells when the name is longer than 256 bytes (C52_delete_refuted, C52_delete_partial)."
  },
  {
   "property": "C53",
   "status": "proved",
   "theorems": [
    "C53_history",
    "C53_round_trip"
   ],
   "note": "Against any operating system that satisfies the laws of Spec12.ideal; Ex8.toy shows that the laws are satisfiable."
  },
  {
   "property": "C54",
   "status": "proved",
   "theorems": [
    "C54_installed",
    "C54_save",
    "C54_save_full",
    "C54_restore",
    "C54_restore_empty",
    "C54_nesting"
   ],
   "note": "For every machine holding the compiled core.fth definitions (C54_installed: the loaded system does, in both builds). The nesting theorem covers every balanced program whose other parts leave the stack of sources alone and keep the saved sources open; nesting depth together with the sources already saved at most 16."
  },
  {
   "property": "C55",
   "status": "proved",
   "theorems": [
    "C55_installed",
    "C55_interpreted",
    "C55_two_star",
    "C55_two_slash",
    "C55_le",
    "C55_ge",
    "C55_max",
    "C55_min",
    "C55_qdup",
    "C55_tuck",
    "C55_slash_string",
    "C55_bounds",
    "C55_chars",
    "C55_two_fetch",
    "C55_two_store",
    "C55_plus_store",
    "C55_count",
    "C55_on",
    "C55_off",
    "C55_c_comma",
    "C55_two_comma"
   ],
   "note": "Each word is characterised for every machine that holds its compiled core.fth definition (lib_effect, lib_action); C55_installed shows that the loaded system holds them in both builds and C55_interpreted runs them from the interpreter. 2/ rounds towards zero."
  },
  {
   "property": "C56",
   "status": "proved",
   "theorems": [
    "C56_fill",
    "C56_space",
    "C56_cr",
    "C56_spaces"
   ],
   "note": "As C55; fill also for n <= 0, where nothing is written."
  },
  {
   "property": "C57",
   "status": "proved",
   "theorems": [
    "C57_create",
    "C57_constant",
    "C57_constant_forever",
    "C57_created_forever",
    "C57_bodies_disjoint",
    "C57_installed",
    "C57_variable",
    "C57_two_variable",
    "C57_does",
    "C57_child",
    "C57_two_constant",
    "C57_two_constant_pushes",
    "C57_field",
    "C57_field_adds"
   ],
   "note": "Created words and constants for every history that does not write to their data; variable, 2variable, 2constant, +field and arbitrary DOES> children for every machine holding the compiled core.fth definitions (C57_installed: the loaded system does, in both builds). DOES> leaves one unused cell after the data of the child."
  },
  {
   "property": "C58",
   "status": "proved",
   "theorems": [
    "C58_new",
    "C58_dispatch",
    "C58_builtin",
    "C58_store",
    "C58_fetch",
    "C58_kept"
   ],
   "note": "A deferred word acts (Spec16.acts) as the word installed last by DEFER!; DEFER installs NOOP."
  },
  {
   "property": "C59",
   "status": "partial",
   "theorems": [
    "C59_partial",
    "C59_data_words",
    "C59_float_words",
    "C59_memory_words",
    "C59_other_words",
    "C59_colon_words",
    "C59_here_refuted",
    "C59_underflow_refuted"
   ],
   "note": "Proved for every line whose words depend only on the data stack, the float stack, the writable memory and the output, whatever is on the return stack and whatever is defined later, and that raises no exception (C59_partial); C59_data_words, C59_float_words, C59_memory_words, C59_other_words and C59_colon_words show which words qualify. The new name must not be in use. False of the code in two cases, with witnesses: words that observe the dictionary pointer such as HERE (C59_here_refuted), and lines that underflow a stack, since stacks are checked after every token of the text but not between the words of a definition (C59_underflow_refuted)."
  },
  {
   "property": "C60",
   "status": "proved",
   "theorems": [
    "C60_float_stack",
    "C60_fstore",
    "C60_ffetch"
   ],
   "note": ""
  },
  {
   "property": "C61",
   "status": "partial",
   "theorems": [
    "C61_refuted",
    "C61_value_partial"
   ],
   "note": "False of the code: the exponent is truncated to 32 bits (C61_refuted). Proved for 32-bit exponents in terms of the rounded double operations; correct rounding of the whole literal is not claimed."
  },
  {
   "property": "C62",
   "status": "partial",
   "theorems": [
    "C62_names",
    "C62_word",
    "C62_refuted"
   ],
   "note": "Words that need a name raise -39 (C62_names); the words that scan the input text panic (C62_refuted)."
  },
  {
   "property": "C63",
   "status": "partial",
   "theorems": [
    "C63_stacks",
    "C63_index_refuted",
    "C63_index_partial",
    "C63_lookup_ends"
   ],
   "note": "Stacks: proved for every reachable state. Dictionary index: false of the code (refuted: a marker's saved image lies in writable memory; overwriting it makes the next lookup panic). Proved: every word other than a marker preserves the index, and lookups in an ordered index end in bounds."
  },
  {
   "property": "C64",
   "status": "proved",
   "theorems": [
    "C64_line",
    "C64_stripped_unique",
    "C64_error",
    "C64_text",
    "C64_lines_exist",
    "C64_lines_unique"
   ],
   "note": "(load-line); a whole text for any well-behaved line reader (Spec12.line_reader; Ex8.toy_lines)."
  },
  {
   "property": "C65",
   "status": "partial",
   "theorems": [
    "C65_semicolon",
    "C65_exception",
    "C65_awaited_refuted",
    "C65_defined_refuted"
   ],
   "note": "Control stack and compile state: proved. Labels leak into the next definition, both awaited ones after an exception and defined ones (C65_awaited_refuted, C65_defined_refuted)."
  },
  {
   "property": "C66",
   "status": "partial",
   "theorems": [
    "C66_emit",
    "C66_emit_ascii",
    "C66_emit_refuted",
    "C66_type",
    "C66_type_refuted",
    "C66_s_quote",
    "C66_dot_quote",
    "C66_dot_quote_runs",
    "C66_dot_paren"
   ],
   "note": "type, s-quote, dot-quote, dot-paren append exactly their text; emit does for ASCII and appends two bytes from 128 on (C66_emit_refuted); type does not check its address (C66_type_refuted)."
  },
  {
   "property": "C67",
   "status": "proved",
   "theorems": [
    "C67_raised",
    "C67_described",
    "C67_distinct",
    "C67_all",
    "C67_dot_error"
   ],
   "note": "For every history in which the host raises no exception of its own."
  },
  {
   "property": "C68",
   "status": "proved",
   "theorems": [
    "C68_return_stack"
   ],
   "note": ""
  },
  {
   "property": "C69",
   "status": "proved",
   "theorems": [
    "C69_arithmetic",
    "C69_signs",
    "C69_nan",
    "C69_infinite",
    "C69_division_by_zero",
    "C69_sqrt_special",
    "C69_integers"
   ],
   "note": "Against the real numbers: the specification (value, nearest, rounded) is independent of the float operations of the model. NaN payloads are not specified, as in Rust."
  },
  {
   "property": "C70",
   "status": "proved",
   "theorems": [
    "C70_comparisons",
    "C70_min_max_abs_negate",
    "C70_min_max_nan"
   ],
   "note": "All doubles for the comparisons; finite operands for fmin fmax fabs fnegate, a single NaN for fmin and fmax."
  },
  {
   "property": "C71",
   "status": "partial",
   "theorems": [
    "C71_s_to_f",
    "C71_f_to_s",
    "C71_round_trip",
    "C71_round_trip_refuted",
    "C71_integral",
    "C71_integral_other"
   ],
   "note": "Proved: both conversions, floor fceil fround, and the round trip for cells up to 2^53 in magnitude. The round trip is false beyond (C71_round_trip_refuted: 2^53+1)."
  },
  {
   "property": "C72",
   "status": "partial",
   "theorems": [
    "C72_f_proximate",
    "C72_relative",
    "C72_sound_partial",
    "C72_complete_refuted"
   ],
   "note": "Proved: what f~ decides for each sign of the tolerance, with its roundings, and that a true answer is right. A false answer can be wrong because the distance is rounded first (C72_complete_refuted)."
  },
  {
   "property": "C73",
   "status": "proved",
   "theorems": [
    "C73_pi",
    "C73_units",
    "C73_scaled_units",
    "C73_library_functions"
   ],
   "note": "The platform functions (sin, cos, ...) are parameters of the model: only the data flow is proved for them."
  },
  {
   "property": "C74",
   "status": "proved",
   "theorems": [
    "C74_address_units",
    "C74_out_of_range"
   ],
   "note": "Both build settings."
  },
  {
   "property": "C75",
   "status": "proved",
   "theorems": [
    "C75_compiling",
    "C75_token_empty",
    "C75_error",
    "C75_max_n",
    "C75_max_u",
    "C75_mtime",
    "C75_utime",
    "C75_base",
    "C75_handler",
    "C75_clear_error",
    "C75_clear_labels",
    "C75_clear_stacks",
    "C75_flush_output",
    "C75_flush_to_err",
    "C75_name",
    "C75_name_bad",
    "C75_store_token",
    "C75_store_token_low"
   ],
   "note": "All states; >name and !token with their conditions."
  },
  {
   "property": "C76",
   "status": "partial",
   "theorems": [
    "C76_dot_r",
    "C76_fdot_r",
    "C76_words",
    "C76_dot_s",
    "C76_dot_memory",
    "C76_dot_backtrace",
    "C76_dot_token",
    "C76_dot_input",
    "C76_dot_word",
    "C76_dot_word_refuted"
   ],
   "note": "Proved: all listings and printed numbers. False in one point: .word does nothing, and leaves its argument on the stack, without an output buffer (C76_dot_word_refuted). Bases other than 2, 8, 10, 16 are not supported by .r (C36)."
  },
  {
   "property": "C77",
   "status": "partial",
   "theorems": [
    "C77_set",
    "C77_list",
    "C77_clear",
    "C77_minimum_refuted"
   ],
   "note": "Proved: what the three words record, list and forget. False: a measured time of 0 is taken for no measurement, so that the recorded minimum is not the minimum (C77_minimum_refuted)."
  },
  {
   "property": "C78",
   "status": "proved",
   "theorems": [
    "C78_tick",
    "C78_bracket_tick",
    "C78_unknown",
    "C78_char",
    "C78_bracket_char"
   ],
   "note": "All dictionaries and inputs."
  },
  {
   "property": "C79",
   "status": "partial",
   "theorems": [
    "C79_postpone",
    "C79_postponed",
    "C79_immediate_refuted"
   ],
   "note": "Proved for words that are not immediate. False for immediate words, which are compiled instead of executed (C79_immediate_refuted)."
  },
  {
   "property": "C80",
   "status": "proved",
   "theorems": [
    "C80_fconstant",
    "C80_fconstant_forever",
    "C80_does"
   ],
   "note": "What the code compiled by DOES> does is C57."
  },
  {
   "property": "C81",
   "status": "proved",
   "theorems": [
    "C81_dot",
    "C81_question",
    "C81_f_dot",
    "C81_base",
    "C81_h_dot",
    "C81_h_dot_r"
   ],
   "note": "For every machine that has these words with their definitions from core.fth; C81_installed shows that the booted machines (debug and release) have them."
  },
  {
   "property": "C82",
   "status": "partial",
   "theorems": [
    "C82_f_greater",
    "C82_f_comma_partial",
    "C82_f_comma_refuted",
    "C82_f_comma_aligned"
   ],
   "note": "f> is proved for all doubles. f, stores the float at the next multiple of 8 but allots 8 bytes from HERE on, so behind an odd number of bytes the float reaches beyond the allotted space and the next , overwrites it (C82_f_comma_refuted); proved where HERE is a multiple of 8."
  },
  {
   "property": "C83",
   "status": "proved",
   "theorems": [
    "C83_pad",
    "C83_append",
    "C83_to_char",
    "C83_type",
    "C83_dump1",
    "C83_dump"
   ],
   "note": "append: the count is one byte, so it wraps around at 256. dump needs the last row to lie inside the data space."
  },
  {
   "property": "C84",
   "status": "proved",
   "theorems": [
    "C84_literal",
    "C84_two_literal",
    "C84_fliteral"
   ],
   "note": "fliteral where HERE is a multiple of 8, as it is in a definition."
  },
  {
   "property": "C85",
   "status": "partial",
   "theorems": [
    "C85_line",
    "C85_ends",
    "C85_waits",
    "C85_deterministic",
    "C85_typed",
    "C85_empty",
    "C85_recalled",
    "C85_up_down",
    "C85_history_grows_refuted"
   ],
   "note": "Refinement to an editor on characters for all event sequences. Refuted: that entering a line only appends to the history (a recalled line that was edited stays edited)."
  },
  {
   "property": "C86",
   "status": "partial",
   "theorems": [
    "C86_loaded",
    "C86_saved",
    "C86_quit",
    "C86_quit_32_refuted"
   ],
   "note": "Refuted only for 32 or more lines when leaving with Ctrl-D: the empty entry left behind is counted."
  },
  {
   "property": "C87",
   "status": "partial",
   "theorems": [
    "C87_line",
    "C87_output",
    "C87_session",
    "C87_integer",
    "C87_builtin",
    "C87_library",
    "C87_refuted"
   ],
   "note": "Proved for every machine at the prompt with at most 62 cells; refuted with 63 cells, where printing ok overwrites the canary of the stack."
  },
  {
   "property": "C88",
   "status": "partial",
   "theorems": [
    "C88_recovers",
    "C88_unknown",
    "C88_compile_only",
    "C88_builtin",
    "C88_refuted"
   ],
   "note": "Proved for the task of the terminal; refuted for background tasks, which have no input buffer: the next line panics."
  },
  {
   "property": "C89",
   "status": "partial",
   "theorems": [
    "C89_end_of_input",
    "C89_stop",
    "C89_failing",
    "C89_refuted"
   ],
   "note": "Proved for the end of the input and for tokens that stop the machine; refuted for a terminal that keeps failing (C89_failing: the run exhausts every fuel)."
  },
  {
   "property": "C90",
   "status": "partial",
   "theorems": [
    "C90_included",
    "C90_numbers",
    "C90_empty",
    "C90_interprets_refuted"
   ],
   "note": "General rule for any lines whose tokens can be obeyed (C90_included), and in full for files of integers and for empty files. Refuted: INCLUDED should interpret the file even in the middle of a definition and allocate nothing; POSTPONE [ compiles the word [ at HERE and does not switch."
  },
  {
   "property": "C91",
   "status": "partial",
   "theorems": [
    "C91_missing",
    "C91_full",
    "C91_closed_refuted",
    "C91_line_fails",
    "C91_unknown"
   ],
   "note": "Proved: -1 for files that cannot be opened and for a full SRC-STACK; the general rule for a line that ends in an exception; in full for files whose first line that is not of integers begins with an unknown token. Refuted: with sixteen saved sources the file that was opened is never closed."
  }
 ]
}