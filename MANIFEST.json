{
 "claims": [
  {
   "property": "C01",
   "status": "proved",
   "theorems": [
    "C01_match_sound",
    "C01_search_sound",
    "C01_match_sound_checked",
    "C01_leading_mode",
    "C01_negative_lookahead_refuted",
    "C01_case_refuted",
    "C01_self_reference_refuted",
    "C38_leak_refuted"
   ],
   "note": "proved on sound_fragment (decidable: sound_check) and with a leading mode switch; refuted for mode switches elsewhere (C38), self-referential backreferences, folded ranges and some negative lookaheads"
  },
  {
   "property": "C02",
   "status": "proved",
   "theorems": [
    "C02_match_complete",
    "C02_match_decides",
    "C02_search_complete",
    "C02_iteration_refuted",
    "C02_empty_iteration_refuted",
    "C38_match_complete",
    "C38_starts_complete",
    "C38_search_complete"
   ],
   "note": "proved on complete_fragment (decidable: complete_check); refuted outside. mcomplete_check covers mode switches anywhere and loops whose iterations are told apart by what follows (Follow.v); without switches its derivations are those of C02 (C38_no_switch); mcomplete_check also covers possessive repetitions, atomic groups and lookaheads with groups where the commitment is harmless (Loosen.v, C52)"
  },
  {
   "property": "C03",
   "status": "proved",
   "theorems": [
    "C03_priority",
    "C03_priority_checked",
    "C03_match_priority",
    "C03_library_discipline",
    "C03_iteration_refuted",
    "C03_modes",
    "C03_modes_prefix",
    "C03_modes_plain",
    "C03_modes_derivations"
   ],
   "note": "proved on priority_fragment (decidable: priority_check); refuted outside; also with mode switches anywhere and with iterations told apart by what follows (mpriority_check, Follow.v)"
  },
  {
   "property": "C04",
   "status": "proved",
   "theorems": [
    "C04_match_whole",
    "C04_starts_with_span",
    "C04_search_span"
   ],
   "note": ""
  },
  {
   "property": "C05",
   "status": "proved",
   "theorems": [
    "C05_search_leftmost"
   ],
   "note": "patterns the library does not treat as anchored; anchored ones are C29"
  },
  {
   "property": "C06",
   "status": "proved",
   "theorems": [
    "C06_match_starts_with",
    "C06_starts_with_search"
   ],
   "note": ""
  },
  {
   "property": "C07",
   "status": "proved",
   "theorems": [
    "C07_capture_spans",
    "C07_capture_spans_text"
   ],
   "note": "for every AST with well-formed numbering and every accepted pattern text"
  },
  {
   "property": "C08",
   "status": "proved",
   "theorems": [
    "C08_no_out_of_range",
    "C08_no_out_of_range_text",
    "C08_ranges",
    "C08_ranges_text",
    "C08_from_anywhere"
   ],
   "note": "contiguous subjects; every accepted pattern text; also the loops of search_all, tokenize and split, and calls from any position"
  },
  {
   "property": "C09",
   "status": "proved",
   "theorems": [
    "C09_same",
    "C09_no_read_past_terminator",
    "C09_calls",
    "C09_ranges"
   ],
   "note": "Equality of results with the string view call for every pattern, both entry modes and any storage after the terminator; storage ending at the terminator is never left. The ranges too."
  },
  {
   "property": "C10",
   "status": "proved",
   "theorems": [
    "C10_same",
    "C10_ascii",
    "C10_lazy_refuted",
    "C10_lazy_overread_refuted",
    "C10_ranges"
   ],
   "note": "Equality of results with offsets translated, for patterns without lazy quantifiers (and without backreferences, which do not compile on UTF-8 subjects); refuted for lazy quantifiers, except on NUL-followed ASCII text where it is proved. The ranges too."
  },
  {
   "property": "C11",
   "status": "proved",
   "theorems": [
    "C11_dereference",
    "C11_increment",
    "C11_decrement",
    "C11_text"
   ],
   "note": "All scalar values in any surrounding memory, against the arithmetic definition of UTF-8."
  },
  {
   "property": "C12",
   "status": "proved",
   "theorems": [
    "C12_match",
    "C12_reads_inside",
    "C12_dereference",
    "C12_increment",
    "C12_decrement",
    "C12_overshoot_refuted",
    "C12_underrun_refuted",
    "C12_ranges",
    "C12_ranges_read_inside"
   ],
   "note": "Forward iteration and matching read only the buffer for every byte sequence, and match the announced decoding. Staying inside is refuted for ++ at a truncated sequence and for -- over leading continuation units; the exact condition for -- is proved. The ranges too."
  },
  {
   "property": "C13",
   "status": "proved",
   "theorems": [
    "C13_utf8_pattern",
    "C13_utf32_pattern",
    "C13_ascii_pattern",
    "C13_same",
    "C13_char_refuted"
   ],
   "note": "UTF-8, UTF-32 and ASCII char patterns decode to their code points; char patterns with bytes above 127 are refuted"
  },
  {
   "property": "C14",
   "status": "proved",
   "theorems": [
    "C14_utf16_pattern",
    "C14_flagged",
    "C14_unflagged",
    "C14_flag_refuted",
    "C14_trail_refuted"
   ],
   "note": "UTF-16 patterns; both directions of the correctness flag; flag gaps refuted"
  },
  {
   "property": "C15",
   "status": "proved",
   "theorems": [
    "C15_linear",
    "C15_compile",
    "C15_deterministic",
    "C15_table"
   ],
   "note": "8*length+3 steps; the table is LL(1)"
  },
  {
   "property": "C16",
   "status": "proved",
   "theorems": [
    "C16_match",
    "C16_starts_with",
    "C16_search",
    "C16_case",
    "C16_utf8"
   ],
   "note": "match, starts_with and search; case-insensitive mode; from the UTF-8 bytes of the pattern"
  },
  {
   "property": "C17",
   "status": "proved",
   "theorems": [
    "C17_match",
    "C17_search",
    "C17_spelled",
    "C17_other_escapes_refuted"
   ],
   "note": "every text, escaped; any spelling of the characters"
  },
  {
   "property": "C18",
   "status": "proved",
   "theorems": [
    "C18_documented",
    "C18_class",
    "C18_one_character",
    "C18_union"
   ],
   "note": "every shorthand and POSIX class text, plain and negated, in and outside brackets, all modes; every class atom; union of the items of a set"
  },
  {
   "property": "C19",
   "status": "proved",
   "theorems": [
    "C19_flip",
    "C19_classes",
    "C19_subject_without_letters",
    "C19_pattern_without_letters",
    "C19_range_refuted",
    "C19_backreference_refuted",
    "C19_named_class_refuted",
    "C19_ranges"
   ],
   "note": "Case flips do not change the result and the modifier has no effect without letters, with and without the greedy optimisation; refuted for ranges across cases, backreferences and one-case named classes. The ranges too."
  },
  {
   "property": "C20",
   "status": "proved",
   "theorems": [
    "C20_count",
    "C20_inverted",
    "C20_zero_refuted",
    "C20_body",
    "C20_body_calls"
   ],
   "note": "every class, all three kinds, all bounds; the {0}/{0,0}/{A,0} reading is refuted; any body in the exact fragment of C47/C48 (C20_body, C20_body_calls): concatenations of between A and B words of the body"
  },
  {
   "property": "C21",
   "status": "proved",
   "theorems": [
    "C21_possessive",
    "C21_possessive_end_unique",
    "C21_atomic",
    "C21_atomic_unique",
    "C21_nothing_given_back",
    "C21_empty_atomic_refuted"
   ],
   "note": "every body and continuation; the empty atomic group is refuted"
  },
  {
   "property": "C22",
   "status": "proved",
   "theorems": [
    "C22_lookahead",
    "C22_continuation"
   ],
   "note": "every content; every continuation"
  },
  {
   "property": "C23",
   "status": "proved",
   "theorems": [
    "C23_lookbehind",
    "C23_rotation",
    "C23_anchor_refuted",
    "C23_nested_refuted"
   ],
   "note": "contents of characters, classes, strings, boundaries, sequences, alternatives; anchors and nested lookarounds refuted"
  },
  {
   "property": "C24",
   "status": "proved",
   "theorems": [
    "C24_word_boundary",
    "C24_what_B_does",
    "C24_B_refuted"
   ],
   "note": "\\b proved; what \\B does instead is proved, the complement half is refuted"
  },
  {
   "property": "C25",
   "status": "proved",
   "theorems": [
    "C25_anchors"
   ],
   "note": "all five anchors, both modes, every continuation"
  },
  {
   "property": "C26",
   "status": "proved",
   "theorems": [
    "C26_leftmost_matches",
    "C26_ends",
    "C26_ends_checked",
    "C26_only_progress",
    "C26_empty_never_ends",
    "C26_ending_refuted"
   ],
   "note": "Leftmost successive matches; ends for patterns without empty matches before the end (checked syntactically by consuming); with an empty match before the end the range never ends, the unrestricted claim is refuted"
  },
  {
   "property": "C27",
   "status": "proved",
   "theorems": [
    "C27_pieces",
    "C27_reassemble",
    "C27_ends",
    "C27_reassemble_checked",
    "C27_anchored_never_ends",
    "C27_anchored_refuted",
    "C27_empty_refuted",
    "C27_reassemble_utf8"
   ],
   "note": "Pieces and separators; reassembling gives the subject; anchored separators and empty separators never end (refuted); also in code units on UTF-8"
  },
  {
   "property": "C28",
   "status": "proved",
   "theorems": [
    "C28_tokens",
    "C28_ends",
    "C28_empty_refuted"
   ],
   "note": "Tokens are contiguous from 0 and maximal; ends for patterns without empty matches; refuted with empty matches (the range does not end)"
  },
  {
   "property": "C29",
   "status": "proved",
   "theorems": [
    "C29_same",
    "C29_nowhere_else",
    "C29_zero_times_refuted"
   ],
   "note": "proved for patterns without anchors under repetitions that may run zero times; refuted otherwise"
  },
  {
   "property": "C30",
   "status": "proved",
   "theorems": [
    "C30_match",
    "C30_starts_with",
    "C30_search",
    "C30_case_refuted",
    "C30_boundary_refuted",
    "C30_line_end_refuted",
    "C30_modes_match",
    "C30_modes_search"
   ],
   "note": "proved on fragment with the decidable side condition ow_check; refuted outside; letters under case folding are covered (apart); also with mode switches anywhere (mopt_check)"
  },
  {
   "property": "C31",
   "status": "proved",
   "theorems": [
    "C31_match",
    "C31_starts_with",
    "C31_search",
    "C31_zero_terminated",
    "C31_utf8",
    "C31_empty_iteration_refuted"
   ],
   "note": "proved for every pattern whose unbounded repetition bodies consume (decidable: terminating), all subject kinds; refuted outside"
  },
  {
   "property": "C32",
   "status": "proved",
   "theorems": [
    "C32_in_order",
    "C32_in_order_switches",
    "C32_switches_refuted",
    "C32_offered",
    "C32_hidden_refuted",
    "C32_hidden_behind_refuted",
    "C32_named",
    "C32_name_offered",
    "C32_well_numbered",
    "C32_static",
    "C32_count"
   ],
   "note": "ids by a parser-independent scan of the text; refuted for groups in front of a switch of several letters and for availability inside lookbehind/atomic groups"
  },
  {
   "property": "C33",
   "status": "proved",
   "theorems": [
    "C33_capture_equal",
    "C33_capture_differs",
    "C33_result_equal",
    "C33_result_differs",
    "C33_differs_refuted"
   ],
   "note": "== for all captures; != for captures that took part and whole results; != on a capture that took no part is refuted"
  },
  {
   "property": "C34",
   "status": "proved",
   "theorems": [
    "C34_filter",
    "C34_end_consistent",
    "C34_end_differs_refuted",
    "C34_stops",
    "C34_past_end"
   ],
   "note": "multi_exec = filter; the reversed != of the end iterator is refuted; ; C34_stops, C34_past_end: outcomes other than an answer"
  },
  {
   "property": "C35",
   "status": "proved",
   "theorems": [
    "C35_language",
    "C35_modes_language",
    "C35_match",
    "C35_search",
    "C35_class_pair",
    "C35_possessive_refuted",
    "C35_possessive_lost_refuted",
    "C35_bounds_refuted",
    "C35_overflow_refuted",
    "C35_preference_refuted",
    "C35_same_type",
    "C35_merged",
    "C35_kept"
   ],
   "note": "For every accepted pattern text, against a parser with the same grammar that never rewrites: same groups and same derived texts and captures, under the decidable condition fusible (the exclusions of the quantifier plus sums of bounds below 2^64); match and search decide the same on both ASTs in the complete fragment; class bodies keep the order of preference. The excluded cases are refuted by witnesses. With mode switches: C35_modes_language, for the meaning in which the mode travels with the evaluation.; C35_same_type, C35_merged, C35_kept: which repetitions are merged, with which counts"
  },
  {
   "property": "C36",
   "status": "proved",
   "theorems": [
    "C36_backreference",
    "C36_unset",
    "C36_named"
   ],
   "note": "numbered and named, every continuation"
  },
  {
   "property": "C37",
   "status": "proved",
   "theorems": [
    "C37_bounds",
    "C37_bounds_anywhere",
    "C37_hex",
    "C37_hex_digits",
    "C37_hex_too_large",
    "C37_wrap_refuted"
   ],
   "note": "bounds and hexadecimal escapes below the wrap; wrap-around at 2^64 refuted"
  },
  {
   "property": "C38",
   "status": "proved",
   "theorems": [
    "C38_flat",
    "C38_leading",
    "C38_match_sound",
    "C38_search_sound",
    "C38_no_switch",
    "C38_scope",
    "C38_scope_same",
    "C38_leak_refuted",
    "C38_alternative_refuted",
    "C38_letters_refuted",
    "C38_last_letter",
    "C38_modifiers",
    "C38_match_complete",
    "C38_starts_complete",
    "C38_search_complete",
    "C38_scope_iff"
   ],
   "note": "proved for top-level sequences (C38_flat), leading switches, and soundness and completeness for switches anywhere: a match has a derivation that passes the mode along (C38_match_sound, C38_search_sound), which is the textual scope when no switch is followed by anything outside its group (C38_scope). Leak, loss in alternatives and loss of letters refuted; C38_last_letter: exactly what a leading switch of several letters means.; mcomplete_check also covers possessive repetitions, atomic groups and lookaheads with groups where the commitment is harmless (Loosen.v, C52)"
  },
  {
   "property": "C39",
   "status": "proved",
   "theorems": [
    "C39_no_false_alarm",
    "C39_unflagged",
    "C39_decoding_ends",
    "C39_flag_ignored_refuted",
    "C39_flag_misses_refuted",
    "C39_overlong_refuted",
    "C39_five_units_refuted",
    "C39_six_units_refuted"
   ],
   "note": "decoding ends, no false alarms, unflagged exactly characterised; ignored and missing flags refuted"
  },
  {
   "property": "C40",
   "status": "proved",
   "theorems": [
    "C40_failed_is_empty",
    "C40_failed_is_empty_text",
    "C40_reads",
    "C40_match",
    "C40_starts",
    "C40_search",
    "C40_ignores",
    "C40_alternatives"
   ],
   "note": "C40_failed_is_empty(_text), C40_reads: nothing to read from a failed call; C40_match, C40_starts, C40_search, C40_alternatives: an alternative that failed leaves nothing behind, the outcome is that of the others alone (alternatives without backreferences into each other)"
  },
  {
   "property": "C41",
   "status": "proved",
   "theorems": [
    "C41_iterators",
    "C41_last_refuted",
    "C41_sentinel",
    "C41_orders",
    "C41_listed",
    "C41_split_listed",
    "C41_split",
    "C41_split_refuted"
   ],
   "note": "Iterator equality and order; refuted for the last match against the end; also split iterators and the sentinel; refuted for the last two pieces of split"
  },
  {
   "property": "C42",
   "status": "proved",
   "theorems": [
    "C42_optional_view",
    "C42_view",
    "C42_failed_search_refuted",
    "C42_missing"
   ],
   "note": "Conversions give the text; view of a failed search result is refuted (undefined); A group that took no part holds no positions and reads as the empty text (C42_missing)."
  },
  {
   "property": "C43",
   "status": "proved",
   "theorems": [
    "C43_compiled",
    "C43_syntax",
    "C43_unambiguous",
    "C43_language",
    "C43_modes_language",
    "C43_match",
    "C43_search",
    "C43_switch_refuted",
    "C43_name_refuted",
    "C43_elsewhere_refuted"
   ],
   "note": "Full grammar: texts and ASTs specified independently of the table; compile = specification (iff) without multi-letter mode switches; unique reading; end-to-end match/search under the decidable conditions of C05/C35; refutations for multi-letter switches and references at the start of named groups."
  },
  {
   "property": "C44",
   "status": "proved",
   "theorems": [
    "C44_total",
    "C44_values",
    "C44_range",
    "C44_range_value",
    "C44_flat",
    "C44_numeric",
    "C44_list",
    "C44_flat_refuted",
    "C44_beyond_refuted"
   ],
   "note": "Refuted for the four unsorted lists of 20 or more elements (C44_flat_refuted) and beyond U+10FFFF (C44_beyond_refuted)."
  },
  {
   "property": "C45",
   "status": "proved",
   "theorems": [
    "C45_category",
    "C45_disjoint",
    "C45_lower",
    "C45_upper",
    "C45_xid_start",
    "C45_xid_continue",
    "C45_bidi_mirrored",
    "C45_numeric",
    "C45_age",
    "C45_script",
    "C45_alphabetic",
    "C45_grapheme_base",
    "C45_subsets",
    "C45_category_refuted",
    "C45_assigned_refuted",
    "C45_other_refuted",
    "C45_case_ignorable_refuted",
    "C45_age_refuted",
    "C45_cased"
   ],
   "note": "Against reference data of Unicode 14.0.0 (UnicodeRef.v). Refuted for 15 dashes, Assigned, group C, Case_Ignorable and age on unassigned code points."
  },
  {
   "property": "C46",
   "status": "proved",
   "theorems": [
    "C46_loose",
    "C46_binary",
    "C46_scripts",
    "C46_blocks",
    "C46_category",
    "C46_match",
    "C46_category_match",
    "C46_dash_refuted",
    "C46_script_extensions_refuted"
   ],
   "note": "End to end for subjects of code points 0..U+10FFFF. The name script_extensions is refuted, and the hyphen under Pd and Dash."
  },
  {
   "property": "C47",
   "status": "proved",
   "theorems": [
    "C47_well_formed",
    "C47_well_formed_pointer",
    "C47_well_formed_u8",
    "C47_structure",
    "C47_answers",
    "C47_answers_pointer",
    "C47_answers_u8",
    "C47_match",
    "C47_starts_with",
    "C47_search",
    "C47_text_match",
    "C47_text_starts_with",
    "C47_text_search",
    "C47_structure_refuted",
    "C47_optimisation_refuted",
    "C47_u8_refuted",
    "C47_utf8",
    "C47_bytes",
    "C47_pointer",
    "C47_search_any",
    "C47_text_search_any"
   ],
   "note": "proved for every accepted pattern that passes the static check compiles (and terminating); right answers on the fragment of C01-C03 and C38; refuted outside; mcomplete_check also covers possessive repetitions, atomic groups and lookaheads with groups where the commitment is harmless (Loosen.v, C52); carried over to UTF-8, arbitrary units and NUL-terminated subjects with all captures moved; C47_search_any: search also for patterns that start with an anchor."
  },
  {
   "property": "C48",
   "status": "proved",
   "theorems": [
    "C48_derivatives",
    "C48_first_piece",
    "C48_language",
    "C48_match_sound",
    "C48_search_sound",
    "C48_match",
    "C48_starts_with",
    "C48_search",
    "C48_match_refuted",
    "C48_match_utf8",
    "C48_match_bytes",
    "C48_match_pointer"
   ],
   "note": "regular patterns from their text; refuted without the check on loops; match on UTF-8, arbitrary units and NUL-terminated subjects"
  },
  {
   "property": "C49",
   "status": "proved",
   "theorems": [
    "C49_reported",
    "C49_bound",
    "C49_stable",
    "C49_viable",
    "C49_longest",
    "C49_shaped",
    "C49_action",
    "C49_action_refuted"
   ],
   "note": "position reported for a syntax error; refuted for rejections by semantic actions"
  },
  {
   "property": "C50",
   "status": "proved",
   "theorems": [
    "C50_either",
    "C50_either_search",
    "C50_either_answers",
    "C50_then",
    "C50_then_modes_refuted",
    "C50_then_groups_refuted"
   ],
   "note": "a|b: answers of the parts, leftmost search, totality under clashing group numbers; a>>b: concatenation for regular patterns; refuted: mode leakage and group clash of >>"
  },
  {
   "property": "C51",
   "status": "proved",
   "theorems": [
    "C51_number",
    "C51_no_number",
    "C51_cases",
    "C51_in_range",
    "C51_optional",
    "C51_notation",
    "C51_integers",
    "C51_round_trip",
    "C51_overflow_refuted",
    "C51_failed_search_refuted",
    "C51_range"
   ],
   "note": "from_chars modelled after the standard; refuted: overflow is indistinguishable from 0, to_number of a failed search; the range of a type as bit patterns"
  },
  {
   "property": "C52",
   "status": "proved",
   "theorems": [
    "C52_match",
    "C52_starts_with",
    "C52_search",
    "C52_derivations",
    "C52_gives_back_refuted",
    "C52_lookahead_group_refuted"
   ],
   "note": "on tight_check (decidable) and without groups inside atomic groups (the library does not register them); refuted without the check"
  },
  {
   "property": "C53",
   "status": "proved",
   "theorems": [
    "C53_texts",
    "C53_unambiguous",
    "C53_actions",
    "C53_accepts",
    "C53_decided",
    "C53_rejects"
   ],
   "note": "pcre.gram is transcribed by tools/gen_gram.py; sentence is leftmost derivation in it. The finite part (first characters, FOLLOW) is checked by computation and lifted to all texts by induction."
  },
  {
   "property": "C54",
   "status": "proved",
   "theorems": [
    "C54_match",
    "C54_starts_with",
    "C54_search",
    "C54_depth",
    "C54_count",
    "C54_endless",
    "C54_optimisation",
    "C54_pattern_size_refuted",
    "C54_counted",
    "C54_range_length",
    "C54_ranges",
    "C54_range_decided"
   ],
   "note": "steps counted by a function that follows eval; degree computed from the pattern; not time; ; C54_counted ties the count to an evaluator that counts as it runs; Whole ranges on arrays: length of the list, steps of the loop, and fuel that decides whether it ends."
  },
  {
   "property": "C55",
   "status": "proved",
   "theorems": [
    "C55_capacity",
    "C55_sorted",
    "C55_lower_bound",
    "C55_check",
    "C55_exact",
    "C55_sound",
    "C55_negative_refuted"
   ],
   "note": "array of fixed capacity with out-of-bounds accesses as UB; exact on positive sets, one-sided otherwise"
  },
  {
   "property": "C56",
   "status": "proved",
   "theorems": [
    "C56_evaluate",
    "C56_calls",
    "C56_result"
   ],
   "note": "a second evaluator with the out-parameter; equality for every fuel, view, flags and stack"
  },
  {
   "property": "C57",
   "status": "proved",
   "theorems": [
    "C57_search_all",
    "C57_tokenize",
    "C57_split",
    "C57_text",
    "C57_pointer",
    "C57_utf8",
    "C57_meaning",
    "C57_leftmost"
   ],
   "note": "Total correctness of the ranges against lists computed from the ordered outcomes only (RangeSpec.v): no evaluator or iterator in the specification. Checks are computable; C57_meaning and C57_leftmost tie the lists to mderives."
  },
  {
   "property": "C58",
   "status": "proved",
   "theorems": [
    "C58_plus",
    "C58_minus",
    "C58_back_again",
    "C58_range",
    "C58_reverse",
    "C58_bytes",
    "C58_equal",
    "C58_unequal",
    "C58_unequal_refuted",
    "C58_back_again_refuted",
    "C58_reverse_refuted",
    "C58_scalar_refuted",
    "C58_beyond_refuted",
    "C58_overlong_refuted",
    "C58_postfix"
   ],
   "note": "all steps, positions and texts; false parts as refutations: pointer != iterator before C++20, -- after ++ and the reverse walk on malformed units, surrogates, values beyond U+10FFFF and overlong forms are read as code points; postfix forms"
  },
  {
   "property": "C59",
   "status": "proved",
   "theorems": [
    "C59_exact",
    "C59_text",
    "C59_pointer",
    "C59_utf8",
    "C59_decided"
   ],
   "note": "hypotheses are computable checks on the pattern (range_check) and val_ok subjects; ends is a boolean function of the ordered outcomes"
  },
  {
   "property": "C60",
   "status": "proved",
   "theorems": [
    "C60_holds",
    "C60_fails",
    "C60_says_once",
    "C60_words"
   ],
   "note": "decide: computable comparison of two calls by pattern text; Holds for all subjects, Fails with a subject. Examples with equal, included, disjoint and different patterns. Not claimed: that enough fuel always exists."
  },
  {
   "property": "C61",
   "status": "proved",
   "theorems": [
    "C61_derivatives",
    "C61_ahead",
    "C61_behind",
    "C61_first",
    "C61_language",
    "C61_match",
    "C61_starts_with",
    "C61_search",
    "C61_search_utf8",
    "C61_search_pointer",
    "C61_search_refuted"
   ],
   "note": "Contextual regular expressions; derivatives; match, starts_with, search on string views, search also on UTF-8 and NUL-terminated subjects. C61_search_refuted: without the condition on anchors under a repetition the search looks at the first position only."
  },
  {
   "property": "C62",
   "status": "proved",
   "theorems": [
    "C62_same",
    "C62_enough",
    "C62_decided",
    "C62_needed",
    "C62_ahead",
    "C62_test",
    "C62_syntax",
    "C62_syntax_test",
    "C62_literal",
    "C62_gen",
    "C62_test_refuted",
    "C62_gen_refuted"
   ],
   "note": "The parser as the fold of parser.hpp with quick LL(1) moves, generic in subject and actions; decided, exact number of placeholders, one character of lookahead; the literals _ctre, _ctre_test, _ctre_gen, _ctre_syntax. Refuted: _ctre_test implies _ctre_syntax; a single item on the stack with switches of several letters."
  },
  {
   "property": "C63",
   "status": "proved",
   "theorems": [
    "C63_holds",
    "C63_fails",
    "C63_shortest",
    "C63_answers",
    "C63_complete",
    "C63_either",
    "C63_agrees",
    "C63_words"
   ],
   "note": "Complete decision procedure for any relation between the answers of two explained calls: sound both ways, always ends, shortest counterexample; decides inclusion of textbook expressions."
  },
  {
   "property": "C64",
   "status": "proved",
   "theorems": [
    "C64_exact",
    "C64_succeeds",
    "C64_same",
    "C64_utf8",
    "C64_bytes",
    "C64_pointer",
    "C64_rewriting",
    "C64_rewriting_groups"
   ],
   "note": "The calls match, starts_with, search return the first outcome of the pattern under the library's own discipline (an iteration keeps its first outcome that made progress; repetitions made possessive by the optimisation are written so), for all patterns passing meant_check, terminating and compiles; transferred to UTF-8, arbitrary bytes and NUL-terminated subjects. The optimisation is proved to be a rewriting for every pattern, view and continuation."
  },
  {
   "property": "C65",
   "status": "proved",
   "theorems": [
    "C65_tests",
    "C65_tests_unicode",
    "C65_points",
    "C65_tests_msvc",
    "C65_powers",
    "C65_primes",
    "C65_unoptimised_refuted"
   ],
   "note": "The rows are checked by computation (a finite table); the statements about is_prime.cpp hold for all subjects and numbers. props_at gives a property at the characters of the subjects only (C65_points); its whole table is unicode_props (C46). C65_unoptimised_refuted: CTRE_DISABLE_GREEDY_OPT makes an assertion of the suite run for ever."
  },
  {
   "property": "C66",
   "status": "proved",
   "theorems": [
    "C66_shape",
    "C66_escapes",
    "C66_unknown",
    "C66_escaped_self",
    "C66_groups",
    "C66_no_groups",
    "C66_balanced",
    "C66_braces",
    "C66_balanced_refuted",
    "C66_unsupported_refuted",
    "C66_fields",
    "C66_extract_number",
    "C66_extract_date",
    "C66_lexer"
   ],
   "note": "Lexical.v is the scanner; the converse (the scanner accepts more texts) is not claimed; C66_groups, C66_balanced and C66_braces speak about places before which there is no bracket and no backslash; C66_fields has the checks of C47 as hypotheses, computed for the programs; the README's search_all and Unicode programs are in C67; C66_unsupported_refuted: options work though listed as unsupported"
  },
  {
   "property": "C67",
   "status": "proved",
   "theorems": [
    "C67_words",
    "C67_split",
    "C67_split_runs",
    "C67_numbers",
    "C67_words_utf8",
    "C67_letters"
   ],
   "note": "range_check (C57) is a computable hypothesis of C67_words, C67_split and C67_split_runs, computed for the usual classes in C67_example; the hypothesis about lost_dashes in C67_letters excludes the eight code points of C45 with a wrong category"
  },
  {
   "property": "C68",
   "status": "proved",
   "theorems": [
    "C68_lexer",
    "C68_lexer_utf8",
    "C68_tokens",
    "C68_language"
   ],
   "note": "range_check (C57) is a computable hypothesis of C68_lexer and C68_lexer_utf8, computed in C68_language and C68_check_example; proper: no rule is the empty text"
  },
  {
   "property": "C69",
   "status": "proved",
   "theorems": [
    "C69_exact",
    "C69_consuming",
    "C69_decided",
    "C69_pointer",
    "C69_utf8",
    "C69_bytes",
    "C69_agrees"
   ],
   "note": "exact lists and termination of the three ranges for every pattern covered by C64; agreement with C57/C59 where both apply"
  },
  {
   "property": "C70",
   "status": "proved",
   "theorems": [
    "C70_text",
    "C70_text_ranges",
    "C70_bytes",
    "C70_bytes_ranges",
    "C70_memory",
    "C70_captures",
    "C70_captures_bytes",
    "C70_overread_refuted",
    "C70_exact",
    "C70_exact_ranges"
   ],
   "note": "Every compiling pattern on well-formed text; on any bytes patterns without lookbehind, word boundaries and multiline anchors that step back (u8_range_ok false). C70_overread_refuted: to_string of a capture ending in a cut-short sequence reads outside the bytes."
  },
  {
   "property": "C71",
   "status": "proved",
   "theorems": [
    "C71_calls",
    "C71_ranges",
    "C71_replace",
    "C71_unoptimised",
    "C71_equivalence",
    "C71_alternatives",
    "C71_sequences",
    "C71_repetitions",
    "C71_lookaheads",
    "C71_characters",
    "C71_once_refuted",
    "C71_unroll_refuted",
    "C71_factor_refuted",
    "C71_atomic_refuted",
    "C71_possessive_refuted"
   ],
   "note": "Replacement in every surroundings outside lookbehinds, laws for all patterns; calls and ranges for patterns passing the checks of C64/C69 with the same groups and the same anchor at the beginning. The _refuted theorems give the laws that fail."
  },
  {
   "property": "C72",
   "status": "proved",
   "theorems": [
    "C72_part",
    "C72_part_ranges",
    "C72_surroundings",
    "C72_capture",
    "C72_context_refuted",
    "C72_anchor_refuted",
    "C72_pipe",
    "C72_pipeline",
    "C72_pipeline_whole",
    "C72_pipe_match",
    "C72_bindings",
    "C72_bindings_refuted",
    "C72_missing"
   ],
   "note": "All arrays, parts, captures, results and numbers of stages. C72_pipeline needs the range to end (decided by exact_ends) and the checks of C64/C69 for each pattern. Structured bindings hold without hidden groups and switches of several letters; C72_bindings_refuted shows the gap.; A group that took no part is the empty subject (C72_missing)."
  },
  {
   "property": "C73",
   "status": "proved",
   "theorems": [
    "C73_sound",
    "C73_unambiguous",
    "C73_decides",
    "C73_reads",
    "C73_ignoring",
    "C73_bound",
    "C73_overlap",
    "C73_left_recursion",
    "C73_pcre",
    "C73_pcre_texts"
   ],
   "note": "The machine of ctll/parser.hpp with its fold, its quick moves and the overload resolution of rule, for any grammar; specification: derivations of the context-free grammar with actions. Completeness, uniqueness and termination under the boolean check ll1 (proved sound); pcre passes it and Trampoline.v is the instance."
  },
  {
   "property": "C74",
   "status": "proved",
   "theorems": [
    "C74_clean",
    "C74_check",
    "C74_needed"
   ],
   "note": "C74_clean for every text without the five words and without both a lookbehind and a switch; C74_check as a computable check; C74_needed: each condition has a text that breaks only this one and is a hard error. Errors after parsing (references to groups that do not exist) are not part of it."
  },
  {
   "property": "C75",
   "status": "proved",
   "theorems": [
    "C75_programs",
    "C75_answers",
    "C75_needed"
   ],
   "note": "From the text to the answer: C74 together with C47. C75_needed shows that no condition can be dropped."
  },
  {
   "property": "C76",
   "status": "proved",
   "theorems": [
    "C76_programs",
    "C76_answers",
    "C76_needed",
    "C76_exact"
   ],
   "note": "For every text without the listed words; the condition is about characters only.; C76_exact: with meant_check of C64 the answer is the best outcome."
  },
  {
   "property": "C77",
   "status": "proved",
   "theorems": [
    "C77_ends",
    "C77_ordinary",
    "C77_everyday",
    "C77_needed"
   ],
   "note": "For every text of less than 2^58 characters; conditions on the characters of the text only."
  },
  {
   "property": "C78",
   "status": "proved",
   "theorems": [
    "C78_full",
    "C78_ordinary",
    "C78_everyday",
    "C78_needed"
   ],
   "note": "Every text for the shape; ordinary and everyday texts for the exact answers. The condition on the characters is a check of the compiled tree (chars_ok), not of the text."
  },
  {
   "property": "C79",
   "status": "proved",
   "theorems": [
    "C79_literals",
    "C79_ranges",
    "C79_everyday",
    "C79_text",
    "C79_needed",
    "C79_checks",
    "C79_calls"
   ],
   "note": "Text-level conditions; texts with a minus sign need the check that the ranges of the regex are in order (C79_everyday). C79_checks and C79_calls: the checks of C64 hold for such texts, so pointers and UTF-8 texts are covered, and ranges when zero_safe."
  },
  {
   "property": "C80",
   "status": "proved",
   "theorems": [
    "C80_rotate",
    "C80_front",
    "C80_add",
    "C80_remove",
    "C80_sets",
    "C80_sets_refuted"
   ],
   "note": "ctll/list.hpp as a whole. C80_sets_refuted: with a type in the list that converts to the item the set laws fail, so C80_sets needs its hypothesis."
  }
 ]
}
