(** GENERATED by tools/gen_grammar.py from /repo/include/ctre/pcre.hpp; do not edit by hand.
    The LL(1) table of the pattern language: nonterminals (lines 13-53), semantic actions
    (lines 56-141), the set [_others] (line 144) and the rules (lines 145-461). *)
From Coq Require Import List ZArith Bool.
Import ListNotations.
Local Open Scope Z_scope.

(** pcre.hpp lines 13-53. *)
Inductive nt :=
| N_a
| N_b
| N_backslash
| N_backslash_range
| N_block
| N_block_name2
| N_block_name
| N_c
| N_class_named_name
| N_content2
| N_content_in_capture
| N_content_or_empty
| N_d
| N_e
| N_f
| N_g
| N_h
| N_hexdec_repeat
| N_i
| N_j
| N_k
| N_l
| N_m
| N_mod
| N_mode_switch2
| N_n
| N_number2
| N_number
| N_o
| N_opt_content
| N_p
| N_property_name2
| N_property_name
| N_property_value2
| N_property_value
| N_range
| N_repeat
| N_s
| N_set2a
| N_set2b
| N_string2
.

(** pcre.hpp lines 56-141. *)
Inductive action :=
| A_class_digit
| A_class_horizontal_space
| A_class_named_alnum
| A_class_named_alpha
| A_class_named_ascii
| A_class_named_blank
| A_class_named_cntrl
| A_class_named_digit
| A_class_named_graph
| A_class_named_lower
| A_class_named_print
| A_class_named_punct
| A_class_named_space
| A_class_named_upper
| A_class_named_word
| A_class_named_xdigit
| A_class_non_horizontal_space
| A_class_non_vertical_space
| A_class_nondigit
| A_class_nonnewline
| A_class_nonspace
| A_class_nonword
| A_class_space
| A_class_vertical_space
| A_class_word
| A_create_hexdec
| A_create_number
| A_finish_hexdec
| A_look_finish
| A_make_alternate
| A_make_atomic
| A_make_back_reference
| A_make_capture
| A_make_capture_with_name
| A_make_lazy
| A_make_optional
| A_make_possessive
| A_make_property
| A_make_property_negative
| A_make_range
| A_make_relative_back_reference
| A_make_sequence
| A_mode_case_insensitive
| A_mode_case_sensitive
| A_mode_multiline
| A_mode_singleline
| A_negate_class_named
| A_prepare_capture
| A_push_assert_begin
| A_push_assert_end
| A_push_assert_subject_begin
| A_push_assert_subject_end
| A_push_assert_subject_end_with_lineend
| A_push_character
| A_push_character_alarm
| A_push_character_anything
| A_push_character_escape
| A_push_character_formfeed
| A_push_character_newline
| A_push_character_null
| A_push_character_return_carriage
| A_push_character_tab
| A_push_empty
| A_push_hexdec
| A_push_name
| A_push_not_word_boundary
| A_push_number
| A_push_property_name
| A_push_property_value
| A_push_word_boundary
| A_repeat_ab
| A_repeat_at_least
| A_repeat_exactly
| A_repeat_plus
| A_repeat_star
| A_reset_capture
| A_set_combine
| A_set_empty
| A_set_make
| A_set_make_negative
| A_set_start
| A_start_atomic
| A_start_lookahead_negative
| A_start_lookahead_positive
| A_start_lookbehind_negative
| A_start_lookbehind_positive
.

(** ctll/grammars.hpp: symbols that may be on the parser stack. *)
Inductive sym :=
| NT (n : nt)
| Act (a : action)
| TTerm (c : Z)          (* ctll::term<c> *)
| TAny                   (* ctll::anything *)
| TSet (l : list Z).     (* ctll::set<...> *)

(** Second argument of [rule]: exact term, set, [_others] or end of input. *)
Inductive tmatch := MTerm (c : Z) | MSet (l : list Z) | MOthers | MEps.

(** Result of [rule]: push a string of symbols (ctll::epsilon is the empty one) or reject. *)
Inductive rhs := Push (l : list sym) | Rej.

(** pcre.hpp line 144: characters excluded by [_others]. *)
Definition not_others : list Z := [33; 36; 40; 41; 42; 43; 44; 45; 46; 47; 48; 49; 50; 51; 52; 53; 54; 55; 56; 57; 58; 60; 61; 62; 63; 65; 66; 67; 68; 69; 70; 71; 72; 73; 74; 75; 76; 77; 78; 79; 80; 81; 82; 83; 84; 85; 86; 87; 88; 89; 90; 91; 92; 34; 93; 94; 95; 97; 98; 99; 100; 101; 102; 103; 104; 105; 106; 107; 108; 109; 110; 111; 112; 113; 114; 115; 116; 117; 118; 119; 120; 121; 122; 123; 124; 125].

Definition set0 : list Z := [33; 44; 45; 47; 48; 49; 50; 51; 52; 53; 54; 55; 56; 57; 58; 60; 61; 62; 65; 66; 67; 68; 69; 70; 71; 72; 73; 74; 75; 76; 77; 78; 79; 80; 81; 82; 83; 84; 85; 86; 87; 88; 89; 90; 34; 93; 95; 97; 98; 99; 100; 101; 102; 103; 104; 105; 106; 107; 108; 109; 110; 111; 112; 113; 114; 115; 116; 117; 118; 119; 120; 121; 122].
Definition set1 : list Z := [41; 42; 43; 63; 123; 125].
Definition set2 : list Z := [42; 43; 63; 123; 124; 125].
Definition set3 : list Z := [49; 50; 51; 52; 53; 54; 55; 56; 57].
Definition set4 : list Z := [36; 40; 41; 42; 43; 45; 46; 47; 60; 62; 63; 91; 92; 34; 93; 94; 123; 124; 125].
Definition set5 : list Z := [42; 43; 123; 125].
Definition set6 : list Z := [62; 125].
Definition set7 : list Z := [48; 49; 50; 51; 52; 53; 54; 55; 56; 57; 65; 66; 67; 68; 69; 70; 71; 72; 73; 74; 75; 76; 77; 78; 79; 80; 81; 82; 83; 84; 85; 86; 87; 88; 89; 90; 95; 97; 98; 99; 100; 101; 102; 103; 104; 105; 106; 107; 108; 109; 110; 111; 112; 113; 114; 115; 116; 117; 118; 119; 120; 121; 122].
Definition set8 : list Z := [65; 66; 67; 68; 69; 70; 71; 72; 73; 74; 75; 76; 77; 78; 79; 80; 81; 82; 83; 84; 85; 86; 87; 88; 89; 90; 95; 97; 98; 99; 100; 101; 102; 103; 104; 105; 106; 107; 108; 109; 110; 111; 112; 113; 114; 115; 116; 117; 118; 119; 120; 121; 122].
Definition set9 : list Z := [33; 36; 40; 41; 42; 43; 44; 46; 47; 48; 49; 50; 51; 52; 53; 54; 55; 56; 57; 58; 60; 61; 62; 63; 65; 66; 67; 68; 69; 70; 71; 72; 73; 74; 75; 76; 77; 78; 79; 80; 81; 82; 83; 84; 85; 86; 87; 88; 89; 90; 34; 95; 97; 98; 99; 100; 101; 102; 103; 104; 105; 106; 107; 108; 109; 110; 111; 112; 113; 114; 115; 116; 117; 118; 119; 120; 121; 122; 123; 124; 125].
Definition set10 : list Z := [45; 93].
Definition set11 : list Z := [42; 43; 63; 123; 125].
Definition set12 : list Z := [48; 49; 50; 51; 52; 53; 54; 55; 56; 57; 65; 66; 67; 68; 69; 70; 97; 98; 99; 100; 101; 102].
Definition set13 : list Z := [33; 36; 40; 41; 42; 43; 44; 46; 47; 48; 49; 50; 51; 52; 53; 54; 55; 56; 57; 58; 60; 61; 62; 63; 65; 66; 67; 68; 69; 70; 71; 72; 73; 74; 75; 76; 77; 78; 79; 80; 81; 82; 83; 84; 85; 86; 87; 88; 89; 90; 34; 94; 95; 97; 98; 99; 100; 101; 102; 103; 104; 105; 106; 107; 108; 109; 110; 111; 112; 113; 114; 115; 116; 117; 118; 119; 120; 121; 122; 123; 124; 125].
Definition set14 : list Z := [45; 91; 93].
Definition set15 : list Z := [48; 49; 50; 51; 52; 53; 54; 55; 56; 57].
Definition set16 : list Z := [33; 36; 40; 41; 44; 45; 46; 47; 48; 49; 50; 51; 52; 53; 54; 55; 56; 57; 58; 60; 61; 62; 65; 66; 67; 68; 69; 70; 71; 72; 73; 74; 75; 76; 77; 78; 79; 80; 81; 82; 83; 84; 85; 86; 87; 88; 89; 90; 91; 92; 34; 93; 94; 95; 97; 98; 99; 100; 101; 102; 103; 104; 105; 106; 107; 108; 109; 110; 111; 112; 113; 114; 115; 116; 117; 118; 119; 120; 121; 122; 124].
Definition set17 : list Z := [42; 123; 125].
Definition set18 : list Z := [44; 125].
Definition set19 : list Z := [41; 42; 43; 63; 123; 124; 125].
Definition set20 : list Z := [46; 48; 49; 50; 51; 52; 53; 54; 55; 56; 57; 65; 66; 67; 68; 69; 70; 71; 72; 73; 74; 75; 76; 77; 78; 79; 80; 81; 82; 83; 84; 85; 86; 87; 88; 89; 90; 95; 97; 98; 99; 100; 101; 102; 103; 104; 105; 106; 107; 108; 109; 110; 111; 112; 113; 114; 115; 116; 117; 118; 119; 120; 121; 122].
Definition set21 : list Z := [33; 36; 40; 41; 42; 43; 44; 46; 47; 48; 49; 50; 51; 52; 53; 54; 55; 56; 57; 58; 60; 61; 62; 63; 65; 66; 67; 68; 69; 70; 71; 72; 73; 74; 75; 76; 77; 78; 79; 80; 81; 82; 83; 84; 85; 86; 87; 88; 89; 90; 91; 92; 34; 93; 94; 95; 97; 98; 99; 100; 101; 102; 103; 104; 105; 106; 107; 108; 109; 110; 111; 112; 113; 114; 115; 116; 117; 118; 119; 120; 121; 122; 123; 124; 125].
Definition set22 : list Z := [41; 124].

(** pcre.hpp lines 145-461: the rules of each nonterminal, in source order. *)
Definition rules (n : nt) : list (tmatch * rhs) :=
  match n with
  | N_a => (* lines 157-167 *)
    [ (MTerm 92, Push [TAny; NT N_backslash; NT N_repeat; NT N_string2; NT N_content2; Act A_make_alternate])
    ; (MTerm 91, Push [TAny; NT N_c; NT N_repeat; NT N_string2; NT N_content2; Act A_make_alternate])
    ; (MTerm 40, Push [TAny; Act A_prepare_capture; NT N_block; NT N_repeat; NT N_string2; NT N_content2; Act A_make_alternate])
    ; (MTerm 94, Push [TAny; Act A_push_assert_begin; NT N_repeat; NT N_string2; NT N_content2; Act A_make_alternate])
    ; (MTerm 36, Push [TAny; Act A_push_assert_end; NT N_repeat; NT N_string2; NT N_content2; Act A_make_alternate])
    ; (MSet set0, Push [TAny; Act A_push_character; NT N_repeat; NT N_string2; NT N_content2; Act A_make_alternate])
    ; (MOthers, Push [TAny; Act A_push_character; NT N_repeat; NT N_string2; NT N_content2; Act A_make_alternate])
    ; (MTerm 46, Push [TAny; Act A_push_character_anything; NT N_repeat; NT N_string2; NT N_content2; Act A_make_alternate])
    ; (MTerm 41, Push [Act A_push_empty; Act A_make_alternate])
    ; (MEps, Push [Act A_push_empty; Act A_make_alternate])
    ; (MSet set2, Rej) ]
  | N_b => (* lines 169-170 *)
    [ (MTerm 44, Push [TAny; NT N_n])
    ; (MTerm 125, Push [Act A_repeat_exactly; TAny]) ]
  | N_backslash => (* lines 172-201 *)
    [ (MTerm 100, Push [TAny; Act A_class_digit])
    ; (MTerm 104, Push [TAny; Act A_class_horizontal_space])
    ; (MTerm 72, Push [TAny; Act A_class_non_horizontal_space])
    ; (MTerm 86, Push [TAny; Act A_class_non_vertical_space])
    ; (MTerm 68, Push [TAny; Act A_class_nondigit])
    ; (MTerm 78, Push [TAny; Act A_class_nonnewline])
    ; (MTerm 83, Push [TAny; Act A_class_nonspace])
    ; (MTerm 87, Push [TAny; Act A_class_nonword])
    ; (MTerm 115, Push [TAny; Act A_class_space])
    ; (MTerm 118, Push [TAny; Act A_class_vertical_space])
    ; (MTerm 119, Push [TAny; Act A_class_word])
    ; (MSet set3, Push [TAny; Act A_create_number; Act A_make_back_reference])
    ; (MTerm 103, Push [TAny; TTerm 123; NT N_m])
    ; (MTerm 112, Push [TAny; TTerm 123; NT N_property_name; TTerm 125; Act A_make_property])
    ; (MTerm 80, Push [TAny; TTerm 123; NT N_property_name; TTerm 125; Act A_make_property_negative])
    ; (MTerm 117, Push [TAny; NT N_k])
    ; (MTerm 120, Push [TAny; NT N_l])
    ; (MTerm 65, Push [TAny; Act A_push_assert_subject_begin])
    ; (MTerm 122, Push [TAny; Act A_push_assert_subject_end])
    ; (MTerm 90, Push [TAny; Act A_push_assert_subject_end_with_lineend])
    ; (MSet set4, Push [TAny; Act A_push_character])
    ; (MTerm 97, Push [TAny; Act A_push_character_alarm])
    ; (MTerm 101, Push [TAny; Act A_push_character_escape])
    ; (MTerm 102, Push [TAny; Act A_push_character_formfeed])
    ; (MTerm 110, Push [TAny; Act A_push_character_newline])
    ; (MTerm 48, Push [TAny; Act A_push_character_null])
    ; (MTerm 114, Push [TAny; Act A_push_character_return_carriage])
    ; (MTerm 116, Push [TAny; Act A_push_character_tab])
    ; (MTerm 66, Push [TAny; Act A_push_not_word_boundary])
    ; (MTerm 98, Push [TAny; Act A_push_word_boundary]) ]
  | N_backslash_range => (* lines 203-212 *)
    [ (MTerm 117, Push [TAny; NT N_k])
    ; (MTerm 120, Push [TAny; NT N_l])
    ; (MSet set4, Push [TAny; Act A_push_character])
    ; (MTerm 97, Push [TAny; Act A_push_character_alarm])
    ; (MTerm 101, Push [TAny; Act A_push_character_escape])
    ; (MTerm 102, Push [TAny; Act A_push_character_formfeed])
    ; (MTerm 110, Push [TAny; Act A_push_character_newline])
    ; (MTerm 48, Push [TAny; Act A_push_character_null])
    ; (MTerm 114, Push [TAny; Act A_push_character_return_carriage])
    ; (MTerm 116, Push [TAny; Act A_push_character_tab]) ]
  | N_block => (* lines 214-225 *)
    [ (MTerm 92, Push [TAny; NT N_backslash; NT N_repeat; NT N_string2; NT N_content2; Act A_make_capture; TTerm 41])
    ; (MTerm 91, Push [TAny; NT N_c; NT N_repeat; NT N_string2; NT N_content2; Act A_make_capture; TTerm 41])
    ; (MTerm 63, Push [TAny; NT N_d])
    ; (MTerm 40, Push [TAny; Act A_prepare_capture; NT N_block; NT N_repeat; NT N_string2; NT N_content2; Act A_make_capture; TTerm 41])
    ; (MTerm 94, Push [TAny; Act A_push_assert_begin; NT N_repeat; NT N_string2; NT N_content2; Act A_make_capture; TTerm 41])
    ; (MTerm 36, Push [TAny; Act A_push_assert_end; NT N_repeat; NT N_string2; NT N_content2; Act A_make_capture; TTerm 41])
    ; (MSet set0, Push [TAny; Act A_push_character; NT N_repeat; NT N_string2; NT N_content2; Act A_make_capture; TTerm 41])
    ; (MOthers, Push [TAny; Act A_push_character; NT N_repeat; NT N_string2; NT N_content2; Act A_make_capture; TTerm 41])
    ; (MTerm 46, Push [TAny; Act A_push_character_anything; NT N_repeat; NT N_string2; NT N_content2; Act A_make_capture; TTerm 41])
    ; (MTerm 124, Push [TAny; Act A_push_empty; NT N_content_or_empty; Act A_make_alternate; Act A_make_capture; TTerm 41])
    ; (MTerm 41, Push [Act A_push_empty; Act A_make_capture; TAny])
    ; (MSet set5, Rej) ]
  | N_block_name2 => (* lines 227-228 *)
    [ (MSet set6, Push [])
    ; (MSet set7, Push [TAny; Act A_push_name; NT N_block_name2]) ]
  | N_block_name => (* lines 230-230 *)
    [ (MSet set8, Push [TAny; Act A_push_name; NT N_block_name2]) ]
  | N_c => (* lines 232-237 *)
    [ (MTerm 91, Push [TAny; TTerm 58; NT N_i; NT N_range; Act A_set_start; NT N_set2b; Act A_set_make; TTerm 93])
    ; (MTerm 92, Push [TAny; NT N_e; Act A_set_start; NT N_set2b; Act A_set_make; TTerm 93])
    ; (MSet set9, Push [TAny; Act A_push_character; NT N_range; Act A_set_start; NT N_set2b; Act A_set_make; TTerm 93])
    ; (MOthers, Push [TAny; Act A_push_character; NT N_range; Act A_set_start; NT N_set2b; Act A_set_make; TTerm 93])
    ; (MTerm 94, Push [TAny; NT N_set2a; Act A_set_make_negative; TTerm 93])
    ; (MSet set10, Rej) ]
  | N_class_named_name => (* lines 239-249 *)
    [ (MTerm 120, Push [TAny; TTerm 100; TTerm 105; TTerm 103; TTerm 105; TTerm 116; Act A_class_named_xdigit])
    ; (MTerm 100, Push [TAny; TTerm 105; TTerm 103; TTerm 105; TTerm 116; Act A_class_named_digit])
    ; (MTerm 98, Push [TAny; TTerm 108; TTerm 97; TTerm 110; TTerm 107; Act A_class_named_blank])
    ; (MTerm 99, Push [TAny; TTerm 110; TTerm 116; TTerm 114; TTerm 108; Act A_class_named_cntrl])
    ; (MTerm 119, Push [TAny; TTerm 111; TTerm 114; TTerm 100; Act A_class_named_word])
    ; (MTerm 108, Push [TAny; TTerm 111; TTerm 119; TTerm 101; TTerm 114; Act A_class_named_lower])
    ; (MTerm 115, Push [TAny; TTerm 112; TTerm 97; TTerm 99; TTerm 101; Act A_class_named_space])
    ; (MTerm 117, Push [TAny; TTerm 112; TTerm 112; TTerm 101; TTerm 114; Act A_class_named_upper])
    ; (MTerm 103, Push [TAny; TTerm 114; TTerm 97; TTerm 112; TTerm 104; Act A_class_named_graph])
    ; (MTerm 97, Push [TAny; NT N_g])
    ; (MTerm 112, Push [TAny; NT N_h]) ]
  | N_content2 => (* lines 251-253 *)
    [ (MTerm 41, Push [])
    ; (MEps, Push [])
    ; (MTerm 124, Push [TAny; NT N_a]) ]
  | N_content_in_capture => (* lines 255-265 *)
    [ (MTerm 92, Push [TAny; NT N_backslash; NT N_repeat; NT N_string2; NT N_content2])
    ; (MTerm 91, Push [TAny; NT N_c; NT N_repeat; NT N_string2; NT N_content2])
    ; (MTerm 40, Push [TAny; Act A_prepare_capture; NT N_block; NT N_repeat; NT N_string2; NT N_content2])
    ; (MTerm 94, Push [TAny; Act A_push_assert_begin; NT N_repeat; NT N_string2; NT N_content2])
    ; (MTerm 36, Push [TAny; Act A_push_assert_end; NT N_repeat; NT N_string2; NT N_content2])
    ; (MSet set0, Push [TAny; Act A_push_character; NT N_repeat; NT N_string2; NT N_content2])
    ; (MOthers, Push [TAny; Act A_push_character; NT N_repeat; NT N_string2; NT N_content2])
    ; (MTerm 46, Push [TAny; Act A_push_character_anything; NT N_repeat; NT N_string2; NT N_content2])
    ; (MTerm 124, Push [TAny; Act A_push_empty; NT N_content_or_empty; Act A_make_alternate])
    ; (MTerm 41, Push [Act A_push_empty])
    ; (MSet set11, Rej) ]
  | N_content_or_empty => (* lines 267-276 *)
    [ (MTerm 92, Push [TAny; NT N_backslash; NT N_repeat; NT N_string2; NT N_content2])
    ; (MTerm 91, Push [TAny; NT N_c; NT N_repeat; NT N_string2; NT N_content2])
    ; (MTerm 40, Push [TAny; Act A_prepare_capture; NT N_block; NT N_repeat; NT N_string2; NT N_content2])
    ; (MTerm 94, Push [TAny; Act A_push_assert_begin; NT N_repeat; NT N_string2; NT N_content2])
    ; (MTerm 36, Push [TAny; Act A_push_assert_end; NT N_repeat; NT N_string2; NT N_content2])
    ; (MSet set0, Push [TAny; Act A_push_character; NT N_repeat; NT N_string2; NT N_content2])
    ; (MOthers, Push [TAny; Act A_push_character; NT N_repeat; NT N_string2; NT N_content2])
    ; (MTerm 46, Push [TAny; Act A_push_character_anything; NT N_repeat; NT N_string2; NT N_content2])
    ; (MTerm 41, Push [Act A_push_empty])
    ; (MSet set2, Rej) ]
  | N_d => (* lines 278-286 *)
    [ (MTerm 105, Push [TAny; Act A_mode_case_insensitive; NT N_mode_switch2])
    ; (MTerm 99, Push [TAny; Act A_mode_case_sensitive; NT N_mode_switch2])
    ; (MTerm 109, Push [TAny; Act A_mode_multiline; NT N_mode_switch2])
    ; (MTerm 115, Push [TAny; Act A_mode_singleline; NT N_mode_switch2])
    ; (MTerm 60, Push [TAny; NT N_o])
    ; (MTerm 58, Push [TAny; Act A_reset_capture; NT N_content_in_capture; TTerm 41])
    ; (MTerm 62, Push [TAny; Act A_reset_capture; Act A_start_atomic; NT N_content_in_capture; Act A_make_atomic; TTerm 41])
    ; (MTerm 33, Push [TAny; Act A_reset_capture; Act A_start_lookahead_negative; NT N_content_in_capture; Act A_look_finish; TTerm 41])
    ; (MTerm 61, Push [TAny; Act A_reset_capture; Act A_start_lookahead_positive; NT N_content_in_capture; Act A_look_finish; TTerm 41]) ]
  | N_e => (* lines 288-310 *)
    [ (MTerm 100, Push [TAny; Act A_class_digit])
    ; (MTerm 104, Push [TAny; Act A_class_horizontal_space])
    ; (MTerm 72, Push [TAny; Act A_class_non_horizontal_space])
    ; (MTerm 86, Push [TAny; Act A_class_non_vertical_space])
    ; (MTerm 68, Push [TAny; Act A_class_nondigit])
    ; (MTerm 78, Push [TAny; Act A_class_nonnewline])
    ; (MTerm 83, Push [TAny; Act A_class_nonspace])
    ; (MTerm 87, Push [TAny; Act A_class_nonword])
    ; (MTerm 115, Push [TAny; Act A_class_space])
    ; (MTerm 118, Push [TAny; Act A_class_vertical_space])
    ; (MTerm 119, Push [TAny; Act A_class_word])
    ; (MTerm 112, Push [TAny; TTerm 123; NT N_property_name; TTerm 125; Act A_make_property])
    ; (MTerm 80, Push [TAny; TTerm 123; NT N_property_name; TTerm 125; Act A_make_property_negative])
    ; (MTerm 117, Push [TAny; NT N_k; NT N_range])
    ; (MTerm 120, Push [TAny; NT N_l; NT N_range])
    ; (MSet set4, Push [TAny; Act A_push_character; NT N_range])
    ; (MTerm 97, Push [TAny; Act A_push_character_alarm; NT N_range])
    ; (MTerm 101, Push [TAny; Act A_push_character_escape; NT N_range])
    ; (MTerm 102, Push [TAny; Act A_push_character_formfeed; NT N_range])
    ; (MTerm 110, Push [TAny; Act A_push_character_newline; NT N_range])
    ; (MTerm 48, Push [TAny; Act A_push_character_null; NT N_range])
    ; (MTerm 114, Push [TAny; Act A_push_character_return_carriage; NT N_range])
    ; (MTerm 116, Push [TAny; Act A_push_character_tab; NT N_range]) ]
  | N_f => (* lines 312-334 *)
    [ (MTerm 100, Push [TAny; Act A_class_digit])
    ; (MTerm 104, Push [TAny; Act A_class_horizontal_space])
    ; (MTerm 72, Push [TAny; Act A_class_non_horizontal_space])
    ; (MTerm 86, Push [TAny; Act A_class_non_vertical_space])
    ; (MTerm 68, Push [TAny; Act A_class_nondigit])
    ; (MTerm 78, Push [TAny; Act A_class_nonnewline])
    ; (MTerm 83, Push [TAny; Act A_class_nonspace])
    ; (MTerm 87, Push [TAny; Act A_class_nonword])
    ; (MTerm 115, Push [TAny; Act A_class_space])
    ; (MTerm 118, Push [TAny; Act A_class_vertical_space])
    ; (MTerm 119, Push [TAny; Act A_class_word])
    ; (MTerm 112, Push [TAny; TTerm 123; NT N_property_name; TTerm 125; Act A_make_property])
    ; (MTerm 80, Push [TAny; TTerm 123; NT N_property_name; TTerm 125; Act A_make_property_negative])
    ; (MTerm 117, Push [TAny; NT N_k; NT N_range])
    ; (MTerm 120, Push [TAny; NT N_l; NT N_range])
    ; (MSet set4, Push [TAny; Act A_push_character; NT N_range])
    ; (MTerm 97, Push [TAny; Act A_push_character_alarm; NT N_range])
    ; (MTerm 101, Push [TAny; Act A_push_character_escape; NT N_range])
    ; (MTerm 102, Push [TAny; Act A_push_character_formfeed; NT N_range])
    ; (MTerm 110, Push [TAny; Act A_push_character_newline; NT N_range])
    ; (MTerm 48, Push [TAny; Act A_push_character_null; NT N_range])
    ; (MTerm 114, Push [TAny; Act A_push_character_return_carriage; NT N_range])
    ; (MTerm 116, Push [TAny; Act A_push_character_tab; NT N_range]) ]
  | N_g => (* lines 336-337 *)
    [ (MTerm 115, Push [TAny; TTerm 99; TTerm 105; TTerm 105; Act A_class_named_ascii])
    ; (MTerm 108, Push [TAny; NT N_p]) ]
  | N_h => (* lines 339-340 *)
    [ (MTerm 114, Push [TAny; TTerm 105; TTerm 110; TTerm 116; Act A_class_named_print])
    ; (MTerm 117, Push [TAny; TTerm 110; TTerm 99; TTerm 116; Act A_class_named_punct]) ]
  | N_hexdec_repeat => (* lines 342-343 *)
    [ (MTerm 125, Push [])
    ; (MSet set12, Push [TAny; Act A_push_hexdec; NT N_hexdec_repeat]) ]
  | N_i => (* lines 345-356 *)
    [ (MTerm 94, Push [TAny; NT N_class_named_name; Act A_negate_class_named; TTerm 58; TTerm 93])
    ; (MTerm 120, Push [TAny; TTerm 100; TTerm 105; TTerm 103; TTerm 105; TTerm 116; Act A_class_named_xdigit; TTerm 58; TTerm 93])
    ; (MTerm 100, Push [TAny; TTerm 105; TTerm 103; TTerm 105; TTerm 116; Act A_class_named_digit; TTerm 58; TTerm 93])
    ; (MTerm 98, Push [TAny; TTerm 108; TTerm 97; TTerm 110; TTerm 107; Act A_class_named_blank; TTerm 58; TTerm 93])
    ; (MTerm 99, Push [TAny; TTerm 110; TTerm 116; TTerm 114; TTerm 108; Act A_class_named_cntrl; TTerm 58; TTerm 93])
    ; (MTerm 119, Push [TAny; TTerm 111; TTerm 114; TTerm 100; Act A_class_named_word; TTerm 58; TTerm 93])
    ; (MTerm 108, Push [TAny; TTerm 111; TTerm 119; TTerm 101; TTerm 114; Act A_class_named_lower; TTerm 58; TTerm 93])
    ; (MTerm 115, Push [TAny; TTerm 112; TTerm 97; TTerm 99; TTerm 101; Act A_class_named_space; TTerm 58; TTerm 93])
    ; (MTerm 117, Push [TAny; TTerm 112; TTerm 112; TTerm 101; TTerm 114; Act A_class_named_upper; TTerm 58; TTerm 93])
    ; (MTerm 103, Push [TAny; TTerm 114; TTerm 97; TTerm 112; TTerm 104; Act A_class_named_graph; TTerm 58; TTerm 93])
    ; (MTerm 97, Push [TAny; NT N_g; TTerm 58; TTerm 93])
    ; (MTerm 112, Push [TAny; NT N_h; TTerm 58; TTerm 93]) ]
  | N_j => (* lines 358-361 *)
    [ (MTerm 92, Push [TAny; NT N_backslash_range; Act A_make_range])
    ; (MSet set13, Push [TAny; Act A_push_character; Act A_make_range])
    ; (MOthers, Push [TAny; Act A_push_character; Act A_make_range])
    ; (MSet set14, Rej) ]
  | N_k => (* lines 363-364 *)
    [ (MTerm 123, Push [Act A_create_hexdec; TAny; TSet set12; Act A_push_hexdec; NT N_hexdec_repeat; TTerm 125; Act A_finish_hexdec])
    ; (MSet set12, Push [Act A_create_hexdec; TAny; Act A_push_hexdec; TSet set12; Act A_push_hexdec; TSet set12; Act A_push_hexdec; TSet set12; Act A_push_hexdec; Act A_finish_hexdec]) ]
  | N_l => (* lines 366-367 *)
    [ (MTerm 123, Push [Act A_create_hexdec; TAny; TSet set12; Act A_push_hexdec; NT N_hexdec_repeat; TTerm 125; Act A_finish_hexdec])
    ; (MSet set12, Push [Act A_create_hexdec; TAny; Act A_push_hexdec; TSet set12; Act A_push_hexdec; Act A_finish_hexdec]) ]
  | N_m => (* lines 369-371 *)
    [ (MSet set15, Push [TAny; Act A_create_number; NT N_number2; TTerm 125; Act A_make_back_reference])
    ; (MTerm 45, Push [TAny; NT N_number; TTerm 125; Act A_make_relative_back_reference])
    ; (MSet set8, Push [TAny; Act A_push_name; NT N_block_name2; TTerm 125; Act A_make_back_reference]) ]
  | N_mod => (* lines 373-378 *)
    [ (MSet set16, Push [])
    ; (MEps, Push [])
    ; (MOthers, Push [])
    ; (MTerm 63, Push [TAny; Act A_make_lazy])
    ; (MTerm 43, Push [TAny; Act A_make_possessive])
    ; (MSet set17, Rej) ]
  | N_mode_switch2 => (* lines 380-384 *)
    [ (MTerm 105, Push [TAny; Act A_mode_case_insensitive; NT N_mode_switch2])
    ; (MTerm 99, Push [TAny; Act A_mode_case_sensitive; NT N_mode_switch2])
    ; (MTerm 109, Push [TAny; Act A_mode_multiline; NT N_mode_switch2])
    ; (MTerm 115, Push [TAny; Act A_mode_singleline; NT N_mode_switch2])
    ; (MTerm 41, Push [TAny]) ]
  | N_n => (* lines 386-387 *)
    [ (MSet set15, Push [NT N_number; Act A_repeat_ab; TTerm 125; NT N_mod])
    ; (MTerm 125, Push [Act A_repeat_at_least; TAny; NT N_mod]) ]
  | N_number2 => (* lines 389-390 *)
    [ (MSet set18, Push [])
    ; (MSet set15, Push [TAny; Act A_push_number; NT N_number2]) ]
  | N_number => (* lines 392-392 *)
    [ (MSet set15, Push [TAny; Act A_create_number; NT N_number2]) ]
  | N_o => (* lines 394-396 *)
    [ (MSet set8, Push [NT N_block_name; TTerm 62; NT N_content_in_capture; Act A_make_capture_with_name; TTerm 41])
    ; (MTerm 33, Push [TAny; Act A_reset_capture; Act A_start_lookbehind_negative; NT N_content_in_capture; Act A_look_finish; TTerm 41])
    ; (MTerm 61, Push [TAny; Act A_reset_capture; Act A_start_lookbehind_positive; NT N_content_in_capture; Act A_look_finish; TTerm 41]) ]
  | N_opt_content => (* lines 398-407 *)
    [ (MTerm 92, Push [TAny; NT N_backslash; NT N_repeat; NT N_string2; NT N_content2])
    ; (MTerm 91, Push [TAny; NT N_c; NT N_repeat; NT N_string2; NT N_content2])
    ; (MTerm 40, Push [TAny; Act A_prepare_capture; NT N_block; NT N_repeat; NT N_string2; NT N_content2])
    ; (MTerm 94, Push [TAny; Act A_push_assert_begin; NT N_repeat; NT N_string2; NT N_content2])
    ; (MTerm 36, Push [TAny; Act A_push_assert_end; NT N_repeat; NT N_string2; NT N_content2])
    ; (MSet set0, Push [TAny; Act A_push_character; NT N_repeat; NT N_string2; NT N_content2])
    ; (MOthers, Push [TAny; Act A_push_character; NT N_repeat; NT N_string2; NT N_content2])
    ; (MTerm 46, Push [TAny; Act A_push_character_anything; NT N_repeat; NT N_string2; NT N_content2])
    ; (MEps, Push [Act A_push_empty])
    ; (MSet set19, Rej) ]
  | N_p => (* lines 409-410 *)
    [ (MTerm 112, Push [TAny; TTerm 104; TTerm 97; Act A_class_named_alpha])
    ; (MTerm 110, Push [TAny; TTerm 117; TTerm 109; Act A_class_named_alnum]) ]
  | N_property_name2 => (* lines 412-414 *)
    [ (MTerm 125, Push [])
    ; (MTerm 61, Push [TAny; NT N_property_value])
    ; (MSet set20, Push [TAny; Act A_push_property_name; NT N_property_name2]) ]
  | N_property_name => (* lines 416-416 *)
    [ (MSet set20, Push [TAny; Act A_push_property_name; NT N_property_name2]) ]
  | N_property_value2 => (* lines 418-419 *)
    [ (MTerm 125, Push [])
    ; (MSet set20, Push [TAny; Act A_push_property_value; NT N_property_value2]) ]
  | N_property_value => (* lines 421-421 *)
    [ (MSet set20, Push [TAny; Act A_push_property_value; NT N_property_value2]) ]
  | N_range => (* lines 423-426 *)
    [ (MSet set21, Push [])
    ; (MEps, Push [])
    ; (MOthers, Push [])
    ; (MTerm 45, Push [TAny; NT N_j]) ]
  | N_repeat => (* lines 428-435 *)
    [ (MSet set16, Push [])
    ; (MEps, Push [])
    ; (MOthers, Push [])
    ; (MTerm 63, Push [TAny; Act A_make_optional; NT N_mod])
    ; (MTerm 123, Push [TAny; NT N_number; NT N_b])
    ; (MTerm 43, Push [TAny; Act A_repeat_plus; NT N_mod])
    ; (MTerm 42, Push [TAny; Act A_repeat_star; NT N_mod])
    ; (MTerm 125, Rej) ]
  | N_s => (* lines 145-155 *)
    [ (MTerm 92, Push [TAny; NT N_backslash; NT N_repeat; NT N_string2; NT N_content2])
    ; (MTerm 91, Push [TAny; NT N_c; NT N_repeat; NT N_string2; NT N_content2])
    ; (MTerm 40, Push [TAny; Act A_prepare_capture; NT N_block; NT N_repeat; NT N_string2; NT N_content2])
    ; (MTerm 94, Push [TAny; Act A_push_assert_begin; NT N_repeat; NT N_string2; NT N_content2])
    ; (MTerm 36, Push [TAny; Act A_push_assert_end; NT N_repeat; NT N_string2; NT N_content2])
    ; (MSet set0, Push [TAny; Act A_push_character; NT N_repeat; NT N_string2; NT N_content2])
    ; (MOthers, Push [TAny; Act A_push_character; NT N_repeat; NT N_string2; NT N_content2])
    ; (MTerm 46, Push [TAny; Act A_push_character_anything; NT N_repeat; NT N_string2; NT N_content2])
    ; (MTerm 124, Push [TAny; Act A_push_empty; NT N_opt_content; Act A_make_alternate])
    ; (MEps, Push [Act A_push_empty])
    ; (MSet set1, Rej) ]
  | N_set2a => (* lines 437-442 *)
    [ (MTerm 91, Push [TAny; TTerm 58; NT N_i; NT N_range; Act A_set_start; NT N_set2b])
    ; (MTerm 92, Push [TAny; NT N_f; Act A_set_start; NT N_set2b])
    ; (MSet set13, Push [TAny; Act A_push_character; NT N_range; Act A_set_start; NT N_set2b])
    ; (MOthers, Push [TAny; Act A_push_character; NT N_range; Act A_set_start; NT N_set2b])
    ; (MTerm 93, Push [Act A_set_empty])
    ; (MTerm 45, Rej) ]
  | N_set2b => (* lines 444-449 *)
    [ (MTerm 93, Push [])
    ; (MTerm 91, Push [TAny; TTerm 58; NT N_i; NT N_range; Act A_set_combine; NT N_set2b])
    ; (MTerm 92, Push [TAny; NT N_f; Act A_set_combine; NT N_set2b])
    ; (MSet set13, Push [TAny; Act A_push_character; NT N_range; Act A_set_combine; NT N_set2b])
    ; (MOthers, Push [TAny; Act A_push_character; NT N_range; Act A_set_combine; NT N_set2b])
    ; (MTerm 45, Rej) ]
  | N_string2 => (* lines 451-461 *)
    [ (MSet set22, Push [])
    ; (MEps, Push [])
    ; (MTerm 92, Push [TAny; NT N_backslash; NT N_repeat; NT N_string2; Act A_make_sequence])
    ; (MTerm 91, Push [TAny; NT N_c; NT N_repeat; NT N_string2; Act A_make_sequence])
    ; (MTerm 40, Push [TAny; Act A_prepare_capture; NT N_block; NT N_repeat; NT N_string2; Act A_make_sequence])
    ; (MTerm 94, Push [TAny; Act A_push_assert_begin; NT N_repeat; NT N_string2; Act A_make_sequence])
    ; (MTerm 36, Push [TAny; Act A_push_assert_end; NT N_repeat; NT N_string2; Act A_make_sequence])
    ; (MSet set0, Push [TAny; Act A_push_character; NT N_repeat; NT N_string2; Act A_make_sequence])
    ; (MOthers, Push [TAny; Act A_push_character; NT N_repeat; NT N_string2; Act A_make_sequence])
    ; (MTerm 46, Push [TAny; Act A_push_character_anything; NT N_repeat; NT N_string2; Act A_make_sequence])
    ; (MSet set11, Rej) ]
  end.

Definition all_nt : list nt := [N_a; N_b; N_backslash; N_backslash_range; N_block; N_block_name2; N_block_name; N_c; N_class_named_name; N_content2; N_content_in_capture; N_content_or_empty; N_d; N_e; N_f; N_g; N_h; N_hexdec_repeat; N_i; N_j; N_k; N_l; N_m; N_mod; N_mode_switch2; N_n; N_number2; N_number; N_o; N_opt_content; N_p; N_property_name2; N_property_name; N_property_value2; N_property_value; N_range; N_repeat; N_s; N_set2a; N_set2b; N_string2].
