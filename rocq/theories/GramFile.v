(** GENERATED by tools/gen_gram.py from /repo/include/ctre/pcre.gram; do not edit by hand.
    The grammar that the table in pcre.hpp is generated from: sets of characters (lines 1-35) and productions with
    semantic actions (lines 37-187). *)
From Coq Require Import List ZArith Bool.
From Verif Require Import Grammar.
Import ListNotations.
Local Open Scope Z_scope.

(** Nonterminals. *)
Inductive gnt :=
| G_S
| G_opt_content
| G_content
| G_content_in_capture
| G_content_or_empty
| G_content2
| G_string
| G_string2
| G_string_in_capture
| G_atom_repeat
| G_atom_repeat_in_capture
| G_atom
| G_atom_in_capture
| G_repeat
| G_mod
| G_number
| G_number2
| G_preblock
| G_block
| G_block_name
| G_block_name2
| G_mode_switch
| G_mode_switch2
| G_character_class
| G_set
| G_set2a
| G_set2b
| G_class_named
| G_class_named_name
| G_setitem
| G_setitem2
| G_range
| G_backslash_range
| G_special
| G_hexdec_repeat
| G_backslash_set
| G_backslash
| G_property_name
| G_property_name2
| G_property_value
| G_property_value2
| G_character
| G_character_in_capture
| G_asserts
.

(** [GT l]: one character of [l]; [GOther]: a character that the grammar does not mention; [GAct]: in brackets. *)
Inductive gsym := GT (l : list Z) | GOther | GAct (a : action) | GN (n : gnt).

Definition S_backslash : list Z := [92].
Definition S_slash : list Z := [47].
Definition S_dot : list Z := [46].
Definition S_dolar : list Z := [36].
Definition S_open : list Z := [40].
Definition S_close : list Z := [41].
Definition S_questionmark : list Z := [63].
Definition S_colon : list Z := [58].
Definition S_sopen : list Z := [91].
Definition S_sclose : list Z := [93].
Definition S_plus : list Z := [43].
Definition S_star : list Z := [42].
Definition S_copen : list Z := [123].
Definition S_cclose : list Z := [125].
Definition S_num : list Z := [48; 49; 50; 51; 52; 53; 54; 55; 56; 57].
Definition S_comma : list Z := [44].
Definition S_pipe : list Z := [124].
Definition S_caret : list Z := [94].
Definition S_minus : list Z := [45].
Definition S_angle_open : list Z := [60].
Definition S_angle_close : list Z := [62].
Definition S_equal_sign : list Z := [61].
Definition S_exclamation_mark : list Z := [33].
Definition S_doublequote : list Z := [34].
Definition S_escape_alphanum : list Z := [49; 50; 51; 52; 53; 54; 55; 56; 57; 65; 66; 67; 69; 70; 71; 72; 73; 74; 75; 76; 77; 79; 81; 85; 86; 88; 89; 90; 98; 99; 104; 105; 106; 107; 108; 109; 111; 113; 118; 121; 122].
Definition S_escape_backreference : list Z := [49; 50; 51; 52; 53; 54; 55; 56; 57].
Definition S_hexdec : list Z := [48; 49; 50; 51; 52; 53; 54; 55; 56; 57; 65; 66; 67; 68; 69; 70; 97; 98; 99; 100; 101; 102].
Definition S_octal : list Z := [48; 49; 50; 51; 52; 53; 54; 55].
Definition S_nonspecial_characters : list Z := [33; 34; 44; 47; 48; 49; 50; 51; 52; 53; 54; 55; 56; 57; 58; 61; 65; 66; 67; 68; 69; 70; 71; 72; 73; 74; 75; 76; 77; 78; 79; 80; 81; 82; 83; 84; 85; 86; 87; 88; 89; 90; 95; 97; 98; 99; 100; 101; 102; 103; 104; 105; 106; 107; 108; 109; 110; 111; 112; 113; 114; 115; 116; 117; 118; 119; 120; 121; 122].
Definition S_nonspecial_characters_in_class : list Z := [33; 34; 36; 40; 41; 42; 43; 46; 47; 60; 61; 62; 63; 95; 123; 124; 125].
Definition S_alpha_characters : list Z := [65; 66; 67; 68; 69; 70; 71; 72; 73; 74; 75; 76; 77; 78; 79; 80; 81; 82; 83; 84; 85; 86; 87; 88; 89; 90; 95; 97; 98; 99; 100; 101; 102; 103; 104; 105; 106; 107; 108; 109; 110; 111; 112; 113; 114; 115; 116; 117; 118; 119; 120; 121; 122].
Definition S_alphanum_characters : list Z := [48; 49; 50; 51; 52; 53; 54; 55; 56; 57; 65; 66; 67; 68; 69; 70; 71; 72; 73; 74; 75; 76; 77; 78; 79; 80; 81; 82; 83; 84; 85; 86; 87; 88; 89; 90; 95; 97; 98; 99; 100; 101; 102; 103; 104; 105; 106; 107; 108; 109; 110; 111; 112; 113; 114; 115; 116; 117; 118; 119; 120; 121; 122].
Definition S_set_control_chars : list Z := [45; 58; 93].
Definition S_capture_control_chars : list Z := [60].

(** All characters of the file. *)
Definition mentioned : list Z := [33; 34; 36; 40; 41; 42; 43; 44; 45; 46; 47; 48; 49; 50; 51; 52; 53; 54; 55; 56; 57; 58; 60; 61; 62; 63; 65; 66; 67; 68; 69; 70; 71; 72; 73; 74; 75; 76; 77; 78; 79; 80; 81; 82; 83; 84; 85; 86; 87; 88; 89; 90; 91; 92; 93; 94; 95; 97; 98; 99; 100; 101; 102; 103; 104; 105; 106; 107; 108; 109; 110; 111; 112; 113; 114; 115; 116; 117; 118; 119; 120; 121; 122; 123; 124; 125].

Definition prods (n : gnt) : list (list gsym) :=
  match n with
  | G_S => (* lines 37 *)
    [ [GN G_content]
    ; [GAct A_push_empty]
    ; [GT S_pipe; GAct A_push_empty; GN G_opt_content; GAct A_make_alternate] ]
  | G_opt_content => (* lines 39 *)
    [ [GAct A_push_empty]
    ; [GN G_content] ]
  | G_content => (* lines 40 *)
    [ [GN G_string; GN G_content2] ]
  | G_content_in_capture => (* lines 41, 42 *)
    [ [GN G_string_in_capture; GN G_content2]
    ; [GAct A_push_empty]
    ; [GT S_pipe; GAct A_push_empty; GN G_content_or_empty; GAct A_make_alternate] ]
  | G_content_or_empty => (* lines 43 *)
    [ [GN G_content]
    ; [GAct A_push_empty] ]
  | G_content2 => (* lines 45 *)
    [ [GT S_pipe; GN G_content; GAct A_make_alternate]
    ; [GT S_pipe; GAct A_push_empty; GAct A_make_alternate]
    ; [] ]
  | G_string => (* lines 47 *)
    [ [GN G_atom_repeat; GN G_string2] ]
  | G_string2 => (* lines 48 *)
    [ [GN G_atom_repeat; GN G_string2; GAct A_make_sequence]
    ; [] ]
  | G_string_in_capture => (* lines 50 *)
    [ [GN G_atom_repeat_in_capture; GN G_string2] ]
  | G_atom_repeat => (* lines 52 *)
    [ [GN G_atom; GN G_repeat] ]
  | G_atom_repeat_in_capture => (* lines 54 *)
    [ [GN G_atom_in_capture; GN G_repeat] ]
  | G_atom => (* lines 56 *)
    [ [GN G_character]
    ; [GN G_asserts]
    ; [GN G_preblock]
    ; [GN G_character_class] ]
  | G_atom_in_capture => (* lines 57 *)
    [ [GN G_character_in_capture]
    ; [GN G_asserts]
    ; [GN G_preblock]
    ; [GN G_character_class] ]
  | G_repeat => (* lines 59, 60, 61, 62 *)
    [ []
    ; [GT S_plus; GAct A_repeat_plus; GN G_mod]
    ; [GT S_star; GAct A_repeat_star; GN G_mod]
    ; [GT S_questionmark; GAct A_make_optional; GN G_mod]
    ; [GT S_copen; GN G_number; GAct A_repeat_exactly; GT S_cclose]
    ; [GT S_copen; GN G_number; GT S_comma; GAct A_repeat_at_least; GT S_cclose; GN G_mod]
    ; [GT S_copen; GN G_number; GT S_comma; GN G_number; GAct A_repeat_ab; GT S_cclose; GN G_mod] ]
  | G_mod => (* lines 64 *)
    [ []
    ; [GT S_questionmark; GAct A_make_lazy]
    ; [GT S_plus; GAct A_make_possessive] ]
  | G_number => (* lines 66 *)
    [ [GT S_num; GAct A_create_number; GN G_number2] ]
  | G_number2 => (* lines 67 *)
    [ []
    ; [GT S_num; GAct A_push_number; GN G_number2] ]
  | G_preblock => (* lines 69 *)
    [ [GT S_open; GAct A_prepare_capture; GN G_block] ]
  | G_block => (* lines 71, 72, 73, 74, 75, 76, 77, 78, 79 *)
    [ [GN G_content_in_capture; GAct A_make_capture; GT S_close]
    ; [GT S_questionmark; GN G_mode_switch]
    ; [GT S_questionmark; GT S_angle_close; GAct A_reset_capture; GAct A_start_atomic; GN G_content_in_capture; GAct A_make_atomic; GT S_close]
    ; [GT S_questionmark; GT S_equal_sign; GAct A_reset_capture; GAct A_start_lookahead_positive; GN G_content_in_capture; GAct A_look_finish; GT S_close]
    ; [GT S_questionmark; GT S_angle_open; GT S_equal_sign; GAct A_reset_capture; GAct A_start_lookbehind_positive; GN G_content_in_capture; GAct A_look_finish; GT S_close]
    ; [GT S_questionmark; GT S_exclamation_mark; GAct A_reset_capture; GAct A_start_lookahead_negative; GN G_content_in_capture; GAct A_look_finish; GT S_close]
    ; [GT S_questionmark; GT S_angle_open; GT S_exclamation_mark; GAct A_reset_capture; GAct A_start_lookbehind_negative; GN G_content_in_capture; GAct A_look_finish; GT S_close]
    ; [GT S_questionmark; GT S_colon; GAct A_reset_capture; GN G_content_in_capture; GT S_close]
    ; [GT S_questionmark; GT S_angle_open; GN G_block_name; GT S_angle_close; GN G_content_in_capture; GAct A_make_capture_with_name; GT S_close] ]
  | G_block_name => (* lines 81 *)
    [ [GT S_alpha_characters; GAct A_push_name; GN G_block_name2] ]
  | G_block_name2 => (* lines 82 *)
    [ [GT S_alphanum_characters; GAct A_push_name; GN G_block_name2]
    ; [] ]
  | G_mode_switch => (* lines 84, 85, 86, 87 *)
    [ [GT [105]; GAct A_mode_case_insensitive; GN G_mode_switch2]
    ; [GT [99]; GAct A_mode_case_sensitive; GN G_mode_switch2]
    ; [GT [115]; GAct A_mode_singleline; GN G_mode_switch2]
    ; [GT [109]; GAct A_mode_multiline; GN G_mode_switch2] ]
  | G_mode_switch2 => (* lines 88 *)
    [ [GT S_close]
    ; [GN G_mode_switch] ]
  | G_character_class => (* lines 90 *)
    [ [GT S_sopen; GN G_set; GAct A_set_make; GT S_sclose]
    ; [GT S_sopen; GT S_caret; GN G_set2a; GAct A_set_make_negative; GT S_sclose] ]
  | G_set => (* lines 91 *)
    [ [GN G_setitem; GAct A_set_start; GN G_set2b] ]
  | G_set2a => (* lines 92 *)
    [ [GN G_setitem2; GAct A_set_start; GN G_set2b]
    ; [GAct A_set_empty] ]
  | G_set2b => (* lines 93 *)
    [ [GN G_setitem2; GAct A_set_combine; GN G_set2b]
    ; [] ]
  | G_class_named => (* lines 95 *)
    [ [GT S_sopen; GT S_colon; GN G_class_named_name; GT S_colon; GT S_sclose]
    ; [GT S_sopen; GT S_colon; GT S_caret; GN G_class_named_name; GAct A_negate_class_named; GT S_colon; GT S_sclose] ]
  | G_class_named_name => (* lines 96, 97, 98, 99, 100, 101, 102, 103, 104, 105, 106, 107, 108, 109 *)
    [ [GT [97]; GT [108]; GT [110]; GT [117]; GT [109]; GAct A_class_named_alnum]
    ; [GT [97]; GT [108]; GT [112]; GT [104]; GT [97]; GAct A_class_named_alpha]
    ; [GT [97]; GT [115]; GT [99]; GT [105]; GT [105]; GAct A_class_named_ascii]
    ; [GT [98]; GT [108]; GT [97]; GT [110]; GT [107]; GAct A_class_named_blank]
    ; [GT [99]; GT [110]; GT [116]; GT [114]; GT [108]; GAct A_class_named_cntrl]
    ; [GT [100]; GT [105]; GT [103]; GT [105]; GT [116]; GAct A_class_named_digit]
    ; [GT [103]; GT [114]; GT [97]; GT [112]; GT [104]; GAct A_class_named_graph]
    ; [GT [108]; GT [111]; GT [119]; GT [101]; GT [114]; GAct A_class_named_lower]
    ; [GT [112]; GT [114]; GT [105]; GT [110]; GT [116]; GAct A_class_named_print]
    ; [GT [112]; GT [117]; GT [110]; GT [99]; GT [116]; GAct A_class_named_punct]
    ; [GT [115]; GT [112]; GT [97]; GT [99]; GT [101]; GAct A_class_named_space]
    ; [GT [117]; GT [112]; GT [112]; GT [101]; GT [114]; GAct A_class_named_upper]
    ; [GT [119]; GT [111]; GT [114]; GT [100]; GAct A_class_named_word]
    ; [GT [120]; GT [100]; GT [105]; GT [103]; GT [105]; GT [116]; GAct A_class_named_xdigit] ]
  | G_setitem => (* lines 112, 113, 114 *)
    [ [GOther; GAct A_push_character; GN G_range]
    ; [GT S_nonspecial_characters; GAct A_push_character; GN G_range]
    ; [GT S_nonspecial_characters_in_class; GAct A_push_character; GN G_range]
    ; [GN G_class_named; GN G_range]
    ; [GT S_backslash; GN G_backslash_range; GN G_range]
    ; [GT S_backslash; GN G_backslash_set] ]
  | G_setitem2 => (* lines 116, 117, 118, 119 *)
    [ [GOther; GAct A_push_character; GN G_range]
    ; [GT S_nonspecial_characters; GAct A_push_character; GN G_range]
    ; [GT S_nonspecial_characters_in_class; GAct A_push_character; GN G_range]
    ; [GT S_caret; GAct A_push_character; GN G_range]
    ; [GN G_class_named; GN G_range]
    ; [GT S_backslash; GN G_backslash_range; GN G_range]
    ; [GT S_backslash; GN G_backslash_set] ]
  | G_range => (* lines 122, 123, 124, 125 *)
    [ []
    ; [GT S_minus; GOther; GAct A_push_character; GAct A_make_range]
    ; [GT S_minus; GT S_nonspecial_characters; GAct A_push_character; GAct A_make_range]
    ; [GT S_minus; GT S_backslash; GN G_backslash_range; GAct A_make_range]
    ; [GT S_minus; GT S_nonspecial_characters_in_class; GAct A_push_character; GAct A_make_range]
    ; [GT S_minus; GT S_caret; GAct A_push_character; GAct A_make_range] ]
  | G_backslash_range => (* lines 128, 133, 134, 135, 136, 137, 138, 139, 140, 141, 142, 143, 144, 145, 146, 147 *)
    [ [GN G_special; GAct A_push_character]
    ; [GT [117]; GAct A_create_hexdec; GT S_hexdec; GAct A_push_hexdec; GT S_hexdec; GAct A_push_hexdec; GT S_hexdec; GAct A_push_hexdec; GT S_hexdec; GAct A_push_hexdec; GAct A_finish_hexdec]
    ; [GT [117]; GAct A_create_hexdec; GT S_copen; GT S_hexdec; GAct A_push_hexdec; GN G_hexdec_repeat; GT S_cclose; GAct A_finish_hexdec]
    ; [GT [120]; GAct A_create_hexdec; GT S_hexdec; GAct A_push_hexdec; GT S_hexdec; GAct A_push_hexdec; GAct A_finish_hexdec]
    ; [GT [120]; GAct A_create_hexdec; GT S_copen; GT S_hexdec; GAct A_push_hexdec; GN G_hexdec_repeat; GT S_cclose; GAct A_finish_hexdec]
    ; [GT [110]; GAct A_push_character_newline]
    ; [GT [116]; GAct A_push_character_tab]
    ; [GT [114]; GAct A_push_character_return_carriage]
    ; [GT [48]; GAct A_push_character_null]
    ; [GT [97]; GAct A_push_character_alarm]
    ; [GT [101]; GAct A_push_character_escape]
    ; [GT [102]; GAct A_push_character_formfeed]
    ; [GT S_minus; GAct A_push_character]
    ; [GT S_doublequote; GAct A_push_character]
    ; [GT S_angle_open; GAct A_push_character]
    ; [GT S_angle_close; GAct A_push_character] ]
  | G_special => (* lines 129 *)
    [ [GT S_dot]
    ; [GT S_sopen]
    ; [GT S_sclose]
    ; [GT S_copen]
    ; [GT S_cclose]
    ; [GT S_open]
    ; [GT S_close]
    ; [GT S_backslash]
    ; [GT S_star]
    ; [GT S_plus]
    ; [GT S_questionmark]
    ; [GT S_pipe]
    ; [GT S_caret]
    ; [GT S_dolar]
    ; [GT S_minus]
    ; [GT S_slash] ]
  | G_hexdec_repeat => (* lines 131 *)
    [ [GT S_hexdec; GAct A_push_hexdec; GN G_hexdec_repeat]
    ; [] ]
  | G_backslash_set => (* lines 150, 151, 152, 153, 154, 155, 156, 157 *)
    [ [GT [100]; GAct A_class_digit]
    ; [GT [68]; GAct A_class_nondigit]
    ; [GT [119]; GAct A_class_word]
    ; [GT [87]; GAct A_class_nonword]
    ; [GT [78]; GAct A_class_nonnewline]
    ; [GT [115]; GAct A_class_space]
    ; [GT [83]; GAct A_class_nonspace]
    ; [GT [118]; GAct A_class_vertical_space]
    ; [GT [86]; GAct A_class_non_vertical_space]
    ; [GT [104]; GAct A_class_horizontal_space]
    ; [GT [72]; GAct A_class_non_horizontal_space]
    ; [GT [112]; GT S_copen; GN G_property_name; GT S_cclose; GAct A_make_property]
    ; [GT [80]; GT S_copen; GN G_property_name; GT S_cclose; GAct A_make_property_negative] ]
  | G_backslash => (* lines 160, 161, 162, 163, 164, 176, 178, 179, 180, 181 *)
    [ [GT [65]; GAct A_push_assert_subject_begin]
    ; [GT [122]; GAct A_push_assert_subject_end]
    ; [GT [90]; GAct A_push_assert_subject_end_with_lineend]
    ; [GT [98]; GAct A_push_word_boundary]
    ; [GT [66]; GAct A_push_not_word_boundary]
    ; [GN G_backslash_range]
    ; [GN G_backslash_set]
    ; [GT [103]; GT S_copen; GT S_minus; GN G_number; GT S_cclose; GAct A_make_relative_back_reference]
    ; [GT [103]; GT S_copen; GN G_number; GT S_cclose; GAct A_make_back_reference]
    ; [GT [103]; GT S_copen; GN G_block_name; GT S_cclose; GAct A_make_back_reference]
    ; [GT S_escape_backreference; GAct A_create_number; GAct A_make_back_reference] ]
  | G_property_name => (* lines 166, 167 *)
    [ [GT S_alphanum_characters; GAct A_push_property_name; GN G_property_name2]
    ; [GT S_dot; GAct A_push_property_name; GN G_property_name2] ]
  | G_property_name2 => (* lines 168, 169 *)
    [ [GT S_alphanum_characters; GAct A_push_property_name; GN G_property_name2]
    ; []
    ; [GT S_equal_sign; GN G_property_value]
    ; [GT S_dot; GAct A_push_property_name; GN G_property_name2]
    ; []
    ; [GT S_equal_sign; GN G_property_value] ]
  | G_property_value => (* lines 171, 172 *)
    [ [GT S_alphanum_characters; GAct A_push_property_value; GN G_property_value2]
    ; [GT S_dot; GAct A_push_property_value; GN G_property_value2] ]
  | G_property_value2 => (* lines 173, 174 *)
    [ [GT S_alphanum_characters; GAct A_push_property_value; GN G_property_value2]
    ; []
    ; [GT S_dot; GAct A_push_property_value; GN G_property_value2]
    ; [] ]
  | G_character => (* lines 183 *)
    [ [GOther; GAct A_push_character]
    ; [GT S_nonspecial_characters; GAct A_push_character]
    ; [GT S_set_control_chars; GAct A_push_character]
    ; [GT S_dot; GAct A_push_character_anything]
    ; [GT S_backslash; GN G_backslash]
    ; [GT S_capture_control_chars; GAct A_push_character]
    ; [GT [62]; GAct A_push_character] ]
  | G_character_in_capture => (* lines 185 *)
    [ [GN G_character] ]
  | G_asserts => (* lines 187 *)
    [ [GT S_caret; GAct A_push_assert_begin]
    ; [GT S_dolar; GAct A_push_assert_end] ]
  end.

Definition gnts : list gnt := [G_S; G_opt_content; G_content; G_content_in_capture; G_content_or_empty; G_content2; G_string; G_string2; G_string_in_capture; G_atom_repeat; G_atom_repeat_in_capture; G_atom; G_atom_in_capture; G_repeat; G_mod; G_number; G_number2; G_preblock; G_block; G_block_name; G_block_name2; G_mode_switch; G_mode_switch2; G_character_class; G_set; G_set2a; G_set2b; G_class_named; G_class_named_name; G_setitem; G_setitem2; G_range; G_backslash_range; G_special; G_hexdec_repeat; G_backslash_set; G_backslash; G_property_name; G_property_name2; G_property_value; G_property_value2; G_character; G_character_in_capture; G_asserts].
