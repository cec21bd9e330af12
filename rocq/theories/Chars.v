(** Character-level model: flags and the [match_char] predicates.
    Source: /repo/include/ctre/flags_and_modes.hpp, /repo/include/ctre/atoms_characters.hpp. *)
From Coq Require Import List ZArith Bool NArith.
Import ListNotations.
Local Open Scope Z_scope.

(** flags_and_modes.hpp lines 17-20: [struct flags] (three booleans). *)
Record flags := mkFlags { f_block : bool; f_ml : bool; f_ci : bool }.

(** flags_and_modes.hpp lines 73-76: [not_empty_match]. *)
Definition not_empty_match (f : flags) : flags := mkFlags true (f_ml f) (f_ci f).

(** flags_and_modes.hpp lines 78-81: [consumed_something(f, condition)]. *)
Definition consumed_something (f : flags) (cond : bool) : flags :=
  if cond then mkFlags false (f_ml f) (f_ci f) else f.

(** flags_and_modes.hpp lines 36-54: [operator+(flags, mode)]. *)
Inductive mode := ModeCI | ModeCS | ModeSL | ModeML.
Definition add_mode (f : flags) (m : mode) : flags :=
  match m with
  | ModeCI => mkFlags (f_block f) (f_ml f) true
  | ModeCS => mkFlags (f_block f) (f_ml f) false
  | ModeSL => mkFlags (f_block f) false (f_ci f)
  | ModeML => mkFlags (f_block f) true (f_ci f)
  end.

(** flags_and_modes.hpp lines 26-34, 56-70: the API modifiers are set one after the other,
    starting from all-false flags. *)
Inductive modifier := Msingleline | Mmultiline | Mcase_sensitive | Mcase_insensitive.
Definition set_flag (f : flags) (m : modifier) : flags :=
  match m with
  | Msingleline => mkFlags (f_block f) false (f_ci f)
  | Mmultiline => mkFlags (f_block f) true (f_ci f)
  | Mcase_insensitive => mkFlags (f_block f) (f_ml f) true
  | Mcase_sensitive => mkFlags (f_block f) (f_ml f) false
  end.
Definition flags_of (l : list modifier) : flags := fold_left set_flag l (mkFlags false false false).

(** Literals. The pattern actions create [character<char{v}>] below 128 and
    [character<char32_t{v}>] otherwise, so the type follows from the value.
    [conv lit v] is the subject value [v] after the usual arithmetic conversions of [v == lit]:
    against a [char] literal the comparison is on (signed) integers, against a [char32_t] literal the
    value is converted modulo 2^32. *)
Definition u32 (v : Z) : Z := v mod 4294967296.
Definition conv (lit v : Z) : Z := if lit <? 128 then v else u32 v.

Definition lit_eq (v lit : Z) : bool := conv lit v =? lit.
Definition lit_ge (v lit : Z) : bool := lit <=? conv lit v.
Definition lit_le (v lit : Z) : bool := conv lit v <=? lit.

(** atoms_characters.hpp lines 22-32. *)
Definition is_lower (v : Z) : bool := (97 <=? v) && (v <=? 122).
Definition is_upper (v : Z) : bool := (65 <=? v) && (v <=? 90).
Definition is_alpha (v : Z) : bool := is_lower v || is_upper v.

(** [V ^ 0x20]. *)
Definition flip (v : Z) : Z := Z.lxor v 32.

(** Character-like atoms (atoms_characters.hpp lines 34-84, atoms_unicode.hpp).
    A Unicode property is a finite union of code point ranges. *)
Inductive cls :=
| CChar (v : Z)
| CRange (a b : Z)
| CSet (l : list cls)
| CNeg (l : list cls)
| CEnum (vs : list Z)
| CNegate (l : list cls)
| CProp (tbl : list (Z * Z)).

(** atoms_characters.hpp lines 34-45: [character<V>::match_char]. *)
Definition match_lit (ci : bool) (lit v : Z) : bool :=
  if is_alpha lit && ci && lit_eq v (flip lit) then true else lit_eq v lit.

(** atoms_characters.hpp lines 67-84: [char_range<A,B>::match_char]. *)
Definition match_range (ci : bool) (a b v : Z) : bool :=
  if ((is_lower a && is_lower b) || (is_upper a && is_upper b)) && ci
     && (lit_ge v (flip a) && lit_le v (flip b))
  then true else lit_ge v a && lit_le v b.

(** atoms_unicode.hpp lines 32-73: the value is converted to a code point and looked up. *)
Definition match_prop (tbl : list (Z * Z)) (v : Z) : bool :=
  existsb (fun p => (fst p <=? u32 v) && (u32 v <=? snd p)) tbl.

(** [match_char] of every character-like atom (lines 47-65 for set, negative_set, enumeration,
    negate). Only the case-insensitive flag is consulted. *)
Fixpoint match_cls (ci : bool) (c : cls) (v : Z) : bool :=
  match c with
  | CChar lit => match_lit ci lit v
  | CRange a b => match_range ci a b v
  | CSet l => existsb (fun c' => match_cls ci c' v) l
  | CNeg l => negb (existsb (fun c' => match_cls ci c' v) l)
  | CEnum vs => existsb (fun lit => match_lit ci lit v) vs
  | CNegate l => negb (existsb (fun c' => match_cls ci c' v) l)
  | CProp tbl => match_prop tbl v
  end.

(** atoms_characters.hpp lines 85-134: class definitions. *)
Definition word_chars := CSet [CRange 65 90; CRange 97 122; CRange 48 57; CChar 95].
Definition space_chars := CEnum [32; 9; 10; 11; 12; 13].
Definition vertical_space_chars := CEnum [10; 11; 12; 13; 133; 8232; 8233].
Definition horizontal_space_chars :=
  CEnum [9; 32; 160; 5760; 6158; 8192; 8193; 8194; 8195; 8196; 8197; 8198; 8199; 8200; 8201; 8202;
         8239; 8287; 12288].
Definition alphanum_chars := CSet [CRange 65 90; CRange 97 122; CRange 48 57].
Definition alpha_chars := CSet [CRange 65 90; CRange 97 122].
Definition xdigit_chars := CSet [CRange 65 70; CRange 97 102; CRange 48 57].
Definition punct_chars :=
  CEnum [33; 34; 35; 36; 37; 38; 39; 40; 41; 42; 43; 44; 45; 46; 47; 58; 59; 60; 61; 62; 63; 64;
         91; 92; 93; 94; 95; 96; 123; 124; 125; 126].
Definition digit_chars := CRange 48 57.
Definition ascii_chars := CRange 0 127.
