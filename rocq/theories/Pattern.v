(** The pattern syntax: specification for C43. Texts of the pattern language and the AST each one denotes,
    written down without the parser: no table, no stack, no look-ahead. *)
From Coq Require Import List ZArith NArith Bool Arith String.
From Verif Require Import Chars Syntax Actions Parser Literals.
Import ListNotations.
Local Open Scope Z_scope.

(** * Characters *)
(** Characters with a meaning of their own: [$ ( ) * + . ? [ \ ^ { | }]; every other one stands for itself. *)
Definition metas : list Z := [36; 40; 41; 42; 43; 46; 63; 91; 92; 94; 123; 124; 125].
(** Inside brackets: [- [ \ ]]. *)
Definition set_metas : list Z := [45; 91; 92; 93].
Definition is_letter (c : Z) : Prop := 65 <= c <= 90 \/ 97 <= c <= 122.
Definition name_start (c : Z) : Prop := is_letter c \/ c = 95.
Definition name_part (c : Z) : Prop := name_start c \/ is_digit c.
Definition property_part (c : Z) : Prop := name_part c \/ c = 46.
Definition is_name (n : list Z) : Prop := exists c t, n = c :: t /\ name_start c /\ Forall name_part t.
Definition is_property (n : list Z) : Prop := n <> [] /\ Forall property_part n.
Definition is_number (l : list Z) : Prop := l <> [] /\ Forall is_digit l.
(** Numbers are kept in 64 bits. *)
Definition value (l : list Z) : N := wrap (decimal l).

(** What may follow a backslash to denote one character, inside and outside of brackets. *)
Inductive char_escape : list Z -> Z -> Prop :=
| ce_self : forall c, In c escapable -> char_escape [c] c
| ce_control : forall e c, In (e, c) controls -> char_escape [e] c
| ce_x2 : forall a b, is_hex a -> is_hex b -> char_escape [120; a; b] (Z.of_N (hexadecimal [a; b]))
| ce_u4 : forall a b c d, is_hex a -> is_hex b -> is_hex c -> is_hex d ->
    char_escape [117; a; b; c; d] (Z.of_N (hexadecimal [a; b; c; d]))
| ce_braces : forall x ds, x = 120 \/ x = 117 -> ds <> [] -> Forall is_hex ds -> (wrap (hexadecimal ds) < 2 ^ 32)%N ->
    char_escape (x :: 123 :: ds ++ [125]) (Z.of_N (wrap (hexadecimal ds))).

(** * Classes *)
(** The letters behind a backslash that denote a class: [d D s S h H v V w W N]. *)
Definition class_letters : list (Z * cls) :=
  [(100, CSet [digit_chars]); (68, CNeg [digit_chars]); (115, CSet [space_chars]); (83, CNeg [space_chars]);
   (104, CSet [horizontal_space_chars]); (72, CNeg [horizontal_space_chars]);
   (118, CSet [vertical_space_chars]); (86, CNeg [vertical_space_chars]);
   (119, CSet [word_chars]); (87, CNeg [word_chars]); (78, CNeg [CChar 10])].
Definition class_names : list (list Z * cls) :=
  [(codes "alnum", alphanum_chars); (codes "alpha", alpha_chars); (codes "ascii", ascii_chars); (codes "blank", CEnum [32; 9]);
   (codes "cntrl", CSet [CRange 0 31; CChar 127]); (codes "digit", digit_chars); (codes "graph", CRange 33 126);
   (codes "lower", CRange 97 122); (codes "print", CRange 32 126); (codes "punct", punct_chars); (codes "space", space_chars);
   (codes "upper", CRange 65 90); (codes "word", word_chars); (codes "xdigit", xdigit_chars)].

Section Props.
(** The Unicode data base: code points of a property, by name and optional value. *)
Variable props : list Z -> option (list Z) -> option (list (Z * Z)).

(** [p{name}], [p{name=value}] and the same with [P]. *)
Inductive property_escape : list Z -> cls -> Prop :=
| pe_name : forall n t, is_property n -> props n None = Some t -> property_escape (codes "p{" ++ n ++ codes "}") (CProp t)
| pe_value : forall n v t, is_property n -> is_property v -> props n (Some v) = Some t ->
    property_escape (codes "p{" ++ n ++ codes "=" ++ v ++ codes "}") (CProp t)
| pe_not_name : forall n t, is_property n -> props n None = Some t ->
    property_escape (codes "P{" ++ n ++ codes "}") (CNegate [CProp t])
| pe_not_value : forall n v t, is_property n -> is_property v -> props n (Some v) = Some t ->
    property_escape (codes "P{" ++ n ++ codes "=" ++ v ++ codes "}") (CNegate [CProp t]).

(** * Sets *)
Inductive set_char : list Z -> Z -> Prop :=
| sc_plain : forall c, ~ In c set_metas -> set_char [c] c
| sc_escape : forall u c, char_escape u c -> set_char (92 :: u) c.
Inductive set_item : list Z -> cls -> Prop :=
| si_char : forall u c, set_char u c -> set_item u (CChar c)
| si_range : forall u a v b, set_char u a -> set_char v b -> set_item (u ++ 45 :: v) (CRange a b)
| si_class : forall e x, In (e, x) class_letters -> set_item [92; e] x
| si_property : forall u x, property_escape u x -> set_item (92 :: u) x
| si_named : forall n x, In (n, x) class_names -> set_item (codes "[:" ++ n ++ codes ":]") x
| si_not_named : forall n x, In (n, x) class_names -> set_item (codes "[:^" ++ n ++ codes ":]") (CNegate [x]).
Inductive set_items : list Z -> list cls -> Prop :=
| sis_nil : set_items [] []
| sis_cons : forall u x v l, set_item u x -> set_items v l -> set_items (u ++ v) (x :: l).
(** An item that is there already is not added again. *)
Definition collect (l : list cls) : list cls :=
  fold_left (fun acc x => if existsb (cls_eqb x) acc then acc else acc ++ [x]) l [].

(** * Atoms without parentheses *)
(** The letters behind a backslash that denote a position. *)
Definition position_letters : list (Z * re) :=
  [(65, RAssert ASubjectBegin); (122, RAssert ASubjectEnd); (90, RAssert ASubjectEndLine);
   (98, RBound word_chars); (66, RBound (CNeg [word_chars]))].
(** [leaf_text k u r]: [u] denotes the atom [r], [k] groups having been opened before. *)
Inductive leaf_text (k : nat) : list Z -> re -> Prop :=
| lt_plain : forall c, ~ In c metas -> leaf_text k [c] (RCls (CChar c))
| lt_any : leaf_text k [46] RAny
| lt_begin : leaf_text k [94] (RAssert ALineBegin)
| lt_end : leaf_text k [36] (RAssert ALineEnd)
| lt_escape : forall u c, char_escape u c -> leaf_text k (92 :: u) (RCls (CChar c))
| lt_class : forall e x, In (e, x) class_letters -> leaf_text k [92; e] (RCls x)
| lt_property : forall u x, property_escape u x -> leaf_text k (92 :: u) (RCls x)
| lt_position : forall e r, In (e, r) position_letters -> leaf_text k [92; e] r
| lt_digit : forall d, 49 <= d <= 57 -> (Z.to_nat (d - 48) <= k)%nat -> leaf_text k [92; d] (RBack (Z.to_nat (d - 48)))
| lt_number : forall l, is_number l -> (value l <= N.of_nat k)%N ->
    leaf_text k (codes "\g{" ++ l ++ codes "}") (RBack (N.to_nat (value l)))
| lt_relative : forall l, is_number l -> (value l <= N.of_nat k)%N ->
    leaf_text k (codes "\g{-" ++ l ++ codes "}") (RBack (k + 1 - N.to_nat (value l)))
| lt_set : forall u l, set_items u l -> l <> [] -> hd_error u <> Some 94 ->
    leaf_text k (codes "[" ++ u ++ codes "]") (RCls (CSet (collect l)))
| lt_not_set : forall u l, set_items u l -> leaf_text k (codes "[^" ++ u ++ codes "]") (RCls (CNeg (collect l))).

(** * Composed patterns *)
(** How the AST of a construct is made from the AST of its parts. *)
Record builders := mkBuilders {
  b_seq : re -> re -> re;
  b_alt : re -> re -> re;
  b_opt : re -> re;                       (* x? *)
  b_rep : N -> N -> re -> re;             (* x{a,b}; no limit: b = 0 *)
  b_lazy : re -> option re;               (* of a repetition *)
  b_poss : re -> option re;
  b_cap : nat -> re -> re;
  b_ncap : nat -> list Z -> re -> re;
  b_ahead : bool -> re -> re;
  b_behind : bool -> re -> option re;
  b_atomic : re -> re }.
Variable B : builders.

(** Quantifiers: [quant_base m q x y]: the quantifier [q] makes [y] of [x]; [m]: it may be made lazy or
    possessive. *)
Inductive quant_base : bool -> list Z -> re -> re -> Prop :=
| qb_opt : forall x, quant_base true (codes "?") x (b_opt B x)
| qb_plus : forall x, quant_base true (codes "+") x (b_rep B 1 0 x)
| qb_star : forall x, quant_base true (codes "*") x (b_rep B 0 0 x)
| qb_exactly : forall l x, is_number l -> quant_base false (codes "{" ++ l ++ codes "}") x (b_rep B (value l) (value l) x)
| qb_at_least : forall l x, is_number l -> quant_base true (codes "{" ++ l ++ codes ",}") x (b_rep B (value l) 0 x)
| qb_between : forall l m x, is_number l -> is_number m ->
    quant_base true (codes "{" ++ l ++ codes "," ++ m ++ codes "}") x (b_rep B (value l) (value m) x).
Inductive quant : list Z -> re -> re -> Prop :=
| qu_none : forall x, quant [] x x
| qu_greedy : forall m q x y, quant_base m q x y -> quant q x y
| qu_lazy : forall q x y y', quant_base true q x y -> b_lazy B y = Some y' -> quant (q ++ codes "?") x y'
| qu_poss : forall q x y y', quant_base true q x y -> b_poss B y = Some y' -> quant (q ++ codes "+") x y'.

Definition mode_letters : list (Z * mode) := [(105, ModeCI); (99, ModeCS); (109, ModeML); (115, ModeSL)].

(** [item_text z k u r k']: [u] denotes [r], the groups opened in it are numbered [k + 1 .. k'].
    [z]: the text is the very beginning of the content of a named group; there [\g{name}] is not available.
    An alternative may be empty only at the beginning and at the end. *)
Inductive atom_text : bool -> nat -> list Z -> re -> nat -> Prop :=
| at_leaf : forall z k u r, leaf_text k u r -> atom_text z k u r k
| at_name : forall k n, is_name n -> atom_text false k (codes "\g{" ++ n ++ codes "}") (RNBack n) k
| at_capture : forall z k u r k', alt_text false (S k) u r k' ->
    atom_text z k (codes "(" ++ u ++ codes ")") (b_cap B (S k) r) k'
| at_named : forall z k n u r k', is_name n -> alt_text true (S k) u r k' ->
    atom_text z k (codes "(?<" ++ n ++ codes ">" ++ u ++ codes ")") (b_ncap B (S k) n r) k'
| at_group : forall z k u r k', alt_text z k u r k' -> atom_text z k (codes "(?:" ++ u ++ codes ")") r k'
| at_atomic : forall z k u r k', alt_text false k u r k' -> atom_text z k (codes "(?>" ++ u ++ codes ")") (b_atomic B r) k'
| at_ahead : forall z k u r k', alt_text false k u r k' -> atom_text z k (codes "(?=" ++ u ++ codes ")") (b_ahead B false r) k'
| at_not_ahead : forall z k u r k', alt_text false k u r k' -> atom_text z k (codes "(?!" ++ u ++ codes ")") (b_ahead B true r) k'
| at_behind : forall z k u r k' r', alt_text false k u r k' -> b_behind B false r = Some r' ->
    atom_text z k (codes "(?<=" ++ u ++ codes ")") r' k'
| at_not_behind : forall z k u r k' r', alt_text false k u r k' -> b_behind B true r = Some r' ->
    atom_text z k (codes "(?<!" ++ u ++ codes ")") r' k'
| at_mode : forall z k c m, In (c, m) mode_letters -> atom_text z k (codes "(?" ++ [c] ++ codes ")") (RMode m) k
with item_text : bool -> nat -> list Z -> re -> nat -> Prop :=
| it_quant : forall z k u x k' q r, atom_text z k u x k' -> quant q x r -> item_text z k (u ++ q) r k'
with branch_text : bool -> nat -> list Z -> re -> nat -> Prop :=
| bt_one : forall z k u r k', item_text z k u r k' -> branch_text z k u r k'
| bt_cons : forall z k u r k1 v t k', item_text z k u r k1 -> branch_text false k1 v t k' ->
    branch_text z k (u ++ v) (b_seq B r t) k'
with rest_text : nat -> list Z -> re -> nat -> Prop :=
| rt_empty : forall k, rest_text k [] REmpty k
| rt_branch : forall k u r k', branch_text false k u r k' -> rest_text k u r k'
| rt_more : forall k u r k1 v t k', branch_text false k u r k1 -> rest_text k1 v t k' ->
    rest_text k (u ++ codes "|" ++ v) (b_alt B r t) k'
with alt_text : bool -> nat -> list Z -> re -> nat -> Prop :=
| al_empty : forall z k, alt_text z k [] REmpty k
| al_branch : forall z k u r k', branch_text z k u r k' -> alt_text z k u r k'
| al_more : forall z k u r k1 v t k', branch_text z k u r k1 -> rest_text k1 v t k' ->
    alt_text z k (u ++ codes "|" ++ v) (b_alt B r t) k'
| al_lead : forall z k v t k', rest_text k v t k' -> alt_text z k (codes "|" ++ v) (b_alt B REmpty t) k'.

Definition pattern_text (u : list Z) (r : re) : Prop := exists k, alt_text false 0 u r k.
End Props.

(** * Two ways of building *)
(** Without any rewriting. *)
Definition plain_builders : builders := {|
  b_seq := fun x y => RSeq [x; y];
  b_alt := fun x y => RSelect [x; y];
  b_opt := fun x => RRep Greedy 0 1 [x];
  b_rep := fun a b x => RRep Greedy a b [x];
  b_lazy := fun x => match x with RRep Greedy a b l => Some (RRep Lazy a b l) | _ => None end;
  b_poss := fun x => match x with RRep Greedy a b l => Some (RRep Possessive a b l) | _ => None end;
  b_cap := fun i x => RCap i [x];
  b_ncap := fun i n x => RNCap i n [x];
  b_ahead := fun neg x => RAhead neg [x];
  b_behind := fun neg x => option_map (fun y => RBehind neg [y]) (rotate x);
  b_atomic := fun x => RAtomic [x] |}.
(** As the library does (actions/*.inc.hpp, see Actions.v). *)
Definition library_builders : builders := {|
  b_seq := fun x y => make_sequence y x;
  b_alt := fun x y => make_alternate y x;
  b_opt := make_optional;
  b_rep := fun a b x => RRep Greedy a b (unwrap x);
  b_lazy := fun x => match x with
                     | RRep Greedy a b l => Some (RRep Lazy a b l)
                     | RRep Lazy 0 1 l => Some (RRep Lazy 0 1 l)
                     | _ => None end;
  b_poss := fun x => match x with RRep Greedy a b l => Some (RRep Possessive a b l) | _ => None end;
  b_cap := fun i x => RCap i (unwrap x);
  b_ncap := fun i n x => RNCap i n (unwrap x);
  b_ahead := fun neg x => RAhead neg (unwrap x);
  b_behind := fun neg x => option_map (RBehind neg) (behind_content x);
  b_atomic := fun x => RAtomic (unwrap x) |}.
