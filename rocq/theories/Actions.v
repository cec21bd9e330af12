(** Semantic actions of the pattern parser.
    Source: /repo/include/ctre/pcre_actions.hpp, /repo/include/ctre/actions/*.inc.hpp,
    /repo/include/ctre/rotate.hpp. *)
From Coq Require Import List ZArith NArith Bool Arith.
From Verif Require Import Chars Syntax Grammar.
Import ListNotations.
Local Open Scope Z_scope.

(** * Type equality ([std::is_same], repeated template parameters in overloads) *)

Section Leqb.
  Context {A : Type} (e : A -> A -> bool).
  Fixpoint leqb (l1 l2 : list A) : bool :=
    match l1, l2 with
    | [], [] => true
    | x :: xs, y :: ys => e x y && leqb xs ys
    | _, _ => false
    end.
End Leqb.

Definition pair_eqb (p q : Z * Z) : bool := (fst p =? fst q) && (snd p =? snd q).

(** Simplification: two Unicode properties are the same type here when their tables are equal. *)
Fixpoint cls_eqb (c1 c2 : cls) : bool :=
  match c1, c2 with
  | CChar a, CChar b => a =? b
  | CRange a b, CRange a' b' => (a =? a') && (b =? b')
  | CSet l, CSet l' => leqb cls_eqb l l'
  | CNeg l, CNeg l' => leqb cls_eqb l l'
  | CEnum l, CEnum l' => leqb Z.eqb l l'
  | CNegate l, CNegate l' => leqb cls_eqb l l'
  | CProp t, CProp t' => leqb pair_eqb t t'
  | _, _ => false
  end.

Definition rkind_eqb (a b : rkind) : bool :=
  match a, b with
  | Greedy, Greedy | Lazy, Lazy | Possessive, Possessive => true
  | _, _ => false
  end.

Definition assertion_eqb (a b : assertion) : bool :=
  match a, b with
  | ASubjectBegin, ASubjectBegin | ASubjectEnd, ASubjectEnd | ASubjectEndLine, ASubjectEndLine
  | ALineBegin, ALineBegin | ALineEnd, ALineEnd => true
  | _, _ => false
  end.

Definition mode_eqb (a b : mode) : bool :=
  match a, b with
  | ModeCI, ModeCI | ModeCS, ModeCS | ModeSL, ModeSL | ModeML, ModeML => true
  | _, _ => false
  end.

Fixpoint re_eqb (r1 r2 : re) : bool :=
  match r1, r2 with
  | RCls a, RCls b => cls_eqb a b
  | RAny, RAny => true
  | RStr l, RStr l' => leqb Z.eqb l l'
  | RSelect l, RSelect l' => leqb re_eqb l l'
  | RSeq l, RSeq l' => leqb re_eqb l l'
  | REmpty, REmpty => true
  | RReject, RReject => true
  | RRep k a b l, RRep k' a' b' l' =>
      rkind_eqb k k' && N.eqb a a' && N.eqb b b' && leqb re_eqb l l'
  | RCap i l, RCap i' l' => Nat.eqb i i' && leqb re_eqb l l'
  | RNCap i n l, RNCap i' n' l' => Nat.eqb i i' && leqb Z.eqb n n' && leqb re_eqb l l'
  | RBack i, RBack i' => Nat.eqb i i'
  | RNBack n, RNBack n' => leqb Z.eqb n n'
  | RAhead n l, RAhead n' l' => Bool.eqb n n' && leqb re_eqb l l'
  | RBehind n l, RBehind n' l' => Bool.eqb n n' && leqb re_eqb l l'
  | RAtomic l, RAtomic l' => leqb re_eqb l l'
  | RBound c, RBound c' => cls_eqb c c'
  | RNotBound c, RNotBound c' => cls_eqb c c'
  | RAssert a, RAssert a' => assertion_eqb a a'
  | RMode m, RMode m' => mode_eqb m m'
  | _, _ => false
  end.

(** * rotate.hpp: reversal of the content of a lookbehind *)

Section OptMap.
  Context {A B : Type} (f : A -> option B).
  Fixpoint opt_map (l : list A) : option (list B) :=
    match l with
    | [] => Some []
    | x :: xs =>
        match f x, opt_map xs with Some y, Some ys => Some (y :: ys) | _, _ => None end
    end.
End OptMap.

Definition map_some {A B} (f : A -> B) (o : option A) : option B :=
  match o with Some a => Some (f a) | None => None end.

(** rotate.hpp lines 19-86: [rotate_for_lookbehind::rotate]; [mode_switch] has no overload
    ([None], the program does not compile). *)
Fixpoint rotate (r : re) : option re :=
  match r with
  | RSelect l => map_some RSelect (opt_map rotate l)
  | RSeq l => map_some (fun x => RSeq (rev x)) (opt_map rotate l)
  | RRep k a b l => map_some (fun x => RRep k a b (rev x)) (opt_map rotate l)
  | RCap i l => map_some (fun x => RCap i (rev x)) (opt_map rotate l)
  | RNCap i n l => map_some (fun x => RNCap i n (rev x)) (opt_map rotate l)
  | RAtomic l => map_some (fun x => RAtomic (rev x)) (opt_map rotate l)
  | RStr l => Some (RStr (rev l))
  | RMode _ => None
  | _ => Some r
  end.

(** * The subject of the actions: [pcre_context<Stack, pcre_parameters<Counter>>] *)

(** pcre_actions.hpp lines 32-34, atoms.hpp lines 14-20, atoms_unicode.hpp: what may be on the
    action stack. *)
Inductive item :=
| IRe (r : re)
| INum (n : N)                      (* number<N> *)
| ICap (i : nat)                    (* capture_id<Id> *)
| IId (name : list Z)               (* id<Name...> *)
| ILook (behind neg : bool)         (* look_start<lookahead/lookbehind_positive/negative> *)
| IAtomic                           (* atomic_start *)
| IPName (name : list Z)            (* property_name<...> *)
| IPValue (v : list Z).             (* property_value<...> *)

Record ctx := mkCtx { stk : list item; counter : nat }.

(** Outcome of an action: new subject, rejection of the pattern, or no viable overload. *)
Inductive act_res := Done (c : ctx) | Reject | IllAct.

(** size_t arithmetic. *)
Definition size_mod : N := 18446744073709551616.
Definition wrap (n : N) : N := N.modulo n size_mod.

(** fusion.inc.hpp lines 4-7. *)
Definition combine_max (a b : N) : N :=
  if negb (N.eqb a 0) && negb (N.eqb b 0) then wrap (a + b) else 0%N.

(** fusion.inc.hpp lines 9-32: [combine_repeat]. *)
Definition combine_repeat (k : rkind) (minA maxA minB maxB : N) (content : list re) : re :=
  match k with
  | Greedy => RRep Greedy (wrap (minA + minB)) (combine_max maxA maxB) content
  | Lazy => RRep Lazy (wrap (minA + minB)) (combine_max maxA maxB) content
  | Possessive =>
      if N.eqb maxA 0 then
        if N.ltb 0 minB then RSeq (RReject :: content)
        else RRep Possessive minA maxA content
      else if N.eqb minB 0 then RRep Possessive minA (combine_max maxA maxB) content
      else RRep Possessive (wrap (maxA + minB)) (combine_max maxA maxB) content
  end.

(** sequence.inc.hpp lines 4-29 and fusion.inc.hpp lines 34-68: [make_sequence], most specialised
    overload first; [b] is the top of the stack (the later item), [a] the one below. *)
Definition make_sequence (b a : re) : re :=
  match b, a with
  | RCls (CChar y), RCls (CChar x) => RStr [x; y]
  | RStr ys, RCls (CChar x) => RStr (x :: ys)
  | RSeq (RCls (CChar y) :: sq), RCls (CChar x) => RSeq (RStr [x; y] :: sq)
  | RSeq (RStr ys :: sq), RCls (CChar x) => RSeq (RStr (x :: ys) :: sq)
  | RRep k minB maxB l, RRep k' minA maxA l' =>
      if rkind_eqb k k' && leqb re_eqb l l'
      then combine_repeat k minA maxA minB maxB l
      else RSeq [a; b]
  | RSeq (RRep k minB maxB l :: sq), RRep k' minA maxA l' =>
      if rkind_eqb k k' && leqb re_eqb l l'
      then RSeq (combine_repeat k minB maxB minA maxA l :: sq)
      else RSeq (a :: RRep k minB maxB l :: sq)
  | RSeq bs, _ => RSeq (a :: bs)
  | _, _ => RSeq [a; b]
  end.

(** The overloads for [sequence<Content...>] unwrap the sequence. *)
Definition unwrap (r : re) : list re := match r with RSeq l => l | _ => [r] end.

(** options.inc.hpp lines 14-21. *)
Definition make_alternate (b a : re) : re :=
  match b with RSelect l => RSelect (a :: l) | _ => RSelect [a; b] end.

(** options.inc.hpp lines 24-41. *)
Definition make_optional (r : re) : re :=
  match r with
  | RSeq l => RRep Greedy 0 1 l
  | RRep Greedy 0 1 [x] => RRep Greedy 0 1 [x]
  | RRep Lazy 0 1 [x] => RRep Lazy 0 1 [x]
  | _ => RRep Greedy 0 1 [r]
  end.

(** set.inc.hpp lines 6, 39-55: [push_back_into_set]. *)
Definition push_into_set (c : cls) (l : list cls) : list cls :=
  if existsb (cls_eqb c) l then l else l ++ [c].

(** look.inc.hpp lines 41-66: content of a lookbehind after rotation. *)
Definition behind_content (r : re) : option (list re) :=
  match r with
  | RSeq l => map_some (@rev re) (opt_map rotate l)
  | _ => map_some (fun x => [x]) (rotate r)
  end.

(** hexdec.inc.hpp lines 9-18: value of a hexadecimal digit. *)
Definition hex_value (v : Z) : Z :=
  if (97 <=? v) && (v <=? 102) then v - 97 + 10
  else if (65 <=? v) && (v <=? 70) then v - 65 + 10
  else v - 48.

Section Apply.
(** atoms_unicode.hpp: lookup of a property by name and optional value; [None] means unknown. The
    Unicode data base is a parameter of the model. *)
Variable props : list Z -> option (list Z) -> option (list (Z * Z)).

(** Push one item / one character-like atom. *)
Definition push (c : ctx) (i : item) : act_res := Done (mkCtx (i :: stk c) (counter c)).
Definition push_cls (c : ctx) (k : cls) : act_res := push c (IRe (RCls k)).

(** mode.inc.hpp lines 4-11: [apply_mode]. *)
Definition apply_mode (m : mode) (c : ctx) : act_res :=
  match stk c with
  | ICap _ :: ts => Done (mkCtx (IRe (RMode m) :: ts) (pred (counter c)))
  | ts => Done (mkCtx (IRe (RMode m) :: ts) (counter c))
  end.

(** All [apply] overloads. [prev] is the previous input character ([None] = ctll::epsilon); every
    overload needs a [term], except [push_empty] on an empty stack (options.inc.hpp lines 9-12). *)
Definition apply (a : action) (prev : option Z) (c : ctx) : act_res :=
  match prev with
  | None =>
      match a, stk c with
      | A_push_empty, [] => Done (mkCtx [IRe REmpty] (counter c))
      | _, _ => IllAct
      end
  | Some v =>
  match a with
  (* class.inc.hpp *)
  | A_class_digit => push_cls c (CSet [digit_chars])
  | A_class_nondigit => push_cls c (CNeg [digit_chars])
  | A_class_space => push_cls c (CSet [space_chars])
  | A_class_nonspace => push_cls c (CNeg [space_chars])
  | A_class_horizontal_space => push_cls c (CSet [horizontal_space_chars])
  | A_class_non_horizontal_space => push_cls c (CNeg [horizontal_space_chars])
  | A_class_vertical_space => push_cls c (CSet [vertical_space_chars])
  | A_class_non_vertical_space => push_cls c (CNeg [vertical_space_chars])
  | A_class_word => push_cls c (CSet [word_chars])
  | A_class_nonword => push_cls c (CNeg [word_chars])
  | A_class_nonnewline => push_cls c (CNeg [CChar 10])
  (* named_class.inc.hpp *)
  | A_class_named_alnum => push_cls c alphanum_chars
  | A_class_named_alpha => push_cls c alpha_chars
  | A_class_named_digit => push_cls c digit_chars
  | A_class_named_ascii => push_cls c ascii_chars
  | A_class_named_blank => push_cls c (CEnum [32; 9])
  | A_class_named_cntrl => push_cls c (CSet [CRange 0 31; CChar 127])
  | A_class_named_graph => push_cls c (CRange 33 126)
  | A_class_named_lower => push_cls c (CRange 97 122)
  | A_class_named_upper => push_cls c (CRange 65 90)
  | A_class_named_print => push_cls c (CRange 32 126)
  | A_class_named_space => push_cls c space_chars
  | A_class_named_word => push_cls c word_chars
  | A_class_named_punct => push_cls c punct_chars
  | A_class_named_xdigit => push_cls c xdigit_chars
  (* characters.inc.hpp *)
  | A_push_character => push_cls c (CChar v)
  | A_push_character_anything => push c (IRe RAny)
  | A_push_character_alarm => push_cls c (CChar 7)
  | A_push_character_escape => push_cls c (CChar 20)
  | A_push_character_formfeed => push_cls c (CChar 12)
  | A_push_character_newline => push_cls c (CChar 10)
  | A_push_character_null => push_cls c (CChar 0)
  | A_push_character_return_carriage => push_cls c (CChar 13)
  | A_push_character_tab => push_cls c (CChar 9)
  (* asserts.inc.hpp *)
  | A_push_assert_begin => push c (IRe (RAssert ALineBegin))
  | A_push_assert_end => push c (IRe (RAssert ALineEnd))
  | A_push_assert_subject_begin => push c (IRe (RAssert ASubjectBegin))
  | A_push_assert_subject_end => push c (IRe (RAssert ASubjectEnd))
  | A_push_assert_subject_end_with_lineend => push c (IRe (RAssert ASubjectEndLine))
  (* boundaries.inc.hpp *)
  | A_push_word_boundary => push c (IRe (RBound word_chars))
  | A_push_not_word_boundary => push c (IRe (RBound (CNeg [word_chars])))
  (* options.inc.hpp *)
  | A_push_empty => push c (IRe REmpty)
  | A_make_alternate =>
      match stk c with
      | IRe b :: IRe x :: ts => Done (mkCtx (IRe (make_alternate b x) :: ts) (counter c))
      | _ => IllAct
      end
  | A_make_optional =>
      match stk c with
      | IRe x :: ts => Done (mkCtx (IRe (make_optional x) :: ts) (counter c))
      | _ => IllAct
      end
  (* options.inc.hpp lines 43-51, repeat.inc.hpp lines 59-72 *)
  | A_make_lazy =>
      match stk c with
      | IRe (RRep Greedy a b l) :: ts => Done (mkCtx (IRe (RRep Lazy a b l) :: ts) (counter c))
      | IRe (RRep Lazy 0 1 l) :: ts => Done (mkCtx (IRe (RRep Lazy 0 1 l) :: ts) (counter c))
      | _ => IllAct
      end
  (* repeat.inc.hpp lines 74-87 *)
  | A_make_possessive =>
      match stk c with
      | IRe (RRep Greedy a b l) :: ts => Done (mkCtx (IRe (RRep Possessive a b l) :: ts) (counter c))
      | _ => IllAct
      end
  (* sequence.inc.hpp, fusion.inc.hpp *)
  | A_make_sequence =>
      match stk c with
      | IRe b :: IRe x :: ts => Done (mkCtx (IRe (make_sequence b x) :: ts) (counter c))
      | _ => IllAct
      end
  (* repeat.inc.hpp lines 4-57 *)
  | A_repeat_plus =>
      match stk c with
      | IRe x :: ts => Done (mkCtx (IRe (RRep Greedy 1 0 (unwrap x)) :: ts) (counter c))
      | _ => IllAct
      end
  | A_repeat_star =>
      match stk c with
      | IRe x :: ts => Done (mkCtx (IRe (RRep Greedy 0 0 (unwrap x)) :: ts) (counter c))
      | _ => IllAct
      end
  | A_create_number => push c (INum (Z.to_N (v - 48)))
  | A_push_number =>
      match stk c with
      | INum n :: ts => Done (mkCtx (INum (wrap (n * 10 + Z.to_N (v - 48))) :: ts) (counter c))
      | _ => IllAct
      end
  | A_repeat_ab =>
      match stk c with
      | INum b :: INum a :: IRe x :: ts =>
          Done (mkCtx (IRe (RRep Greedy a b (unwrap x)) :: ts) (counter c))
      | _ => IllAct
      end
  | A_repeat_exactly =>
      match stk c with
      | INum a :: IRe x :: ts => Done (mkCtx (IRe (RRep Greedy a a (unwrap x)) :: ts) (counter c))
      | _ => IllAct
      end
  | A_repeat_at_least =>
      match stk c with
      | INum a :: IRe x :: ts => Done (mkCtx (IRe (RRep Greedy a 0 (unwrap x)) :: ts) (counter c))
      | _ => IllAct
      end
  (* hexdec.inc.hpp; [char32_t{N}] with N above 2^32-1 is a narrowing error *)
  | A_create_hexdec => push c (INum 0)
  | A_push_hexdec =>
      match stk c with
      | INum n :: ts =>
          Done (mkCtx (INum (wrap (wrap (n * 16) + Z.to_N (hex_value v))) :: ts) (counter c))
      | _ => IllAct
      end
  | A_finish_hexdec =>
      match stk c with
      | INum n :: ts =>
          if N.ltb n 4294967296 then Done (mkCtx (IRe (RCls (CChar (Z.of_N n))) :: ts) (counter c))
          else IllAct
      | _ => IllAct
      end
  (* capture.inc.hpp *)
  | A_prepare_capture => Done (mkCtx (ICap (S (counter c)) :: stk c) (S (counter c)))
  | A_reset_capture =>
      match stk c with
      | ICap _ :: ts => Done (mkCtx ts (pred (counter c)))
      | _ => IllAct
      end
  | A_make_capture =>
      match stk c with
      | IRe x :: ICap i :: ts => Done (mkCtx (IRe (RCap i (unwrap x)) :: ts) (counter c))
      | _ => IllAct
      end
  | A_push_name =>
      match stk c with
      | IId n :: ts => Done (mkCtx (IId (n ++ [v]) :: ts) (counter c))
      | ts => Done (mkCtx (IId [v] :: ts) (counter c))
      end
  | A_make_capture_with_name =>
      match stk c with
      | IRe x :: IId n :: ICap i :: ts => Done (mkCtx (IRe (RNCap i n (unwrap x)) :: ts) (counter c))
      | _ => IllAct
      end
  (* backreference.inc.hpp *)
  | A_make_back_reference =>
      match stk c with
      | IId n :: ts => Done (mkCtx (IRe (RNBack n) :: ts) (counter c))
      | INum i :: ts =>
          if N.ltb (N.of_nat (counter c)) i then Reject
          else Done (mkCtx (IRe (RBack (N.to_nat i)) :: ts) (counter c))
      | _ => IllAct
      end
  | A_make_relative_back_reference =>
      match stk c with
      | INum i :: ts =>
          if N.ltb (N.of_nat (counter c)) i then Reject
          else Done (mkCtx (IRe (RBack (counter c + 1 - N.to_nat i)%nat) :: ts) (counter c))
      | _ => IllAct
      end
  (* look.inc.hpp *)
  | A_start_lookahead_positive => push c (ILook false false)
  | A_start_lookahead_negative => push c (ILook false true)
  | A_start_lookbehind_positive => push c (ILook true false)
  | A_start_lookbehind_negative => push c (ILook true true)
  | A_look_finish =>
      match stk c with
      | IRe x :: ILook false neg :: ts => Done (mkCtx (IRe (RAhead neg (unwrap x)) :: ts) (counter c))
      | IRe x :: ILook true neg :: ts =>
          match behind_content x with
          | Some l => Done (mkCtx (IRe (RBehind neg l) :: ts) (counter c))
          | None => IllAct
          end
      | _ => IllAct
      end
  (* atomic_group.inc.hpp *)
  | A_start_atomic => push c IAtomic
  | A_make_atomic =>
      match stk c with
      | IRe x :: IAtomic :: ts => Done (mkCtx (IRe (RAtomic (unwrap x)) :: ts) (counter c))
      | _ => IllAct
      end
  (* mode.inc.hpp *)
  | A_mode_case_insensitive => apply_mode ModeCI c
  | A_mode_case_sensitive => apply_mode ModeCS c
  | A_mode_singleline => apply_mode ModeSL c
  | A_mode_multiline => apply_mode ModeML c
  (* set.inc.hpp *)
  | A_set_start =>
      match stk c with
      | IRe (RCls x) :: ts => Done (mkCtx (IRe (RCls (CSet [x])) :: ts) (counter c))
      | _ => IllAct
      end
  | A_set_empty => push_cls c (CSet [])
  | A_set_make =>
      match stk c with
      | IRe (RCls (CSet l)) :: ts => Done (mkCtx (IRe (RCls (CSet l)) :: ts) (counter c))
      | _ => IllAct
      end
  | A_set_make_negative =>
      match stk c with
      | IRe (RCls (CSet l)) :: ts => Done (mkCtx (IRe (RCls (CNeg l)) :: ts) (counter c))
      | _ => IllAct
      end
  | A_set_combine =>
      match stk c with
      | IRe (RCls x) :: IRe (RCls (CSet l)) :: ts =>
          Done (mkCtx (IRe (RCls (CSet (push_into_set x l))) :: ts) (counter c))
      | IRe (RCls x) :: IRe (RCls (CNeg l)) :: ts =>
          Done (mkCtx (IRe (RCls (CSet (push_into_set x l))) :: ts) (counter c))
      | _ => IllAct
      end
  | A_negate_class_named =>
      match stk c with
      | IRe (RCls x) :: ts => Done (mkCtx (IRe (RCls (CNegate [x])) :: ts) (counter c))
      | _ => IllAct
      end
  | A_make_range =>
      match stk c with
      | IRe (RCls (CChar b)) :: IRe (RCls (CChar x)) :: ts =>
          Done (mkCtx (IRe (RCls (CRange x b)) :: ts) (counter c))
      | _ => IllAct
      end
  (* properties.inc.hpp *)
  | A_push_property_name =>
      match stk c with
      | IPName n :: ts => Done (mkCtx (IPName (n ++ [v]) :: ts) (counter c))
      | ts => Done (mkCtx (IPName [v] :: ts) (counter c))
      end
  | A_push_property_value =>
      match stk c with
      | IPValue n :: ts => Done (mkCtx (IPValue (n ++ [v]) :: ts) (counter c))
      | ts => Done (mkCtx (IPValue [v] :: ts) (counter c))
      end
  | A_make_property =>
      match stk c with
      | IPName n :: ts =>
          match props n None with
          | Some t => Done (mkCtx (IRe (RCls (CProp t)) :: ts) (counter c)) | None => Reject end
      | IPValue x :: IPName n :: ts =>
          match props n (Some x) with
          | Some t => Done (mkCtx (IRe (RCls (CProp t)) :: ts) (counter c)) | None => Reject end
      | _ => IllAct
      end
  | A_make_property_negative =>
      match stk c with
      | IPName n :: ts =>
          match props n None with
          | Some t => Done (mkCtx (IRe (RCls (CNegate [CProp t])) :: ts) (counter c)) | None => Reject end
      | IPValue x :: IPName n :: ts =>
          match props n (Some x) with
          | Some t => Done (mkCtx (IRe (RCls (CNegate [CProp t])) :: ts) (counter c)) | None => Reject end
      | _ => IllAct
      end
  end
  end.
End Apply.
