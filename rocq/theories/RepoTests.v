(** The assertions of the library's own tests (/repo/tests), run in the model. The tests say what the authors expect; a model that fails
    one of them is not a model of this library. The rows are in RepoData.v. *)
From Coq Require Import List ZArith NArith Bool Arith String.
From Verif Require Import Chars Syntax Grammar Actions Parser Utf8 View Eval Api Views MsvcEval Results FixedString Combine Trampoline Unicode UnicodeProps.
Import ListNotations.

(** String literals by their code units: no prefix, [u8], [u], [U] (and [L] with 32 bits). *)
Inductive literal := Bytes (units : list Z) | Utf8 (units : list Z) | Utf16 (units : list Z) | Utf32 (units : list Z).
Definition fixed_string (l : literal) : option fixed :=
  match l with
  | Bytes u => Some (from_char u)
  | Utf8 u => from_utf8 u
  | Utf16 u => Some (from_utf16 u)
  | Utf32 u => Some (from_utf32 u)
  end.
(** [std::string_view] and the like; [const char *] and [const wchar_t *]; [std::u8string_view]. *)
Inductive subject := View (s : list Z) | Pointer (s : list Z) | U8 (bytes : list Z).
(** A pattern text, a tree written as a type, or two of them combined with [|] and [>>]. *)
Inductive pattern := Text (l : literal) | Tree (r : re) | Or (a b : pattern) | Then (a b : pattern).
(** [bool(result)]; [result.get<id>() == text]; [result.size() == n]. *)
Inductive check := Matches (b : bool) | GroupIs (id : nat) (t : list Z) | SizeIs (n : nat).
Inductive test :=
| Run (line : nat) (a : method) (multiline : bool) (p : pattern) (s : subject) (c : check)
| RunCase (line : nat) (insensitive : bool) (p : pattern) (s : subject) (c : check) (* [match<pattern, case_...>] *)
| Builds (line : nat) (l : literal) (r : re)             (* the front of the stack after parsing *)
| Stack (line : nat) (l : literal) (n : nat)             (* the length of the stack *)
| Same (line : nat) (l l' : literal)
| Syntax (line : nat) (l : literal) (b : bool)           (* accepted by the parser with its actions *)
| Parses (line : nat) (l : literal) (b : bool)           (* ... without actions *)
| Size (line : nat) (l : literal) (n : nat)              (* [fixed_string(l).size()] *)
| Correct (line : nat) (l : literal)
| First (line : nat) (l : literal) (v : Z)
| SameText (line : nat) (l l' : literal)
| Decodes (line : nat) (bytes points : list Z).          (* [utf8_range] goes through the code points *)
Definition line_of (t : test) : nat :=
  match t with
  | Run n _ _ _ _ _ | RunCase n _ _ _ _ | Builds n _ _ | Stack n _ _ | Same n _ _ | Syntax n _ _ | Parses n _ _ | Size n _ _ | Correct n _
  | First n _ _ | SameText n _ _ | Decodes n _ _ => n
  end.

Section Check.
(** The Unicode properties, the optimisation and the workaround for MSVC. *)
Variables (props : list Z -> option (list Z) -> option (list (Z * Z))) (opt ms : bool).

Fixpoint tree (p : pattern) : option re :=
  match p with
  | Text l => match fixed_string l with Some x => ctre_literal props (content x) | None => None end
  | Tree r => Some r
  | Or a b => match tree a, tree b with Some x, Some y => Some (op_or x y) | _, _ => None end
  | Then a b => match tree a, tree b with Some x, Some y => Some (op_then x y) | _, _ => None end
  end.
Definition fuel : nat := 3000.
Definition result (a : method) (v w : view) (f : flags) (r : re) : res caps :=
  if ms then match a with
             | MMatch => ms_exec_match opt fuel v w f r 0
             | MStarts => ms_exec_starts_with opt fuel v w f r 0
             | MSearch => ms_exec_search opt fuel v w f r 0
             end
  else exec a opt fuel v w f r 0.
Definition run (a : method) (f : flags) (r : re) (s : subject) : res caps :=
  match s with
  | View s => result a (arr_view s) (arr_view s) f r
  | Pointer s => result a (zt_view (s ++ [0%Z])) (zt_view (s ++ [0%Z])) f r
  | U8 b => result a (utf8_view true b (List.length b)) (raw8_view b) f r
  end.
Definition units (s : subject) : list Z := match s with View s | Pointer s | U8 s => s end.
Definition holds (s : subject) (c : caps) (k : check) : bool :=
  match k with
  | Matches b => Bool.eqb (matched c) b
  | GroupIs id t => match get_id id c with Some sl => match cap_eq (units s) sl t with Ok b => b | _ => false end | None => false end
  | SizeIs n => match slot_size (c0 c) with Ok k => Nat.eqb k n | _ => false end
  end.
Definition ran (a : method) (f : flags) (p : pattern) (s : subject) (k : check) : bool :=
  match tree p with
  | Some r => match run a f r s with Ok c => holds s c k | _ => false end
  | None => false
  end.
Definition with_text (l : literal) (g : list Z -> bool) : bool := match fixed_string l with Some x => g (content x) | None => false end.
Fixpoint decodes (bytes : list Z) (at_ : nat) (points : list Z) : bool :=
  match points with
  | [] => Nat.eqb at_ (List.length bytes)
  | c :: points => match utf8_get bytes (List.length bytes) at_, utf8_next true bytes at_ with
                   | Some v, Some p => Z.eqb v c && decodes bytes p points
                   | _, _ => false
                   end
  end.
Definition passes (t : test) : bool :=
  match t with
  | Run _ a m p s k => ran a (flags_of [if m then Mmultiline else Msingleline]) p s k
  | RunCase _ i p s k => ran MMatch (flags_of [Msingleline; if i then Mcase_insensitive else Mcase_sensitive]) p s k
  | Builds _ l r => with_text l (fun u => match ctre_gen props u with Some (IRe x :: _) => re_eqb x r | _ => false end)
  | Stack _ l n => with_text l (fun u => match ctre_gen props u with Some st => Nat.eqb (List.length st) n | _ => false end)
  | Same _ l l' => with_text l (fun u => with_text l' (fun u' => match ctre_gen props u, ctre_gen props u' with
                                                               | Some [IRe x], Some [IRe y] => re_eqb x y | _, _ => false end))
  | Syntax _ l b => with_text l (fun u => match ctre_syntax props u with Some b' => Bool.eqb b b' | None => false end)
  | Parses _ l b => with_text l (fun u => Bool.eqb (ctre_test u) b)
  | Size _ l n => with_text l (fun u => Nat.eqb (List.length u) n)
  | Correct _ l => match fixed_string l with Some x => correct_flag x | None => false end
  | First _ l v => with_text l (fun u => match u with c :: _ => Z.eqb c v | [] => false end)
  | SameText _ l l' => match fixed_string l, fixed_string l' with Some x, Some y => is_same_as x y | _, _ => false end
  | Decodes _ b p => decodes b 0 p
  end.
(** The lines of the assertions that fail. *)
Definition failing (l : list test) : list nat := map line_of (filter (fun t => negb (passes t)) l).
End Check.

(** The Unicode properties at the code points of the subjects only: [unicode_props] lists whole properties, which takes long. *)
Fixpoint points (k : nat) (bytes : list Z) (p : nat) : list Z :=
  match k with
  | O => []
  | S k => match utf8_get bytes (List.length bytes) p, utf8_next true bytes p with
           | Some v, Some q => v :: points k bytes q
           | _, _ => []
           end
  end.
Definition points_of (t : test) : list Z :=
  match t with
  | Run _ _ _ _ s _ | RunCase _ _ _ s _ => match s with View u | Pointer u => u | U8 b => points (List.length b) b 0 end
  | _ => []
  end.
Definition props_at (pts : list Z) (name : list Z) (value : option (list Z)) : option (list (Z * Z)) :=
  option_map (fun f => map (fun u => (u, u)) (filter (fun u => match f u with Ok b => b | _ => false end) pts)) (property name value).
Definition all_points (l : list test) : list Z := nodup Z.eq_dec (flat_map points_of l).
