(** The LL(1) parser. Source: /repo/include/ctll/parser.hpp, /repo/include/ctll/grammars.hpp,
    /repo/include/ctre/wrapper.hpp lines 296-305 (regex_builder). *)
From Coq Require Import List ZArith NArith Bool Arith String Ascii.
From Verif Require Import Chars Syntax Grammar Actions.
Import ListNotations.
Local Open Scope Z_scope.

Definition mem (c : Z) (l : list Z) : bool := existsb (Z.eqb c) l.

(** Overload resolution of [rule(nonterminal, term)]: an exact [term] is an identity conversion and
    wins over the user-defined conversions to [set] / [_others]; these are disjoint
    ([ll1_consistent] in ParserProofs.v). No viable rule: [rule(...) -> reject]
    (grammars.hpp lines 91-108). *)
Fixpoint find_term (c : Z) (l : list (tmatch * rhs)) : option rhs :=
  match l with
  | [] => None
  | (MTerm d, r) :: t => if c =? d then Some r else find_term c t
  | _ :: t => find_term c t
  end.
Fixpoint find_set (c : Z) (l : list (tmatch * rhs)) : option rhs :=
  match l with
  | [] => None
  | (MSet s, r) :: t => if mem c s then Some r else find_set c t
  | (MOthers, r) :: t => if mem c not_others then find_set c t else Some r
  | _ :: t => find_set c t
  end.
Fixpoint find_eps (l : list (tmatch * rhs)) : option rhs :=
  match l with
  | [] => None
  | (MEps, r) :: _ => Some r
  | _ :: t => find_eps t
  end.

Definition rule (n : nt) (cur : option Z) : rhs :=
  match cur with
  | None => match find_eps (rules n) with Some r => r | None => Rej end
  | Some c =>
      match find_term c (rules n) with
      | Some r => r
      | None => match find_set c (rules n) with Some r => r | None => Rej end
      end
  end.

(** A terminal on the stack against the input (grammars.hpp lines 98-102). *)
Definition term_matches (s : sym) (c : Z) : bool :=
  match s with TTerm d => c =? d | TAny => true | TSet l => mem c l | _ => false end.

Inductive parsed :=
| PAccept (c : ctx)      (* decision::accept with the final subject *)
| PReject                (* decision::reject *)
| PIll                   (* an action has no viable overload: hard error *)
| PFuel.                 (* step bound of the model exhausted *)

Section Run.
Variable props : list Z -> option (list Z) -> option (list (Z * Z)).

(** parser.hpp lines 107-181: [decide] and [move] until a decision; [prev] is the last consumed
    character. The fold over the positions (lines 170-176) only splits this loop at consumed
    characters. One unit of fuel per popped symbol. *)
Fixpoint run (fuel : nat) (prev : option Z) (input : list Z) (stack : list sym) (c : ctx) : parsed :=
  match fuel with
  | O => PFuel
  | S n =>
      match stack with
      | [] => match input with [] => PAccept c | _ => PReject end
      | Act a :: st =>
          match apply props a prev c with
          | Done c' => run n prev input st c'
          | Reject => PReject
          | IllAct => PIll
          end
      | NT x :: st =>
          match rule x (hd_error input) with
          | Push l => run n prev input (l ++ st) c
          | Rej => PReject
          end
      | t :: st =>
          match input with
          | ch :: rest => if term_matches t ch then run n (Some ch) rest st c else PReject
          | [] => PReject
          end
      end
  end.

(** Steps that always suffice ([parse_total] in ParserProofs.v). *)
Definition parse_fuel (input : list Z) : nat := (32 * List.length input + 32)%nat.

(** [ctll::parser<pcre, input, pcre_actions>::output<pcre_context<>>]. *)
Definition parse_ctx (input : list Z) : parsed :=
  run (parse_fuel input) None input [NT N_s] (mkCtx [] 0).

(** wrapper.hpp lines 296-305: the regex is the front of the final stack. *)
Inductive compiled := CRegex (r : re) | CReject | CIll | CFuel.
Definition compile (input : list Z) : compiled :=
  match parse_ctx input with
  | PAccept c => match stk c with IRe r :: _ => CRegex r | _ => CIll end
  | PReject => CReject
  | PIll => CIll
  | PFuel => CFuel
  end.
End Run.

(** No Unicode property known. *)
Definition no_props : list Z -> option (list Z) -> option (list (Z * Z)) := fun _ _ => None.

(** Coq string literal as a list of code units. *)
Fixpoint codes (s : string) : list Z :=
  match s with
  | EmptyString => []
  | String a t => Z.of_nat (nat_of_ascii a) :: codes t
  end.

(** Compile a pattern written as a Coq string. *)
Definition re_of (s : string) : compiled := compile no_props (codes s).
