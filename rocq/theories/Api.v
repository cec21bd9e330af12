(** match / starts_with / search on one subject. Source: /repo/include/ctre/wrapper.hpp,
    starts_with_anchor.hpp, find_captures.hpp. *)
From Coq Require Import List ZArith NArith Bool.
From Verif Require Import Chars Syntax First View Eval.
Import ListNotations.

(** find_captures.hpp lines 11-121, left to right. Lookbehinds, atomic groups and everything else
    are skipped by the overload of line 57. *)
Fixpoint find_captures (r : re) : list (nat * option (list Z)) :=
  let fc := fix fc (l : list re) : list (nat * option (list Z)) :=
    match l with [] => [] | x :: xs => find_captures x ++ fc xs end in
  match r with
  | RSelect l | RSeq l | RRep _ _ _ l | RAhead _ l => fc l
  | RCap id l => (id, None) :: fc l
  | RNCap id nm l => (id, Some nm) :: fc l
  | _ => []
  end.

(** return_type.hpp lines 354-363, 546: a fresh (not matched) result. *)
Definition fresh (r : re) : caps :=
  mkCaps empty_slot (map (fun p => (p, empty_slot)) (find_captures r)).

(** starts_with_anchor.hpp lines 8-83; [k] is the answer for the rest of the list. The overload for
    capture_with_name (lines 79-83) deduces the name as first element of [Seq...], so the general
    overload (line 9) answers false. *)
Fixpoint anchor_re (f : flags) (r : re) (k : bool) : bool :=
  let al := fix al (l : list re) (k : bool) : bool :=
    match l with [] => k | x :: xs => anchor_re f x (al xs k) end in
  match r with
  | RAssert ASubjectBegin => true
  | RAssert ALineBegin => negb (f_ml f) || k
  | RBound _ => k
  | RSelect l => forallb (fun x => anchor_re f x k) l
  | RRep kd a b l => if is_optional kd a b then al l k && k else al l k
  | RSeq l | RCap _ l => al l k
  | _ => false
  end.
Definition starts_with_anchor (f : flags) (r : re) : bool := anchor_re f r false.

(** A returned [regex_results] that failed carries no data (return_type.hpp line 360). *)
Definition returned (r : re) (x : res caps) : res caps :=
  match x with No => Ok (fresh r) | y => y end.

(** [operator bool] of the result, return_type.hpp lines 410-412. *)
Definition matched (c : caps) : bool := s_m (c0 c).

Section Exec.
  Variables (opt : bool) (n : nat) (v w : view) (f : flags) (r : re).

  (** wrapper.hpp lines 68-78. [vbeg v] is the test against [orig_begin]. *)
  Definition exec_match (begin : nat) : res caps :=
    returned r (eval opt n v w begin f (fresh r)
                  [AStart; AR r; AR (RAssert ASubjectEnd); AEnd; AAccept]).

  (** wrapper.hpp lines 108-117. *)
  Definition exec_starts_with (begin : nat) : res caps :=
    returned r (eval opt n v w begin f (fresh r) [AStart; AR r; AEnd; AAccept]).

  (** wrapper.hpp lines 94-100: the last attempt; a failing result gets its end mark. *)
  Definition search_last (it : nat) : res caps :=
    match eval opt n v w it f (fresh r) [AStart; AR r; AEnd; AAccept] with
    | No => Ok (set_end_mark it (fresh r))
    | x => x
    end.

  (** wrapper.hpp lines 80-100: the search loop. *)
  Fixpoint search_loop (m : nat) (it : nat) : res caps :=
    match m with
    | O => Fuel
    | S m' =>
        or_ub (vend v it) (fun e =>
        if negb e && negb (starts_with_anchor f r) then
          match eval opt n v w it f (fresh r) [AStart; AR r; AEnd; AAccept] with
          | No => or_ub (vnext v it) (fun it' => search_loop m' it')
          | x => x
          end
        else search_last it)
    end.
  Definition exec_search (begin : nat) : res caps := search_loop n begin.
End Exec.

(** The entry points on a contiguous subject (wrapper.hpp lines 75-77, 103-105, 114-116, 175-177,
    184-189, 195-203): [orig_begin] and [begin] are the beginning of the subject. *)
Definition ctre_match (opt : bool) (n : nat) (s : list Z) (f : flags) (r : re) : res caps :=
  exec_match opt n (arr_view s) (arr_view s) f r 0.
Definition ctre_starts_with (opt : bool) (n : nat) (s : list Z) (f : flags) (r : re) : res caps :=
  exec_starts_with opt n (arr_view s) (arr_view s) f r 0.
Definition ctre_search (opt : bool) (n : nat) (s : list Z) (f : flags) (r : re) : res caps :=
  exec_search opt n (arr_view s) (arr_view s) f r 0.

(** What a caller sees of capture [id]: [get<Id>()] converted to a span, or nothing when it is false
    (return_type.hpp lines 90-99, 293-306, 365-384). *)
Definition group (c : caps) (id : nat) : option (nat * nat) :=
  match get_id id c with
  | Some (mkSlot (Some b) (Some e) true) => Some (b, e)
  | _ => None
  end.
