(** search_all, tokenize, split, iterator and the filtering of a range of subjects.
    Source: /repo/include/ctre/iterators.hpp, range.hpp, wrapper.hpp. *)
From Coq Require Import List ZArith NArith Bool Arith.
From Verif Require Import Chars Syntax First View Eval Api.
Import ListNotations.

Definition bind {A B} (x : res A) (k : A -> res B) : res B :=
  match x with Ok a => k a | No => No | Fuel => Fuel | UB => UB | Ill => Ill end.

(** * regex_iterator (iterators.hpp lines 18-94) *)

(** Lines 25-28. [orig_begin] is position 0 and [end] the end of the view. *)
Record riter := mkRiter { ri_cur : nat; ri_match : caps }.

Section Iterator.
  (** [RE::exec_with_result_iterator(orig_begin, current, end)], lines 34, 52; [v] the subject, [r] the
      pattern. [orig_begin = current = begin] in the constructor. *)
  Variables (exec : nat -> res caps) (v : view) (r : re).

  (** Lines 35-37 and 54-56: [get<0>().end()] of a result without end mark is a singular iterator. *)
  Definition ri_advance (cur : nat) (m : caps) : res riter :=
    if matched m then or_ub (s_end (c0 m)) (fun e => Ok (mkRiter e m)) else Ok (mkRiter cur m).

  (** Lines 34-38; also regex_range::begin (range.hpp lines 16-18). *)
  Definition ri_begin : res riter := bind (exec 0) (ri_advance 0).

  (** Lines 46-58. *)
  Definition ri_next (it : riter) : res riter :=
    or_ub (vend v (ri_cur it)) (fun e =>
    if e then Ok (mkRiter (ri_cur it) (fresh r))
    else bind (exec (ri_cur it)) (ri_advance (ri_cur it))).

  (** Comparison with [regex_end_iterator], lines 82-93: [it != sentinel], [sentinel != it] and the two
      negations. *)
  Definition ri_ne_end (it : riter) : bool := matched (ri_match it).
  Definition end_ne_ri (it : riter) : bool := matched (ri_match it).
  Definition ri_eq_end (it : riter) : bool := negb (matched (ri_match it)).
  Definition end_eq_ri (it : riter) : bool := negb (matched (ri_match it)).

  (** Comparison of two iterators, lines 64-81: only [current] takes part. *)
  Definition ri_eq (a b : riter) : bool := Nat.eqb (ri_cur a) (ri_cur b).
  Definition ri_ne (a b : riter) : bool := negb (Nat.eqb (ri_cur a) (ri_cur b)).
  Definition ri_lt (a b : riter) : bool := Nat.ltb (ri_cur a) (ri_cur b).

  (** [for (auto it = range.begin(); it != range.end(); ++it) out.push_back( *it);] from [it] on, at most
      [m] rounds. *)
  Fixpoint ri_loop (m : nat) (it : riter) : res (list caps) :=
    match m with
    | O => Fuel
    | S m' =>
        if ri_ne_end it then
          bind (ri_next it) (fun it' => bind (ri_loop m' it') (fun l => Ok (ri_match it :: l)))
        else Ok []
    end.
  Definition ri_all (m : nat) : res (list caps) := bind ri_begin (ri_loop m).

  (** The iterator after [k] increments. *)
  Fixpoint ri_nth (k : nat) : res riter :=
    match k with O => ri_begin | S k' => bind (ri_nth k') ri_next end.

  (** * regex_split_iterator (iterators.hpp lines 96-192) *)

  (** Lines 103-107. *)
  Record siter := mkSiter { si_cur : nat; si_match : caps; si_last : bool }.

  (** Lines 109-114. *)
  Definition modify_match (cur : nat) (m : caps) (last : bool) : res siter :=
    or_ub (s_end (c0 m)) (fun tmp =>
    or_ub (s_beg (c0 m)) (fun b =>
    Ok (mkSiter tmp (set_start_mark cur (set_end_mark b m)) last))).

  (** Lines 116-122: the end mark is the one left by the failed search (wrapper.hpp line 99). *)
  Definition match_rest (cur : nat) (m : caps) : res siter :=
    let m' := set_matched (set_start_mark cur m) in
    or_ub (s_end (c0 m')) (fun e => Ok (mkSiter e m' true)).

  (** Lines 129-133 and 150-154. *)
  Definition si_take (cur : nat) (last : bool) (m : caps) : res siter :=
    if matched m then modify_match cur m last else match_rest cur m.

  (** Lines 128-134. *)
  Definition si_begin : res siter := bind (exec 0) (si_take 0 false).

  (** Lines 142-156. *)
  Definition si_next (it : siter) : res siter :=
    or_ub (vend v (si_cur it)) (fun e =>
    if e && si_last it then Ok (mkSiter (si_cur it) (fresh r) (si_last it))
    else bind (exec (si_cur it)) (si_take (si_cur it) (si_last it))).

  (** Lines 180-191. *)
  Definition si_ne_end (it : siter) : bool := matched (si_match it).

  Fixpoint si_loop (m : nat) (it : siter) : res (list caps) :=
    match m with
    | O => Fuel
    | S m' =>
        if si_ne_end it then
          bind (si_next it) (fun it' => bind (si_loop m' it') (fun l => Ok (si_match it :: l)))
        else Ok []
    end.
  Definition si_all (m : nat) : res (list caps) := bind si_begin (si_loop m).
End Iterator.

(** wrapper.hpp lines 120-127 and 147-157 (search_all, iterator), 129-136 (tokenize), 138-145 (split), on
    any subject. [n] bounds each search and the number of rounds of the loop. *)
Section Ranges.
  Variables (opt : bool) (n : nat) (v w : view) (f : flags) (r : re).
  Definition range_search_all : res (list caps) := ri_all (exec_search opt n v w f r) v r n.
  Definition range_tokenize : res (list caps) := ri_all (exec_starts_with opt n v w f r) v r n.
  Definition range_split : res (list caps) := si_all (exec_search opt n v w f r) v r n.
End Ranges.

(** On a contiguous subject. *)
Definition ctre_search_all opt n s f r := range_search_all opt n (arr_view s) (arr_view s) f r.
Definition ctre_tokenize opt n s f r := range_tokenize opt n (arr_view s) (arr_view s) f r.
Definition ctre_split opt n s f r := range_split opt n (arr_view s) (arr_view s) f r.

(** * multi_subject_range (range.hpp lines 42-132) *)
Section Multi.
  (** [RE::exec] on one subject (match, search or starts_with); [none] is a default constructed result. *)
  Variables (subject : Type) (exec : subject -> res caps) (none : caps).

  (** Lines 55-57: [first] as the subjects still to come, [last] is reached when there are none. *)
  Record miter := mkMiter { mi_first : list subject; mi_result : caps }.

  (** Lines 62-68, with the updated [first]. *)
  Fixpoint find_first (l : list subject) : res miter :=
    match l with
    | [] => Ok (mkMiter [] none)
    | x :: xs => bind (exec x) (fun c => if matched c then Ok (mkMiter l c) else find_first xs)
    end.

  (** Line 60 and lines 126-128. *)
  Definition mi_begin (l : list subject) : res miter := find_first l.

  (** Lines 78-82; [++first] beyond [last] is undefined. *)
  Definition mi_next (it : miter) : res miter :=
    match mi_first it with [] => UB | _ :: xs => find_first xs end.

  (** Lines 107-118. *)
  Definition at_last (it : miter) : bool := match mi_first it with [] => true | _ => false end.
  Definition mi_eq_end (it : miter) : bool := at_last it.
  Definition end_eq_mi (it : miter) : bool := at_last it.
  Definition mi_ne_end (it : miter) : bool := negb (at_last it).
  Definition end_ne_mi (it : miter) : bool := at_last it.

  Fixpoint mi_loop (m : nat) (it : miter) : res (list caps) :=
    match m with
    | O => Fuel
    | S m' =>
        if mi_ne_end it then
          bind (mi_next it) (fun it' => bind (mi_loop m' it') (fun l => Ok (mi_result it :: l)))
        else Ok []
    end.
  Definition mi_all (m : nat) (l : list subject) : res (list caps) := bind (mi_begin l) (mi_loop m).
End Multi.
