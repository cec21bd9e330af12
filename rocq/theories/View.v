(** Subjects seen through iterators. The evaluator only uses comparison with the end and with the
    beginning, dereference, increment and decrement; a [view] collects them.
    Positions are offsets from the beginning of the subject. [None] is undefined behaviour (reading
    or moving outside the storage). *)
From Coq Require Import List ZArith Bool.
From Verif Require Import Utf8.
Import ListNotations.

Record view := mkView {
  vend : nat -> option bool;    (* current == last *)
  vbeg : nat -> option bool;    (* current == begin *)
  vget : nat -> option Z;       (* *current *)
  vnext : nat -> option nat;    (* ++current *)
  vprev : nat -> option nat;    (* --current, std::prev *)
  vconv : bool;                 (* Iterator converts to and from the result iterator *)
  vsame : bool                  (* Iterator is the result iterator type *)
}.

(** A half-open array range [begin, end): std::string_view, std::u32string_view, containers
    (wrapper.hpp lines 175-177, 184-189, 195-203). *)
Definition arr_view (s : list Z) : view := {|
  vend := fun p => Some (Nat.eqb p (length s));
  vbeg := fun p => Some (Nat.eqb p 0);
  vget := fun p => nth_error s p;
  vnext := fun p => if Nat.ltb p (length s) then Some (S p) else None;
  vprev := fun p => match p with O => None | S p' => Some p' end;
  vconv := true; vsame := true |}.

(** [const char *] with [zero_terminated_string_end_iterator] (wrapper.hpp lines 17-58, 178-183):
    the end test reads the current element. [mem] is the readable storage. *)
Definition zt_view (mem : list Z) : view := {|
  vend := fun p => match nth_error mem p with Some c => Some (Z.eqb c 0) | None => None end;
  vbeg := fun p => Some (Nat.eqb p 0);
  vget := fun p => nth_error mem p;
  vnext := fun p => if Nat.ltb p (length mem) then Some (S p) else None;
  vprev := fun p => match p with O => None | S p' => Some p' end;
  vconv := true; vsame := true |}.

(** [utf8_iterator] with its sentinel, result iterator [const char8_t *] (wrapper.hpp lines
    190-194, utf8.hpp lines 63-113). [mem] readable storage, [len] the subject length. *)
Definition utf8_view (strict : bool) (mem : list Z) (len : nat) : view := {|
  vend := fun p => Some (Nat.leb len p);
  vbeg := fun p => Some (Nat.eqb p 0);
  vget := fun p => utf8_get mem len p;
  vnext := fun p => utf8_next strict mem p;
  vprev := fun p => utf8_prev mem len p;
  vconv := true; vsame := false |}.

(** A raw [const char8_t *] compared with [utf8_iterator::sentinel] (utf8.hpp lines 43-58: a test
    for a NUL unit). Reached from [lazy_repeat] only (evaluation.hpp line 300). *)
Definition raw8_view (mem : list Z) : view := {|
  vend := fun p => match nth_error mem p with Some c => Some (Z.eqb c 0) | None => None end;
  vbeg := fun p => Some (Nat.eqb p 0);
  vget := fun p => nth_error mem p;
  vnext := fun p => if Nat.ltb p (length mem) then Some (S p) else None;
  vprev := fun p => match p with O => None | S p' => Some p' end;
  vconv := true; vsame := true |}.

(** [std::make_reverse_iterator] on all three iterators, begin and end swapped (evaluation.hpp
    lines 530, 543). Positions stay those of the base iterator. Not convertible to the result
    iterator. *)
Definition rev_view (v : view) : view := {|
  vend := vbeg v;
  vbeg := vend v;
  vget := fun p => match vprev v p with Some q => vget v q | None => None end;
  vnext := vprev v;
  vprev := vnext v;
  vconv := false; vsame := false |}.
