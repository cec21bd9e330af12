(** Regex AST and evaluation stack.
    Source: /repo/include/ctre/atoms.hpp. *)
From Coq Require Import List ZArith NArith Bool.
From Verif Require Import Chars.
Import ListNotations.

(** atoms.hpp lines 29-43: repeat, lazy_repeat, possessive_repeat (plus, star and optional are
    aliases with bounds 1..0, 0..0, 0..1; a maximum of 0 means "no limit"). *)
Inductive rkind := Greedy | Lazy | Possessive.

(** atoms.hpp lines 70-74. *)
Inductive assertion :=
| ASubjectBegin      (* assert_subject_begin,     \A *)
| ASubjectEnd        (* assert_subject_end,       \z *)
| ASubjectEndLine    (* assert_subject_end_line,  \Z *)
| ALineBegin         (* assert_line_begin,        ^  *)
| ALineEnd.          (* assert_line_end,          $  *)

(** atoms.hpp lines 21-76 and 13. A parameter pack is a list. *)
Inductive re :=
| RCls (c : cls)                                  (* every character-like atom *)
| RAny                                            (* any *)
| RStr (l : list Z)                               (* string<...> *)
| RSelect (l : list re)                           (* select<...> *)
| RSeq (l : list re)                              (* sequence<...> *)
| REmpty                                          (* empty *)
| RReject                                         (* reject (made by fusion only) *)
| RRep (k : rkind) (a b : N) (content : list re)  (* repeat / lazy_repeat / possessive_repeat *)
| RCap (id : nat) (content : list re)             (* capture<Id, ...> *)
| RNCap (id : nat) (name : list Z) (content : list re) (* capture_with_name<Id, Name, ...> *)
| RBack (id : nat)                                (* back_reference<Id> *)
| RNBack (name : list Z)                          (* back_reference_with_name<Name> *)
| RAhead (neg : bool) (content : list re)         (* lookahead_positive / lookahead_negative *)
| RBehind (neg : bool) (content : list re)        (* lookbehind_positive / lookbehind_negative *)
| RAtomic (content : list re)                     (* atomic_group<...> *)
| RBound (c : cls)                                (* boundary<C> *)
| RNotBound (c : cls)                             (* not_boundary<C> *)
| RAssert (a : assertion)
| RMode (m : mode).                               (* mode_switch<Mode> *)

(** Stack atoms: AST nodes and the helpers of atoms.hpp lines 12-20. *)
Inductive atom :=
| AR (r : re)
| AAccept
| AStart                (* start_mark *)
| AEnd                  (* end_mark *)
| AEndCycle             (* end_cycle_mark *)
| AEndAhead             (* end_lookahead_mark *)
| AEndBehind            (* end_lookbehind_mark *)
| ANum (id : nat).      (* numeric_mark<Id> *)

(** Induction principle for [re] with the nested lists. *)
Section ReInd.
  Variable P : re -> Prop.
  Variable Q : list re -> Prop.
  Hypothesis Hnil : Q [].
  Hypothesis Hcons : forall r l, P r -> Q l -> Q (r :: l).
  Hypothesis Hcls : forall c, P (RCls c).
  Hypothesis Hany : P RAny.
  Hypothesis Hstr : forall l, P (RStr l).
  Hypothesis Hsel : forall l, Q l -> P (RSelect l).
  Hypothesis Hseq : forall l, Q l -> P (RSeq l).
  Hypothesis Hempty : P REmpty.
  Hypothesis Hreject : P RReject.
  Hypothesis Hrep : forall k a b l, Q l -> P (RRep k a b l).
  Hypothesis Hcap : forall i l, Q l -> P (RCap i l).
  Hypothesis Hncap : forall i nm l, Q l -> P (RNCap i nm l).
  Hypothesis Hback : forall i, P (RBack i).
  Hypothesis Hnback : forall n, P (RNBack n).
  Hypothesis Hahead : forall n l, Q l -> P (RAhead n l).
  Hypothesis Hbehind : forall n l, Q l -> P (RBehind n l).
  Hypothesis Hatomic : forall l, Q l -> P (RAtomic l).
  Hypothesis Hbound : forall c, P (RBound c).
  Hypothesis Hnbound : forall c, P (RNotBound c).
  Hypothesis Hassert : forall a, P (RAssert a).
  Hypothesis Hmode : forall m, P (RMode m).

  Fixpoint re_ind2 (r : re) : P r :=
    let go := fix go (l : list re) : Q l :=
      match l with [] => Hnil | x :: xs => Hcons x xs (re_ind2 x) (go xs) end in
    match r with
    | RCls c => Hcls c | RAny => Hany | RStr l => Hstr l
    | RSelect l => Hsel l (go l) | RSeq l => Hseq l (go l)
    | REmpty => Hempty | RReject => Hreject
    | RRep k a b l => Hrep k a b l (go l)
    | RCap i l => Hcap i l (go l) | RNCap i n l => Hncap i n l (go l)
    | RBack i => Hback i | RNBack n => Hnback n
    | RAhead n l => Hahead n l (go l) | RBehind n l => Hbehind n l (go l)
    | RAtomic l => Hatomic l (go l)
    | RBound c => Hbound c | RNotBound c => Hnbound c
    | RAssert a => Hassert a | RMode m => Hmode m
    end.

  Definition re_list_ind2 (l : list re) : Q l :=
    (fix go (l : list re) : Q l :=
      match l with [] => Hnil | x :: xs => Hcons x xs (re_ind2 x) (go xs) end) l.
End ReInd.

(** Induction principle for [cls]. *)
Section ClsInd.
  Variable P : cls -> Prop.
  Hypothesis Hchar : forall v, P (CChar v).
  Hypothesis Hrange : forall a b, P (CRange a b).
  Hypothesis Hset : forall l, Forall P l -> P (CSet l).
  Hypothesis Hneg : forall l, Forall P l -> P (CNeg l).
  Hypothesis Henum : forall vs, P (CEnum vs).
  Hypothesis Hnegate : forall l, Forall P l -> P (CNegate l).
  Hypothesis Hprop : forall t, P (CProp t).
  Fixpoint cls_ind2 (c : cls) : P c :=
    let go := fix go (l : list cls) : Forall P l :=
      match l with [] => Forall_nil P | x :: xs => Forall_cons x (cls_ind2 x) (go xs) end in
    match c with
    | CChar v => Hchar v | CRange a b => Hrange a b
    | CSet l => Hset l (go l) | CNeg l => Hneg l (go l)
    | CEnum vs => Henum vs | CNegate l => Hnegate l (go l)
    | CProp t => Hprop t
    end.
End ClsInd.
