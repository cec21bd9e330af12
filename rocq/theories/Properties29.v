(** Exactly when the loops over search_all, tokenize and split end (C59); when make_sequence merges two repetitions (C35). *)
From Coq Require Import List ZArith NArith Bool Lia Arith String.
From Verif Require Import Chars Syntax First Utf8 View Eval Api Actions Parser Spec CharProofs EvalInv ApiProofs Checks Match Term Anchor
  Iter IterProofs Utf8Proofs Views RangeSim Mode ModeSem ModeCalls ModeTop Compiles Total Numbering RangeSpec RangeEnd SameType
  Properties2 Properties6 Properties27.
Import ListNotations.
Local Open Scope string_scope.
Local Open Scope list_scope.

(** * C59 *)
(** Computed from the ordered outcomes of the pattern alone: is every match not empty, or at least at the end of the subject; for
    split, is no match empty and is there none at the very end; for split of an anchored pattern, does it match the whole subject
    (or fail in an empty one). *)
Definition ends (a : range_method) (s : list Z) (f : flags) (r : re) : bool :=
  let len := List.length s in
  match a with
  | GSearchAll => forallb (fun x => Nat.ltb (fst x) (fst (snd x)) || Nat.eqb (fst (snd x)) len) (all_matches s f r)
  | GTokenize => forallb (fun x => Nat.ltb (fst x) (fst (snd x)) || Nat.eqb (fst (snd x)) len) (all_tokens s f r)
  | GSplit =>
      if starts_with_anchor f r then
        match first_at s f r 0 with
        | Some (e, _) => Nat.eqb e len && negb (Nat.eqb len 0)
        | None => Nat.eqb len 0
        end
      else
        match first_at s f r len with
        | Some _ => false
        | None => forallb (fun x => Nat.ltb (fst x) (fst (snd x))) (all_matches s f r)
        end
  end.
Lemma leads_all : forall len (l : list (nat * state)),
  forallb (fun x => Nat.ltb (fst x) (fst (snd x)) || Nat.eqb (fst (snd x)) len) l = true <-> Forall (leads_on len) l.
Proof.
  intros len l. rewrite forallb_forall, Forall_forall. unfold leads_on. split; intros H x Hx; specialize (H x Hx).
  - apply orb_true_iff in H as [H|H]; [left; apply Nat.ltb_lt, H|right; apply Nat.eqb_eq, H].
  - apply orb_true_iff. destruct H as [H|H]; [left; apply Nat.ltb_lt, H|right; apply Nat.eqb_eq, H].
Qed.
Lemma nonempty_all : forall l : list (nat * state), forallb (fun x => Nat.ltb (fst x) (fst (snd x))) l = true <-> Forall nonempty l.
Proof.
  intros l. rewrite forallb_forall, Forall_forall. unfold nonempty. split; intros H x Hx; specialize (H x Hx); apply Nat.ltb_lt; exact H.
Qed.

(** If so, from some fuel on the loop lists what C57 says; if not, no fuel suffices: the loop over the range never ends (and never
    reads outside the subject either). *)
Theorem C59_exact : forall a opt s f r, forallb val_ok s = true -> well_numbered r -> range_check opt f r = true ->
  if ends a s f r then lists (fun n => range_array a opt n s f r) r (meant a s f r)
  else forall n, range_array a opt n s f r = Fuel.
Proof.
  intros a opt s f r Hs Hw H. apply range_checked in H as (H1 & H2 & H3 & H4). destruct a; unfold ends, meant, range_array; cbv zeta.
  - destruct (search_all_exact opt s f r Hs Hw H1 H3 H4 H2) as [E1 E2].
    match goal with |- if ?b then _ else _ => destruct b eqn:B end.
    + apply E1. apply leads_all. exact B.
    + apply E2. rewrite <- leads_all. congruence.
  - destruct (tokenize_exact opt s f r Hs Hw H1 H3 H4) as [E1 E2].
    match goal with |- if ?b then _ else _ => destruct b eqn:B end.
    + apply E1. apply leads_all. exact B.
    + apply E2. rewrite <- leads_all. congruence.
  - destruct (starts_with_anchor f r) eqn:Ha.
    + destruct (split_anchored_exact opt s f r Hs Hw H1 H3 H4 H2 Ha) as [E1 E2]. unfold anchored_splits in *.
      destruct (first_at s f r 0) as [[e lg]|]; destruct (Nat.eqb_spec (List.length s) 0) as [Z0|Z0].
      * rewrite andb_false_r. apply E2. discriminate.
      * rewrite andb_true_r. destruct (Nat.eqb_spec e (List.length s)) as [->|E]; [apply E1; eauto|apply E2]. intros [lg' X]. congruence.
      * apply E1. reflexivity.
      * apply E2. intros [lg X]. discriminate.
    + destruct (split_exact opt s f r Hs Hw H1 H3 H4 H2 Ha) as [E1 E2]. unfold splits in *.
      destruct (first_at s f r (List.length s)) as [st|]; [apply E2; intros [X _]; discriminate|].
      match goal with |- if ?b then _ else _ => destruct b eqn:B end.
      * apply E1. split; [reflexivity|]. apply nonempty_all. exact B.
      * apply E2. intros [_ X]. apply nonempty_all in X. congruence.
Qed.
Print Assumptions C59_exact.
(** From the text of the pattern; on NUL-terminated strings; on the encoding of a text. *)
Theorem C59_text : forall props u r a opt s f, compile props u = CRegex r -> forallb val_ok s = true -> range_check opt f r = true ->
  if ends a s f r then lists (fun n => range_array a opt n s f r) r (meant a s f r)
  else forall n, range_array a opt n s f r = Fuel.
Proof. intros props u r a opt s f Hu Hs H. exact (C59_exact a opt s f r Hs (compiled_well_numbered props u r Hu) H). Qed.
Print Assumptions C59_text.
Theorem C59_pointer : forall props u r a opt s rest f, compile props u = CRegex r -> forallb val_ok s = true -> ~ In 0%Z s ->
  range_check opt f r = true ->
  if ends a s f r then lists (fun n => range_pointer a opt n (s ++ 0%Z :: rest) f r) r (meant a s f r)
  else forall n, range_pointer a opt n (s ++ 0%Z :: rest) f r = Fuel.
Proof.
  intros props u r a opt s rest f Hu Hs H0 H. pose proof (C59_text props u r a opt s f Hu Hs H) as E.
  pose proof (compiled_well_numbered props u r Hu) as Hw. destruct (ends a s f r).
  - destruct E as (l & N & L1 & L2). exists l, N. split; [|exact L2]. intros n Hn. rewrite range_pointer_same; [apply L1; exact Hn|exact H0|exact Hw].
  - intros n. rewrite range_pointer_same; [apply E|exact H0|exact Hw].
Qed.
Print Assumptions C59_pointer.
Theorem C59_utf8 : forall props u r a opt t f, compile props u = CRegex r -> wf_text t -> forallb val_ok t = true ->
  u8_ok true r = true -> range_check opt f r = true ->
  if ends a t f r then
    exists l N, (forall n, N <= n -> range_u8 true a opt n (encode t) f r = Ok (map (move (offset t)) l)) /\
      Forall2 (reports r) l (meant a t f r)
  else forall n, range_u8 true a opt n (encode t) f r = Fuel.
Proof.
  intros props u r a opt t f Hu Ht Hs Hu8 H. pose proof (C59_text props u r a opt t f Hu Hs H) as E.
  pose proof (compiled_well_numbered props u r Hu) as Hw. destruct (ends a t f r).
  - destruct E as (l & N & L1 & L2). exists l, N. split; [|exact L2]. intros n Hn. rewrite range_text_same; try assumption.
    rewrite L1 by exact Hn. reflexivity.
  - intros n. rewrite range_text_same; try assumption. rewrite E. reflexivity.
Qed.
Print Assumptions C59_utf8.
(** Hence termination of the three loops is decidable under the checks. *)
Theorem C59_decided : forall a opt s f r, forallb val_ok s = true -> well_numbered r -> range_check opt f r = true ->
  (ends a s f r = true <-> exists n l, range_array a opt n s f r = Ok l).
Proof.
  intros a opt s f r Hs Hw H. pose proof (C59_exact a opt s f r Hs Hw H) as E. destruct (ends a s f r).
  - split; [|reflexivity]. intros _. destruct E as (l & N & L & _). exists N, l. apply L. lia.
  - split; [discriminate|]. intros (n & l & X). rewrite E in X. discriminate.
Qed.
Print Assumptions C59_decided.

(** The same pattern may end on one subject and not on another: x-star over "xx" (matches "xx", then the end), over "xxy" (an empty
    match before y, found for ever), an empty subject; split with it never ends. *)
Example C59_ex :
  map (fun s => (map (fun a => ends a (codes s) plain_mode (rx "x*")) [GSearchAll; GTokenize; GSplit],
                 map (fun a => spans (range_array a true 80 (codes s) plain_mode (rx "x*"))) [GSearchAll; GTokenize; GSplit]))
    ["xx"; "xxy"; ""] =
  [([true; true; false], [Some [Some (0, 2)]; Some [Some (0, 2)]; None]);
   ([false; false; false], [None; None; None]);
   ([true; true; false], [Some [Some (0, 0)]; Some [Some (0, 0)]; None])] /\
  map (fun p => range_check true plain_mode (rx p)) ["x*"; "x+|$"; "\Ax*"; "\Ax+"] = [true; true; true; true].
Proof. vm_compute. repeat split. Qed.
(** Matches at the end only: search_all ends, split does not. *)
Example C59_ex_end :
  map (fun a => (ends a (codes "axb") plain_mode (rx "x+|$"), spans (range_array a true 80 (codes "axb") plain_mode (rx "x+|$")))) [GSearchAll; GTokenize; GSplit] =
  [(true, Some [Some (1, 2); Some (3, 3)]); (true, Some []); (false, None)].
Proof. vm_compute. reflexivity. Qed.
(** Anchored: split ends only when the pattern takes the whole subject. *)
Example C59_ex_anchored :
  map (fun s => (ends GSplit (codes s) plain_mode (rx "\Ax+"), spans (range_array GSplit true 80 (codes s) plain_mode (rx "\Ax+")))) ["xx"; "xxy"; "y"; ""] =
  [(true, Some [Some (0, 0); Some (2, 2)]); (false, None); (false, None); (true, Some [Some (0, 0)])] /\
  map (fun s => ends GSplit (codes s) plain_mode (rx "\Ax*")) ["xx"; "xxy"; ""] = [true; false; false].
Proof. vm_compute. repeat split. Qed.

(** * C35: which repetitions are merged *)
(** The comparison that stands for "both parameters have the same template arguments" is equality of patterns. *)
Theorem C35_same_type : forall a b, re_eqb a b = true <-> a = b.
Proof. exact re_eqb_iff. Qed.
Print Assumptions C35_same_type.
(** Two adjacent repetitions of the same kind (not possessive) and body become one whose counts are the sums modulo 2^64, a maximum
    of 0 standing for none; also at the head of a sequence. *)
Theorem C35_merged : forall k a b c d l, k <> Possessive ->
  make_sequence (RRep k c d l) (RRep k a b l) = RRep k (sum_min a c) (sum_max b d) l /\
  forall sq, make_sequence (RSeq (RRep k c d l :: sq)) (RRep k a b l) = RSeq (RRep k (sum_min a c) (sum_max b d) l :: sq).
Proof. exact merged. Qed.
Print Assumptions C35_merged.
(** With another kind or another body both are kept, in the order of the text. *)
Theorem C35_kept : forall k a b l k' c d l', (k, l) <> (k', l') ->
  make_sequence (RRep k' c d l') (RRep k a b l) = RSeq [RRep k a b l; RRep k' c d l'] /\
  forall sq, make_sequence (RSeq (RRep k' c d l' :: sq)) (RRep k a b l) = RSeq (RRep k a b l :: RRep k' c d l' :: sq).
Proof. exact kept. Qed.
Print Assumptions C35_kept.
(** From texts: any body, assertions too; other kind, other body. *)
Example C35_same_ex :
  map rx [".*.+"; "(?:^){2}(?:^)*"; "a{2}a{3,4}"; "a*a*?"; "a*b*"; "[ab]?[ab]?c"] =
  [RRep Greedy 1 0 [RAny]; RRep Greedy 2 0 [RAssert ALineBegin]; RRep Greedy 5 6 [RCls (CChar 97%Z)];
   RSeq [RRep Greedy 0 0 [RCls (CChar 97%Z)]; RRep Lazy 0 0 [RCls (CChar 97%Z)]];
   RSeq [RRep Greedy 0 0 [RCls (CChar 97%Z)]; RRep Greedy 0 0 [RCls (CChar 98%Z)]];
   RSeq [RRep Greedy 0 2 [RCls (CSet [CChar 97%Z; CChar 98%Z])]; RCls (CChar 99%Z)]].
Proof. vm_compute. reflexivity. Qed.
