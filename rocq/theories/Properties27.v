(** The lists made by search_all, tokenize and split are those that the meaning of the pattern determines (C57). *)
From Coq Require Import List ZArith NArith Bool Lia String.
From Verif Require Import Chars Syntax First Utf8 View Eval Api Actions Parser Spec CharProofs EvalInv ApiProofs Checks Match Term Anchor
  Iter IterProofs Utf8Proofs Views RangeSim Mode ModeSem ModeCalls ModeTop Compiles Total Numbering RangeSpec Properties2 Properties6.
Import ListNotations.
Local Open Scope string_scope.
Local Open Scope list_scope.

(** * C57 *)
(** [all_matches s f r], [all_tokens s f r], [all_pieces s f r] (RangeSpec.v) are computed from the ordered outcomes of the
    pattern (C03) and know nothing of evaluation or iterators. [reports r c (b, (e, lg))]: the result [c] has the span
    [b, e) and the groups of [lg]. *)
Definition lists (X : nat -> res (list caps)) (r : re) (ms : list (nat * state)) : Prop :=
  exists l N, (forall n, N <= n -> X n = Ok l) /\ Forall2 (reports r) l ms.
Definition range_check (opt : bool) (f : flags) (r : re) : bool :=
  terminating r && zero_safe r && mpriority_check opt f r tail_starts && compiles opt true r tail_starts.
Lemma range_checked : forall opt f r, range_check opt f r = true ->
  terminating r = true /\ zero_safe r = true /\ mpriority_check opt f r tail_starts = true /\ compiles opt true r tail_starts = true.
Proof.
  intros opt f r H. apply andb_true_iff in H as [H H4]. apply andb_true_iff in H as [H H3]. apply andb_true_iff in H as [H1 H2].
  repeat split; assumption.
Qed.

(** From some fuel on the loop lists exactly these matches. [moves_on]: the preferred outcome is not empty before the end of
    the subject (otherwise the iteration never ends, C27). *)
Theorem C57_search_all : forall opt s f r, forallb val_ok s = true -> well_numbered r -> range_check opt f r = true ->
  moves_on s f r -> lists (fun n => ctre_search_all opt n s f r) r (all_matches s f r).
Proof.
  intros opt s f r Hs Hw H Hm. apply range_checked in H as (H1 & H2 & H3 & H4). apply search_all_right; assumption.
Qed.
Print Assumptions C57_search_all.
Theorem C57_tokenize : forall opt s f r, forallb val_ok s = true -> well_numbered r -> range_check opt f r = true ->
  moves_on s f r -> lists (fun n => ctre_tokenize opt n s f r) r (all_tokens s f r).
Proof.
  intros opt s f r Hs Hw H Hm. apply range_checked in H as (H1 & H2 & H3 & H4). apply tokenize_right; assumption.
Qed.
Print Assumptions C57_tokenize.
(** [never_empty]: nor is it at the end. *)
Theorem C57_split : forall opt s f r, forallb val_ok s = true -> well_numbered r -> range_check opt f r = true ->
  starts_with_anchor f r = false -> never_empty s f r -> lists (fun n => ctre_split opt n s f r) r (all_pieces s f r).
Proof.
  intros opt s f r Hs Hw H Ha Hm. apply range_checked in H as (H1 & H2 & H3 & H4). apply split_right; assumption.
Qed.
Print Assumptions C57_split.

(** From the text of the pattern, for patterns that consume, by checks that compute; on string views and NUL-terminated strings. *)
Definition meant (a : range_method) (s : list Z) (f : flags) (r : re) : list (nat * state) :=
  match a with GSearchAll => all_matches s f r | GTokenize => all_tokens s f r | GSplit => all_pieces s f r end.
Theorem C57_text : forall props u r a opt s f, compile props u = CRegex r -> forallb val_ok s = true ->
  range_check opt f r = true -> consuming r = true -> (a = GSplit -> starts_with_anchor f r = false) ->
  lists (fun n => range_array a opt n s f r) r (meant a s f r).
Proof.
  intros props u r a opt s f Hu Hs H Hc Ha. pose proof (compiled_well_numbered props u r Hu) as Hw.
  pose proof (consuming_never s f r Hc) as Hn. pose proof (never_moves s f r Hn) as Hm. destruct a.
  - exact (C57_search_all opt s f r Hs Hw H Hm).
  - exact (C57_tokenize opt s f r Hs Hw H Hm).
  - exact (C57_split opt s f r Hs Hw H (Ha eq_refl) Hn).
Qed.
Print Assumptions C57_text.
Theorem C57_pointer : forall props u r a opt s rest f, compile props u = CRegex r -> forallb val_ok s = true -> ~ In 0%Z s ->
  range_check opt f r = true -> consuming r = true -> (a = GSplit -> starts_with_anchor f r = false) ->
  lists (fun n => range_pointer a opt n (s ++ 0%Z :: rest) f r) r (meant a s f r).
Proof.
  intros props u r a opt s rest f Hu Hs H0 H Hc Ha. destruct (C57_text props u r a opt s f Hu Hs H Hc Ha) as (l & N & L1 & L2).
  exists l, N. split; [|exact L2]. intros n Hn. rewrite range_pointer_same; [apply L1; exact Hn|exact H0|].
  exact (compiled_well_numbered props u r Hu).
Qed.
Print Assumptions C57_pointer.
(** On the encoding of a text: the same list with each position replaced by its offset in the encoding. *)
Theorem C57_utf8 : forall props u r a opt t f, compile props u = CRegex r -> wf_text t -> forallb val_ok t = true ->
  u8_ok true r = true -> range_check opt f r = true -> consuming r = true -> (a = GSplit -> starts_with_anchor f r = false) ->
  exists l N, (forall n, N <= n -> range_u8 true a opt n (encode t) f r = Ok (map (move (offset t)) l)) /\
    Forall2 (reports r) l (meant a t f r).
Proof.
  intros props u r a opt t f Hu Ht Hs Hu8 H Hc Ha. destruct (C57_text props u r a opt t f Hu Hs H Hc Ha) as (l & N & L1 & L2).
  exists l, N. split; [|exact L2]. intros n Hn. rewrite range_text_same; try assumption; [|exact (compiled_well_numbered props u r Hu)].
  rewrite L1 by exact Hn. reflexivity.
Qed.
Print Assumptions C57_utf8.

(** What the lists are made of: without possessive repetitions, atomic groups and lookarounds, an outcome at [p] is a derivation,
    and no outcome means no derivation. *)
Theorem C57_meaning : forall s f r p, forallb val_ok s = true -> p <= List.length s -> plain_check r = true ->
  match first_at s f r p with
  | Some (e, lg) => mderives s f r p e lg
  | None => forall e lg, ~ mderives s f r p e lg
  end.
Proof.
  intros s f r p Hs Hp Hr. unfold first_at. destruct (moutcomes false s f r p) as [|[e lg] rest] eqn:E; cbn [hd_error].
  - intros e lg D. apply m_derives_outcome in D; try assumption. rewrite E in D. exact D.
  - apply m_derives_outcome; try assumption. rewrite E. left. reflexivity.
Qed.
Print Assumptions C57_meaning.
(** [leftmost] is the first place at or behind [p] with an outcome. *)
Theorem C57_leftmost : forall s f r p, p <= List.length s ->
  match leftmost s f r (List.length s - p) p with
  | Some (b, st) => p <= b <= List.length s /\ first_at s f r b = Some st /\ forall q, p <= q < b -> first_at s f r q = None
  | None => forall q, p <= q <= List.length s -> first_at s f r q = None
  end.
Proof.
  intros s f r p Hp. remember (List.length s - p) as d eqn:Hd. revert p Hp Hd.
  induction d as [|d IH]; intros p Hp Hd; cbn [leftmost]; destruct (first_at s f r p) as [st|] eqn:E.
  - repeat split; try lia; try assumption.
  - intros q Hq. replace q with p by lia. exact E.
  - repeat split; try lia; try assumption.
  - specialize (IH (S p) ltac:(lia) ltac:(lia)). destruct (leftmost s f r d (S p)) as [[b st]|].
    + destruct IH as (I1 & I2 & I3). split; [lia|]. split; [exact I2|]. intros q Hq.
      destruct (Nat.eq_dec q p) as [->|]; [exact E|]. apply I3. lia.
    + intros q Hq. destruct (Nat.eq_dec q p) as [->|]; [exact E|]. apply IH. lia.
Qed.
Print Assumptions C57_leftmost.

(** The checks hold; the lists, and what the loops list. *)
Example C57_ex :
  let r := rx "(\w)(\d+)|(,)" in let s := codes "a1, b22;c3" in
  map (fun opt => (range_check opt plain_mode r, consuming r, starts_with_anchor plain_mode r)) [true; false] = [(true, true, false); (true, true, false)] /\
  all_matches s plain_mode r = [(0, (2, [(2, (1, 2)); (1, (0, 1))])); (2, (3, [(3, (2, 3))])); (4, (7, [(2, (5, 7)); (1, (4, 5))]));
    (8, (10, [(2, (9, 10)); (1, (8, 9))]))] /\
  all_tokens s plain_mode r = [(0, (2, [(2, (1, 2)); (1, (0, 1))])); (2, (3, [(3, (2, 3))]))] /\
  all_pieces s plain_mode r = [(0, (0, [(2, (1, 2)); (1, (0, 1))])); (2, (2, [(3, (2, 3))])); (3, (4, [(2, (5, 7)); (1, (4, 5))]));
    (7, (8, [(2, (9, 10)); (1, (8, 9))])); (10, (10, []))] /\
  map (fun a => spans (range_array a true 60 s plain_mode r)) [GSearchAll; GTokenize; GSplit] =
    [Some [Some (0, 2); Some (2, 3); Some (4, 7); Some (8, 10)]; Some [Some (0, 2); Some (2, 3)];
     Some [Some (0, 0); Some (2, 2); Some (3, 4); Some (7, 8); Some (10, 10)]].
Proof. vm_compute. repeat split. Qed.
(** With empty matches only at the end, anchored, and with a mode switch inside. *)
Example C57_ex_end :
  map (fun p => (range_check true plain_mode (rx p), all_matches (codes "ab") plain_mode (rx p), spans (ctre_search_all true 60 (codes "ab") plain_mode (rx p))))
    ["[ab]|$"; "\Ab"; "(?i)B"] =
  [(true, [(0, (1, [])); (1, (2, []))], Some [Some (0, 1); Some (1, 2)]); (true, [], Some []); (true, [(1, (2, []))], Some [Some (1, 2)])] /\
  all_matches (codes "") plain_mode (rx "[ab]|$") = [(0, (0, []))] /\
  spans (ctre_search_all true 60 (codes "") plain_mode (rx "[ab]|$")) = Some [Some (0, 0)].
Proof. vm_compute. repeat split. Qed.
