(** Replacing a part of a pattern by an equivalent one: C71.

    [alike r r'] (Refactor.v): from every state, on every subject, the two have the same outcomes in the same order of preference in the
    exact account of C64, up to repeated ones ([same_first]: whatever is asked for, the first outcome that fits is the same).
    [plug c r]: [r] inside the constructs [c]. *)
From Coq Require Import List ZArith NArith Bool Lia Arith String.
From Verif Require Import Chars Syntax First View Eval Api Actions Parser Spec CharProofs EvalInv ApiProofs Checks Match Term SpecCut EvalTop
  Iter IterProofs Views RangeSim Mode ModeSem ModeCalls ModeTop Compiles Total Numbering RangeSpec RangeEnd
  Possess Committed CommittedRefine CommittedTop RangeExact Refactor Properties2 Properties6 Properties27 Properties34 Properties39.
Import ListNotations.
Local Open Scope string_scope.
Local Open Scope list_scope.

(** * C71 *)
(** Patterns that are alike, as the optimisation rewrites them, give the same results: same answer, same groups. *)
Theorem C71_calls : forall props u u' r r' a opt s f, compile props u = CRegex r -> compile props u' = CRegex r' -> forallb val_ok s = true ->
  meant_check f r = true -> meant_check f r' = true -> terminating r = true -> terminating r' = true ->
  compiles opt true r (tail_of a) = true -> compiles opt true r' (tail_of a) = true ->
  find_captures r = find_captures r' -> starts_with_anchor f r = starts_with_anchor f r' ->
  alike (possessify opt r (tail_of a)) (possessify opt r' (tail_of a)) ->
  exists c c', answers (fun n => on_array a opt n s f r) c /\ answers (fun n => on_array a opt n s f r') c' /\
    matched c = matched c' /\ (matched c = true -> forall id, id = 0 \/ In id (map fst (find_captures r)) -> group c id = group c' id).
Proof.
  intros props u u' r r' a opt s f Hr Hr' V K K' T T' C C' E A H.
  destruct (C64_exact props u r a opt s f Hr V K T C) as (c & X & Y). destruct (C64_exact props u' r' a opt s f Hr' V K' T' C') as (c' & X' & Y').
  exists c, c'. split; [exact X|]. split; [exact X'|]. rewrite <- (means_alike a opt s f r r' E A H) in Y'.
  destruct (hd_error (means a opt s f r)) as [[b [e lg]]|]; cbn [tells] in Y, Y'.
  - destruct Y as (Y1 & Y2 & Y3), Y' as (Z1 & Z2 & Z3). split; [congruence|]. intros _ id [->|I]; [congruence|].
    rewrite Y3 by exact I. rewrite Z3; [reflexivity|]. rewrite <- E. exact I.
  - split; [congruence|]. congruence.
Qed.
Print Assumptions C71_calls.
(** The same lists from the ranges, which end together. *)
Theorem C71_ranges : forall props u u' r r' a opt s f, compile props u = CRegex r -> compile props u' = CRegex r' -> forallb val_ok s = true ->
  exact_check opt f r = true -> exact_check opt f r' = true ->
  find_captures r = find_captures r' -> starts_with_anchor f r = starts_with_anchor f r' ->
  alike (possessify opt r tail_starts) (possessify opt r' tail_starts) ->
  exact_list a opt s f r = exact_list a opt s f r' /\ exact_ends a opt s f r = exact_ends a opt s f r' /\
  (exact_ends a opt s f r = true -> exists l l' N, (forall n, N <= n -> range_array a opt n s f r = Ok l /\ range_array a opt n s f r' = Ok l') /\
     Forall2 (fun c c' => forall id, id = 0 \/ In id (map fst (find_captures r)) -> group c id = group c' id) l l').
Proof.
  intros props u u' r r' a opt s f Hr Hr' V K K' E A H.
  assert (P : forall p, exact_at opt s f r p = exact_at opt s f r' p).
  { intros p. apply first_hd, committed_alike; [unfold names_of; rewrite E; reflexivity|exact H]. }
  assert (L0 : forall b, exact_list b opt s f r = exact_list b opt s f r').
  { intros b. apply listed_ext; [intros p _; apply P|intros p [e lg] Hp; apply exact_range; exact Hp]. }
  pose proof (L0 a) as L.
  assert (D : exact_ends a opt s f r = exact_ends a opt s f r').
  { unfold exact_list in L0. unfold exact_ends, ends_by. rewrite A, !P, !L0. reflexivity. }
  split; [exact L|]. split; [exact D|]. intros En.
  pose proof (C69_exact props u r a opt s f Hr V K) as X. pose proof (C69_exact props u' r' a opt s f Hr' V K') as X'.
  rewrite <- D, <- L in X'. rewrite En in X, X'. destruct X as (l & n & X1 & X2), X' as (l' & n' & Y1 & Y2). exists l, l', (n + n').
  split; [intros j J; split; [apply X1|apply Y1]; lia|]. clear - X2 Y2 E. revert l' Y2. induction X2 as [|c x l ms [R1 R2] _ IH]; intros l' Y2.
  - inversion_clear Y2. constructor.
  - inversion_clear Y2 as [|c' ? l2 ? [S1 S2] W]. constructor; [|apply IH; exact W]. intros id [->|I]; [congruence|].
    rewrite R2 by exact I. rewrite S2; [reflexivity|]. rewrite <- E. exact I.
Qed.
Print Assumptions C71_ranges.
(** Without the optimisation the rewriting does nothing, ... *)
Lemma possessify_off : forall r tl, possessify false r tl = r.
Proof.
  induction r as
    [ | r l IHr IHl | c | | t | l IH | l IH | | | kd a b l IH | id l IH | id nm l IH | id | nm
    | neg l IH | neg l IH | l IH | c | c | a | md ]
    using re_ind2 with (Q := fun l => (forall tl, pseq false l tl = l) /\ pcyc false l = l /\ forall tl, possessify false (RSelect l) tl = RSelect l);
    try reflexivity.
  - repeat split; reflexivity.
  - destruct IHl as (I1 & I2 & I3). split; [|split].
    + intros tl. cbn [pseq]. destruct l as [|y w]; [rewrite IHr; reflexivity|]. rewrite IHr, I1. reflexivity.
    + cbn [pcyc]. rewrite IHr, I2. reflexivity.
    + intros tl. specialize (I3 tl). cbn [possessify] in I3 |- *. injection I3 as I3. rewrite IHr, I3. reflexivity.
  - apply IH.
  - intros tl. change (RSeq (pseq false l tl) = RSeq l). rewrite (proj1 IH). reflexivity.
  - intros tl. change (RRep (kind_before false kd l tl) a b (pcyc false l) = RRep kd a b l). rewrite (proj1 (proj2 IH)). destruct kd; reflexivity.
  - intros tl. change (RCap id (pseq false l (ANum id :: tl)) = RCap id l). rewrite (proj1 IH). reflexivity.
  - intros tl. change (RNCap id nm (pseq false l (ANum id :: tl)) = RNCap id nm l). rewrite (proj1 IH). reflexivity.
  - intros tl. change (RAhead neg (pseq false l [AEndAhead]) = RAhead neg l). rewrite (proj1 IH). reflexivity.
  - intros tl. change (RBehind neg (pseq false l [AEndBehind]) = RBehind neg l). rewrite (proj1 IH). reflexivity.
  - intros tl. change (RAtomic (pcyc false l) = RAtomic l). rewrite (proj1 (proj2 IH)). reflexivity.
Qed.
(** ... and any part can be replaced in any surroundings (outside lookbehinds) by one that is alike; with it, in what it makes of the pattern. *)
Theorem C71_replace : forall c r r', alike r r' -> alike (plug c r) (plug c r').
Proof. exact plug_alike. Qed.
Print Assumptions C71_replace.
Theorem C71_unoptimised : forall c q q' tl, alike q q' -> alike (possessify false (plug c q) tl) (possessify false (plug c q') tl).
Proof. intros c q q' tl H. rewrite !possessify_off. apply plug_alike, H. Qed.
Print Assumptions C71_unoptimised.
Theorem C71_equivalence : (forall r, alike r r) /\ (forall r r', alike r r' -> alike r' r) /\
  forall r r' r'', alike r r' -> alike r' r'' -> alike r r''.
Proof. exact (conj alike_refl (conj alike_sym alike_trans)). Qed.
Print Assumptions C71_equivalence.

(** ** Laws *)
(** Alternatives: a later copy can go, nesting does not matter, what never matches can go. *)
Theorem C71_alternatives : (forall r, alike (RSelect [r]) r) /\
  (forall a r b c, alike (RSelect (a ++ r :: b ++ r :: c)) (RSelect (a ++ r :: b ++ c))) /\
  (forall a m b, alike (RSelect (a ++ RSelect m :: b)) (RSelect (a ++ m ++ b))) /\
  (forall a b, alike (RSelect (a ++ RReject :: b)) (RSelect (a ++ b))).
Proof. exact (conj law_select_one (conj law_select_again (conj law_select_flat law_select_reject))). Qed.
Print Assumptions C71_alternatives.
(** Sequences; alternatives in front can be multiplied out; a common beginning with at most one outcome can be taken out. *)
Theorem C71_sequences : (forall r, alike (RSeq [r]) r) /\
  (forall a m b, alike (RSeq (a ++ RSeq m :: b)) (RSeq (a ++ m ++ b))) /\
  (forall a b, alike (RSeq (a ++ REmpty :: b)) (RSeq (a ++ b))) /\
  (forall b, alike (RSeq (RReject :: b)) RReject) /\
  (forall m b, alike (RSeq (RSelect m :: b)) (RSelect (map (fun r => RSeq (r :: b)) m))) /\
  (forall r l l', lone r = true -> alike (RSelect [RSeq (r :: l); RSeq (r :: l')]) (RSeq [r; RSelect [RSeq l; RSeq l']])).
Proof. exact (conj law_seq_one (conj law_seq_flat (conj law_seq_empty (conj law_seq_reject (conj law_distribute law_factor))))). Qed.
Print Assumptions C71_sequences.
(** Repetitions: of one letter (a class, a dot, a literal string) they unroll; a possessive one is a greedy one in an atomic group. *)
Theorem C71_repetitions :
  (forall r kd a b, letter r = true -> alike (RRep kd (a + 1) (if N.eqb b 0 then 0 else b + 1) [r]) (RSeq [r; RRep kd a b [r]])) /\
  (forall r kd, letter r = true -> alike (RRep kd 1 1 [r]) r) /\
  (forall a b l, alike (RRep Possessive a b l) (RAtomic [RRep Greedy a b l])) /\
  (forall r, letter r = true -> alike (RAtomic [r]) r).
Proof. exact (conj law_unroll (conj law_exactly (conj law_possessive law_atomic_letter))). Qed.
Print Assumptions C71_repetitions.
(** Lookaheads and groups. *)
Theorem C71_lookaheads : (forall neg l, alike (RAhead neg [RAhead false l]) (RAhead neg l)) /\
  (forall neg l, forallb no_groups l = true -> alike (RAhead neg [RAhead true l]) (RAhead (negb neg) l)) /\
  (forall neg l a, forallb no_groups l = true -> alike (RSeq (RAhead neg l :: RAhead neg l :: a)) (RSeq (RAhead neg l :: a))) /\
  (forall neg l a, forallb no_groups l = true -> alike (RSeq (RAhead neg l :: RAhead (negb neg) l :: a)) RReject) /\
  (forall neg neg' l l' a, forallb no_groups l = true -> forallb no_groups l' = true ->
     alike (RSeq (RAhead neg l :: RAhead neg' l' :: a)) (RSeq (RAhead neg' l' :: RAhead neg l :: a))) /\
  (forall id m, alike (RCap id [RSelect m]) (RSelect (map (fun r => RCap id [r]) m))).
Proof. exact (conj law_ahead_ahead (conj law_ahead_not (conj law_ahead_twice (conj law_ahead_both (conj law_ahead_swap law_cap_select))))). Qed.
Print Assumptions C71_lookaheads.
(** Literal strings and classes. *)
Theorem C71_characters : (forall c t, alike (RStr (c :: t)) (RSeq [RCls (CChar c); RStr t])) /\
  (forall c, alike (RStr [c]) (RCls (CChar c))) /\ alike (RStr []) REmpty /\
  (forall c c', (forall ci v, cls_has ci c v = cls_has ci c' v) -> alike (RCls c) (RCls c')) /\
  (forall c c', alike (RSelect [RCls c; RCls c']) (RCls (CSet [c; c']))).
Proof. exact (conj law_string (conj law_string_one (conj law_string_empty (conj law_class law_class_select)))). Qed.
Print Assumptions C71_characters.

(** ** What is no law here, though it is one of regular expressions *)
Definition saw (a : method) (opt : bool) (p s : string) : option (bool * option (nat * nat)) :=
  match on_array a opt 200 (codes s) plain_mode (rx p) with Ok c => Some (matched c, group c 0) | _ => None end.
(** [r{1}] is not [r]; [r+] is not [rr*]: an iteration keeps its first outcome. *)
Theorem C71_once_refuted : forall opt, exists p p' s, saw MMatch opt p s = Some (false, None) /\ saw MMatch opt p' s = Some (true, Some (0, 3)) /\
  exists r l, rx p = RSeq [RRep Greedy 1 1 [r]; l] /\ rx p' = RSeq [r; l].
Proof. intros []; exists "(?:a|ab){1}c", "(?:a|ab)c", "abc"; vm_compute; repeat split; do 2 eexists; split; reflexivity. Qed.
Print Assumptions C71_once_refuted.
Theorem C71_unroll_refuted : forall opt, exists p p' s, saw MMatch opt p s = Some (false, None) /\ saw MMatch opt p' s = Some (true, Some (0, 3)) /\
  exists r l, rx p = RSeq [RRep Greedy 1 0 [r]; l] /\ rx p' = RSeq [r; RRep Greedy 0 0 [r]; l].
Proof. intros []; exists "(?:a|ab)+c", "(?:a|ab)(?:a|ab)*c", "abc"; vm_compute; repeat split; do 2 eexists; split; reflexivity. Qed.
Print Assumptions C71_unroll_refuted.
(** A common beginning with several outcomes cannot be taken out: [ab|ac] is not [a(b|c)]. *)
Theorem C71_factor_refuted : forall opt, exists p p' s, saw MStarts opt p s = Some (true, Some (0, 3)) /\ saw MStarts opt p' s = Some (true, Some (0, 2)) /\
  exists r l l', rx p = RSelect [RSeq [r; l]; RSeq [r; l']] /\ rx p' = RSeq [r; RSelect [l; l']].
Proof. intros []; exists "(?:a|ab)d|(?:a|ab)b", "(?:a|ab)(?:d|b)", "abd"; vm_compute; repeat split; do 3 eexists; split; reflexivity. Qed.
Print Assumptions C71_factor_refuted.
(** An atomic group in an atomic group is not one group: the inner one does not pass on that a repetition lifted the flag. *)
Theorem C71_atomic_refuted : exists p p' s, saw MMatch false p s = Some (false, None) /\ saw MMatch false p' s = Some (true, Some (0, 1)) /\
  exists l b, rx p = RSeq [RAtomic [RAtomic l]; b] /\ rx p' = RSeq [RAtomic l; b].
Proof. exists "(?>(?>a*))b", "(?>a*)b", "b"; vm_compute; repeat split; do 2 eexists; split; reflexivity. Qed.
Print Assumptions C71_atomic_refuted.
(** With the optimisation a possessive repetition is not the greedy one in an atomic group: that one has become possessive, and possessive ones do not lift the flag. *)
Theorem C71_possessive_refuted : exists p p' s, saw MMatch true p s = Some (true, Some (0, 1)) /\ saw MMatch true p' s = Some (false, None) /\
  saw MMatch false p s = saw MMatch false p' s /\
  exists l b, rx p = RSeq [RRep Possessive 0 0 l; b] /\ rx p' = RSeq [RAtomic [RRep Greedy 0 0 l]; b].
Proof. exists "a*+b", "(?>a*)b", "b"; vm_compute; repeat split; do 2 eexists; split; reflexivity. Qed.
Print Assumptions C71_possessive_refuted.

(** ** Examples *)
(** [x(?:(?:a|b)c)+y] and [x(?:ac|bc)+y]: multiplied out, then literal strings put together, inside a repetition inside a sequence. *)
Example C71_ex_inside : forall opt, alike (possessify opt (rx "x(?:(?:a|b)c)+y") tail_match) (possessify opt (rx "x(?:ac|bc)+y") tail_match).
Proof.
  assert (E : forall k, alike (RSeq [RCls (CChar 120); RRep k 1 0 [RSelect [RCls (CChar 97); RCls (CChar 98)]; RCls (CChar 99)]; RCls (CChar 121)])
    (RSeq [RCls (CChar 120); RRep k 1 0 [RSelect [RStr [97%Z; 99%Z]; RStr [98%Z; 99%Z]]]; RCls (CChar 121)])).
  { intros k. apply alike_trans with (RSeq [RCls (CChar 120); RRep k 1 0 [RSeq [RSelect [RCls (CChar 97); RCls (CChar 98)]; RCls (CChar 99)]]; RCls (CChar 121)]).
    - intros s names x. rewrite !xenum_seq. cbn [xenums]. apply first_flat; [apply first_refl|]. intros [m [k1 st]]. cbn [xenums].
      apply first_flat; [|intros y; apply first_refl]. rewrite !xenum_rep. rewrite (repeated_first s _ (xbody s names [RSeq [RSelect [RCls (CChar 97); RCls (CChar 98)]; RCls (CChar 99)]] m)); [apply first_refl|].
      intros st'. apply first_map. cbn [xenums]. rewrite xenum_seq. cbn [xenums]. rewrite !flat_self. apply first_refl.
    - apply (C71_replace [(FSeq, ([RCls (CChar 120)], [RCls (CChar 121)])); (FRep k 1 0, ([], []))]).
      eapply alike_trans; [apply law_distribute|]. cbn [map].
      assert (S2 : forall c, alike (RSeq [RCls (CChar c); RCls (CChar 99)]) (RStr [c; 99%Z])).
      { intros c. apply alike_sym. eapply alike_trans; [apply law_string|]. apply (C71_replace [(FSeq, ([RCls (CChar c)], []))]), law_string_one. }
      eapply alike_trans; [apply (C71_replace [(FSelect, ([], [RSeq [RCls (CChar 98); RCls (CChar 99)]]))] _ _ (S2 97%Z))|].
      apply (C71_replace [(FSelect, ([RStr [97; 99]%Z], []))] _ _ (S2 98%Z)). }
  intros []; [exact (E Possessive)|exact (E Greedy)].
Qed.
(** So every call with the one is the call with the other. *)
Example C71_ex_calls : forall a opt s, forallb val_ok s = true ->
  exists c c', answers (fun n => on_array a opt n s plain_mode (rx "(?:a|b|a)c")) c /\ answers (fun n => on_array a opt n s plain_mode (rx "(?:a|b)c")) c' /\
    matched c = matched c' /\ (matched c = true -> group c 0 = group c' 0).
Proof.
  intros a opt s V.
  destruct (C71_calls no_props (codes "(?:a|b|a)c") (codes "(?:a|b)c") (rx "(?:a|b|a)c") (rx "(?:a|b)c") a opt s plain_mode) as (c & c' & A & B & M & G);
    [vm_compute; reflexivity|vm_compute; reflexivity|exact V|vm_compute; reflexivity|vm_compute; reflexivity|vm_compute; reflexivity|vm_compute; reflexivity
    |destruct a, opt; vm_compute; reflexivity|destruct a, opt; vm_compute; reflexivity|vm_compute; reflexivity|vm_compute; reflexivity| |].
  - assert (E : alike (RSeq [RSelect [RCls (CChar 97); RCls (CChar 98); RCls (CChar 97)]; RCls (CChar 99)]) (RSeq [RSelect [RCls (CChar 97); RCls (CChar 98)]; RCls (CChar 99)])).
    { apply (C71_replace [(FSeq, ([], [RCls (CChar 99)]))]). apply (law_select_again [] (RCls (CChar 97)) [RCls (CChar 98)] []). }
    destruct a, opt; exact E.
  - exists c, c'. repeat split; auto.
Qed.
Example C71_ex_run : map (fun p => saw MSearch true p "ccbca") ["(?:a|b|a)c"; "(?:a|b)c"; "x(?:(?:a|b)c)+y"] =
  [Some (true, Some (2, 4)); Some (true, Some (2, 4)); Some (false, None)].
Proof. vm_compute. reflexivity. Qed.
