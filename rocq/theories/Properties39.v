(** The exact lists of search_all, tokenize and split, and exactly when their loops end, for every pattern that C64 covers: C69.

    [exact_at opt s f r p] (RangeExact.v): end and groups of the best outcome at [p], in the exact account of C64 ([committed]).
    [listed a s first] (RangeExact.v): what the range lists when [first] says what there is at each position; [ends_by]: whether it ends. *)
From Coq Require Import List ZArith NArith Bool Lia Arith String.
From Verif Require Import Chars Syntax First Utf8 View Eval Api Actions Parser Spec CharProofs EvalInv ApiProofs Checks Match Term Anchor
  Iter IterProofs Utf8Proofs Views RangeSim Mode ModeSem ModeCalls ModeTop Compiles Total Numbering RangeSpec RangeEnd
  Possess Committed CommittedRefine CommittedTop RangeExact Properties2 Properties6 Properties27 Properties28 Properties29.
Import ListNotations.
Local Open Scope string_scope.
Local Open Scope list_scope.

(** * C69 *)
Definition exact_check (opt : bool) (f : flags) (r : re) : bool :=
  meant_check f r && terminating r && zero_safe r && compiles opt true r tail_starts.
Lemma exact_checked : forall opt f r, exact_check opt f r = true ->
  meant_check f r = true /\ terminating r = true /\ zero_safe r = true /\ compiles opt true r tail_starts = true.
Proof.
  intros opt f r H. apply andb_true_iff in H as [H H4]. apply andb_true_iff in H as [H H3]. apply andb_true_iff in H as [H1 H2]. auto.
Qed.
(** What the range lists, and whether its loop ends. *)
Definition exact_list (a : range_method) (opt : bool) (s : list Z) (f : flags) (r : re) : list (nat * state) := listed a s (exact_at opt s f r).
Definition exact_ends (a : range_method) (opt : bool) (s : list Z) (f : flags) (r : re) : bool :=
  ends_by a (starts_with_anchor f r) s (exact_at opt s f r).

(** If the loop ends it lists just that; if not, no fuel suffices, and nothing outside the subject is read. *)
Theorem C69_exact : forall props u r a opt s f, compile props u = CRegex r -> forallb val_ok s = true -> exact_check opt f r = true ->
  if exact_ends a opt s f r then lists (fun n => range_array a opt n s f r) r (exact_list a opt s f r)
  else forall n, range_array a opt n s f r = Fuel.
Proof.
  intros props u r a opt s f Hu Hs H. apply exact_checked in H as (H1 & H2 & H3 & H4).
  exact (range_exact opt s f r Hs H1 (compiled_well_numbered props u r Hu) a H2 H4 (fun _ => H3)).
Qed.
Print Assumptions C69_exact.
(** A pattern that cannot match the empty string: the loops end (split: unless the pattern begins with an anchor). *)
Theorem C69_consuming : forall props u r a opt s f, compile props u = CRegex r -> forallb val_ok s = true -> exact_check opt f r = true ->
  nullfree r = true -> (a = GSplit -> starts_with_anchor f r = false) ->
  lists (fun n => range_array a opt n s f r) r (exact_list a opt s f r).
Proof.
  intros props u r a opt s f Hu Hs H Hn Ha. pose proof (C69_exact props u r a opt s f Hu Hs H) as E.
  unfold exact_ends in E. rewrite eating_ends in E; [exact E| | |exact Ha].
  - apply exact_range.
  - apply exact_eating. exact Hn.
Qed.
Print Assumptions C69_consuming.
(** Termination of the three loops is decided by [exact_ends]. *)
Theorem C69_decided : forall props u r a opt s f, compile props u = CRegex r -> forallb val_ok s = true -> exact_check opt f r = true ->
  exact_ends a opt s f r = true <-> exists n l, range_array a opt n s f r = Ok l.
Proof.
  intros props u r a opt s f Hu Hs H. pose proof (C69_exact props u r a opt s f Hu Hs H) as E. destruct (exact_ends a opt s f r).
  - split; [|reflexivity]. intros _. destruct E as (l & N & L & _). exists N, l. apply L. lia.
  - split; [discriminate|]. intros (n & l & X). rewrite E in X. discriminate.
Qed.
Print Assumptions C69_decided.
(** On NUL-terminated strings; on the encoding of a text; on any bytes. *)
Theorem C69_pointer : forall props u r a opt s rest f, compile props u = CRegex r -> forallb val_ok s = true -> ~ In 0%Z s ->
  exact_check opt f r = true ->
  if exact_ends a opt s f r then lists (fun n => range_pointer a opt n (s ++ 0%Z :: rest) f r) r (exact_list a opt s f r)
  else forall n, range_pointer a opt n (s ++ 0%Z :: rest) f r = Fuel.
Proof.
  intros props u r a opt s rest f Hu Hs H0 H. pose proof (C69_exact props u r a opt s f Hu Hs H) as E.
  pose proof (compiled_well_numbered props u r Hu) as Hw. destruct (exact_ends a opt s f r).
  - destruct E as (l & N & L1 & L2). exists l, N. split; [|exact L2]. intros n Hn. rewrite range_pointer_same; [apply L1; exact Hn|exact H0|exact Hw].
  - intros n. rewrite range_pointer_same; [apply E|exact H0|exact Hw].
Qed.
Print Assumptions C69_pointer.
Theorem C69_utf8 : forall props u r a opt t f, compile props u = CRegex r -> wf_text t -> u8_ok true r = true -> exact_check opt f r = true ->
  if exact_ends a opt t f r then
    exists l N, (forall n, N <= n -> range_u8 true a opt n (encode t) f r = Ok (map (move (offset t)) l)) /\
      Forall2 (reports r) l (exact_list a opt t f r)
  else forall n, range_u8 true a opt n (encode t) f r = Fuel.
Proof.
  intros props u r a opt t f Hu Ht Hu8 H. pose proof (C69_exact props u r a opt t f Hu (scalars_ok t Ht) H) as E.
  pose proof (compiled_well_numbered props u r Hu) as Hw. destruct (exact_ends a opt t f r).
  - destruct E as (l & N & L1 & L2). exists l, N. split; [|exact L2]. intros n Hn. rewrite range_text_same; try assumption.
    rewrite L1 by exact Hn. reflexivity.
  - intros n. rewrite range_text_same; try assumption. rewrite E. reflexivity.
Qed.
Print Assumptions C69_utf8.
Theorem C69_bytes : forall props u r a opt bs f, compile props u = CRegex r -> Forall byte bs -> u8_ok false r = true -> exact_check opt f r = true ->
  if exact_ends a opt (decode bs) f r then
    exists l N, (forall n, N <= n -> range_u8 false a opt n bs f r = Ok (map (move (reached bs)) l)) /\
      Forall2 (reports r) l (exact_list a opt (decode bs) f r)
  else forall n, range_u8 false a opt n bs f r = Fuel.
Proof.
  intros props u r a opt bs f Hu Hb Hu8 H. pose proof (C69_exact props u r a opt (decode bs) f Hu (decode_ok bs Hb) H) as E.
  pose proof (compiled_well_numbered props u r Hu) as Hw. destruct (exact_ends a opt (decode bs) f r).
  - destruct E as (l & N & L1 & L2). exists l, N. split; [|exact L2]. intros n Hn. rewrite range_bytes_same; try assumption.
    rewrite L1 by exact Hn. reflexivity.
  - intros n. rewrite range_bytes_same; try assumption. rewrite E. reflexivity.
Qed.
Print Assumptions C69_bytes.
(** Where C57 and C59 speak too, the two accounts agree: the loops end together, on the same matches. *)
Theorem C69_agrees : forall props u r a opt s f, compile props u = CRegex r -> forallb val_ok s = true -> exact_check opt f r = true ->
  range_check opt f r = true ->
  exact_ends a opt s f r = ends a s f r /\
  (ends a s f r = true -> map (fun x => (fst x, fst (snd x))) (exact_list a opt s f r) = map (fun x => (fst x, fst (snd x))) (meant a s f r)).
Proof.
  intros props u r a opt s f Hu Hs H H'. pose proof (C69_exact props u r a opt s f Hu Hs H) as E. pose proof (C59_text props u r a opt s f Hu Hs H') as E'.
  assert (S1 : forall l ms, Forall2 (reports r) l ms -> map (fun x => group x 0) l = map (fun x => Some (fst x, fst (snd x))) ms).
  { induction 1 as [|c x l ms [R _] _ IH]; [reflexivity|]. cbn [map]. rewrite R, IH. reflexivity. }
  destruct (exact_ends a opt s f r), (ends a s f r); split; try reflexivity; try discriminate.
  - intros _. destruct E as (l & n & L1 & L2), E' as (l' & n' & M1 & M2). specialize (L1 (n + n') ltac:(lia)). specialize (M1 (n + n') ltac:(lia)).
    assert (l' = l) by congruence. subst l'. apply S1 in L2, M2. rewrite L2 in M2. clear - M2. revert M2. generalize (exact_list a opt s f r) (meant a s f r).
    induction l as [|x l IH]; intros [|y m] M; cbn [map] in *; try discriminate; [reflexivity|]. injection M as -> -> M. rewrite (IH m M). reflexivity.
  - destruct E as (l & n & L & _). specialize (L n (le_n _)). rewrite E' in L. discriminate.
  - destruct E' as (l & n & L & _). specialize (L n (le_n _)). rewrite E in L. discriminate.
  - destruct E' as (l & n & L & _). specialize (L n (le_n _)). rewrite E in L. discriminate.
Qed.
Print Assumptions C69_agrees.

(** ** Examples *)
Definition shown_by (opt : bool) (p s : string) : list (bool * list (nat * nat)) :=
  map (fun a => (exact_ends a opt (codes s) plain_mode (rx p), map (fun x => (fst x, fst (snd x))) (exact_list a opt (codes s) plain_mode (rx p))))
    [GSearchAll; GTokenize; GSplit].
Definition run_by (opt : bool) (p s : string) : list (option (list (option (nat * nat)))) :=
  map (fun a => spans (range_array a opt 80 (codes s) plain_mode (rx p))) [GSearchAll; GTokenize; GSplit].
(** "abac" is in the language, but the iteration that took [a] is not taken back: the first match is "ac" at 2. *)
Example C69_ex_committed :
  exact_check true plain_mode (rx "(?:a|ab)*c") = true /\ range_check true plain_mode (rx "(?:a|ab)*c") = false /\
  shown_by true "(?:a|ab)*c" "abacxc" = [(true, [(2, 4); (5, 6)]); (true, []); (true, [(0, 2); (4, 5); (6, 6)])] /\
  run_by true "(?:a|ab)*c" "abacxc" = [Some [Some (2, 4); Some (5, 6)]; Some []; Some [Some (0, 2); Some (4, 5); Some (6, 6)]] /\
  map (fun x => (fst x, fst (snd x))) (all_matches (codes "abacxc") plain_mode (rx "(?:a|ab)*c")) = [(0, 4); (5, 6)].
Proof. vm_compute. repeat split; reflexivity. Qed.
(** Outside the check of C57, too, one pattern ends on one subject and not on another. *)
Example C69_ex_ends :
  exact_check true plain_mode (rx "(?:(?:a|ab)*c)?") = true /\ range_check true plain_mode (rx "(?:(?:a|ab)*c)?") = false /\
  map fst (shown_by true "(?:(?:a|ab)*c)?" "acc") = [true; true; false] /\
  map (fun x => match x with Some _ => true | None => false end) (run_by true "(?:(?:a|ab)*c)?" "acc") = [true; true; false] /\
  map fst (shown_by true "(?:(?:a|ab)*c)?" "acx") = [false; false; false] /\
  run_by true "(?:(?:a|ab)*c)?" "acx" = [None; None; None].
Proof. vm_compute. repeat split; reflexivity. Qed.
(** An anchored one: split ends only when the whole subject is taken. *)
Example C69_ex_anchored :
  exact_check true plain_mode (rx "\A(?:a|ab)*c") = true /\
  map (fun s => nth 2 (shown_by true "\A(?:a|ab)*c" s) (false, [])) ["aac"; "acx"] = [(true, [(0, 0); (3, 3)]); (false, [(0, 0); (2, 3)])] /\
  map (fun s => nth 2 (run_by true "\A(?:a|ab)*c" s) None) ["aac"; "acx"] = [Some [Some (0, 0); Some (3, 3)]; None].
Proof. vm_compute. repeat split; reflexivity. Qed.
