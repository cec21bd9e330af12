(** Patterns combined with the operators of operators.hpp: C50.

    [op_or a b], [op_then a b] (Combine.v): what [a | b] and [a >> b] return. Both parts number their groups from
    1, so the groups of the combination clash; its result type lists those of [a], then those of [b].
    [closed r]: the groups of [r] are in its result type, references are by number and to these. [sum r]: [r] is
    such a pattern, numbered one by one, or built from such patterns with [op_or].
    [same_report r d c]: [c] has the span of [d], and [d]'s groups of [r]. *)
From Coq Require Import List ZArith NArith Bool Lia Arith String.
From Verif Require Import Chars Syntax View Eval Api Actions Parser Spec CharProofs EvalInv ApiProofs Match Anchor Views Term Mode ModeSem ModeScope ModeCalls ModeTop Compiles Total Lang
  Numbering Blind Combine Properties2 Properties6.
Import ListNotations.
Local Open Scope string_scope.
Local Open Scope nat_scope.

(** * C50 *)
(** match and starts_with, on every kind of subject: the answer of [a] if it matches, otherwise the one of [b]. *)
Theorem C50_either : forall m opt n v w f a b p ca cb, m = MMatch \/ m = MStarts -> vconv v = true -> closed a = true -> closed b = true ->
  exec m opt n v w f a p = Ok ca -> exec m opt n v w f b p = Ok cb ->
  exists c, answers (fun n => exec m opt n v w f (op_or a b) p) c /\
    if matched ca then same_report a ca c else if matched cb then same_report b cb c else matched c = false.
Proof. exact either_stands. Qed.
Print Assumptions C50_either.
(** search: the one found further left, [a] if both are found at the same place. *)
Theorem C50_either_search : forall opt s f n n1 n2 a b ca cb c, sum a -> sum b -> zero_safe a = true -> zero_safe b = true ->
  ctre_search opt n1 s f a = Ok ca -> ctre_search opt n2 s f b = Ok cb -> ctre_search opt n s f (op_or a b) = Ok c -> leftmost a b ca cb c.
Proof. exact either_search. Qed.
Print Assumptions C50_either_search.
(** Combinations answer, although their groups clash. *)
Theorem C50_either_answers : forall m opt s f r, sum r -> terminating r = true -> compiles opt true r (tail_of m) = true ->
  exists c, answers (fun n => on_array m opt n s f r) c.
Proof. exact either_answers. Qed.
Print Assumptions C50_either_answers.

Definition part_a := rx "(a+)b".
Definition part_b := rx "(c)\1|(x)$".
Definition report (x : res caps) : option (list (option (nat * nat))) :=
  match x with Ok c => Some (map (group c) [0; 1; 2]) | _ => None end.
Example C50_ex :
  sum part_a /\ sum part_b /\ zero_safe part_a = true /\ zero_safe part_b = true /\ terminating (op_or part_a part_b) = true /\
  compiles true true (op_or part_a part_b) (tail_of MSearch) = true /\ ~ well_numbered (op_or part_a part_b) /\
  map (fun t => report (ctre_match true 60 (codes t) plain_mode (op_or part_a part_b))) ["aab"; "cc"; "x"; "abx"] =
    [Some [Some (0, 3); Some (0, 2); None]; Some [Some (0, 2); Some (0, 1); None]; Some [Some (0, 1); None; Some (0, 1)]; Some [None; None; None]] /\
  map (fun t => report (ctre_search true 60 (codes t) plain_mode (op_or part_a part_b))) ["-aabcc"; "-ccab"; "ax"; "-"] =
    [Some [Some (1, 4); Some (1, 3); None]; Some [Some (1, 3); Some (1, 2); None]; Some [Some (1, 2); None; Some (1, 2)]; Some [None; None; None]].
Proof.
  assert (H : sum part_a /\ sum part_b).
  { split; (apply sum_one; [vm_compute; reflexivity|]); (apply numbered_spec; vm_compute; reflexivity). }
  destruct H as [H1 H2]. split; [exact H1|]. split; [exact H2|]. do 4 (split; [vm_compute; reflexivity|]). split.
  - intros [_ D]. vm_compute in D. inversion D as [|x l N]. apply N. left. reflexivity.
  - vm_compute. split; reflexivity.
Qed.

(** One after the other: for regular patterns that pass the checks of C48, alone and together. *)
Theorem C50_then : forall opt s f a b, forallb val_ok s = true -> (forall k, a <> RMode k) ->
  plain_sailing opt f a -> plain_sailing opt f b -> plain_sailing opt f (op_then a b) ->
  exists c, answers (fun n => ctre_match opt n s f (op_then a b)) c /\
    (matched c = true <-> exists s1 s2, s = (s1 ++ s2)%list /\ fully opt f a s1 /\ fully opt f b s2).
Proof. exact then_match. Qed.
Print Assumptions C50_then.
Example C50_then_ex :
  plain_sailing true plain_mode (rx "a+|bc") /\ plain_sailing true plain_mode (rx "(?:cd)*?x?") /\
  plain_sailing true plain_mode (op_then (rx "a+|bc") (rx "(?:cd)*?x?")) /\
  map (fun t => match ctre_match true 60 (codes t) plain_mode (op_then (rx "a+|bc") (rx "(?:cd)*?x?")) with Ok c => Some (matched c) | _ => None end)
    ["aacdcdx"; "bccd"; "bcc"; "cd"] = [Some true; Some true; Some false; Some false].
Proof.
  assert (X : forall r, numbered r = true /\ regular r = true /\ scope_check plain_mode r = true /\ terminating r = true /\ msound_check true plain_mode r = true /\
    right_check true plain_mode r MMatch = true -> plain_sailing true plain_mode r).
  { intros r (H1 & H). split; [apply numbered_spec; exact H1|exact H]. }
  split; [apply X; vm_compute; repeat split|]. split; [apply X; vm_compute; repeat split|]. split; [apply X; vm_compute; repeat split|].
  vm_compute. reflexivity.
Qed.

(** A mode switch in the first part acts on the second: [(?i)a] followed by [b] takes "aB". *)
Theorem C50_then_modes_refuted : forall opt, exists a b s1 s2 n c, ctre_match opt n (s1 ++ s2)%list plain_mode (op_then a b) = Ok c /\ matched c = true /\
  (forall m, m < n -> forall d, ctre_match opt m s2 plain_mode b = Ok d -> matched d = false) /\
  exists d, ctre_match opt n s2 plain_mode b = Ok d /\ matched d = false.
Proof.
  intros opt. exists (rx "(?i)a"), (rx "b"), (codes "a"), (codes "B"), 20. eexists. split; [destruct opt; vm_compute; reflexivity|]. split; [reflexivity|].
  assert (D : exists d, ctre_match opt 20 (codes "B") plain_mode (rx "b") = Ok d /\ matched d = false) by (eexists; split; [destruct opt; vm_compute; reflexivity|reflexivity]).
  split; [|exact D]. intros m Hm d Hd. destruct D as (d' & D1 & D2).
  assert (E : ctre_match opt 20 (codes "B") plain_mode (rx "b") = Ok d)
    by (apply (exec_mono MMatch opt m 20 (arr_view (codes "B")) (arr_view (codes "B")) plain_mode (rx "b") 0 d); [apply Nat.lt_le_incl; exact Hm|exact Hd]).
  congruence.
Qed.
Print Assumptions C50_then_modes_refuted.
(** The groups clash: after [(a) >> (b)] the group 1 is the one of the second part, the one of the first is lost. *)
Theorem C50_then_groups_refuted : forall opt, exists a b s c ca, ctre_match opt 40 s plain_mode (op_then a b) = Ok c /\ matched c = true /\
  ctre_starts_with opt 40 s plain_mode a = Ok ca /\ group ca 1 = Some (0, 1) /\ group c 1 = Some (1, 2) /\
  own_groups (op_then a b) = [1; 1].
Proof. intros opt. exists (rx "(a)"), (rx "(b)"), (codes "ab"). destruct opt; do 2 eexists; (split; [vm_compute; reflexivity|]); vm_compute; repeat split. Qed.
Print Assumptions C50_then_groups_refuted.
