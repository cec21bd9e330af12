(** Possessive repetitions, atomic groups and the groups of lookaheads (C52).

    The library keeps only the preferred outcome of a possessive repetition, of an atomic group and of a
    lookahead. [loosen r] is [r] with greedy repetitions instead of the possessive ones and single
    repetitions instead of the atomic groups. *)
From Coq Require Import List ZArith NArith Bool Lia String.
From Verif Require Import Chars CharProofs Syntax View Eval Api Spec EvalInv ApiProofs EvalTop Checks Match Mode ModeSem ModeSound ModeCalls ModeEnum
  ModeRefine ModeCut ModeOpt Follow Loosen ModeTop Views Term Compiles Total Parser Literals Actions Unicode UnicodeProps Properties2 Properties10.
Import ListNotations.
Local Open Scope string_scope.
Local Open Scope nat_scope.

(** What would be given back cannot be continued. *)
Definition tight_check (opt : bool) (f : flags) (r : re) (tl : list atom) : bool :=
  mfragment f r && mfragment f (loosen r) && hcheck (modes_in f r) r (ends tl) &&
  mow_check opt (modes_in f r) r tl && mow_check opt (modes_in f r) (loosen r) tl.
Lemma tight_parts : forall opt f r tl s, forallb val_ok s = true -> find_captures (loosen r) = find_captures r -> tight_check opt f r tl = true ->
  mfragment f r = true /\ mfragment f (loosen r) = true /\ hcheck (modes_in f r) r (ends tl) = true /\
  mow opt s (modes_in f r) (find_captures r) r tl /\ mow opt s (modes_in f r) (find_captures r) (loosen r) tl.
Proof.
  intros opt f r tl s Hs Hg H. unfold tight_check in H.
  apply andb_true_iff in H as [H H5]. apply andb_true_iff in H as [H H4]. apply andb_true_iff in H as [H H3].
  apply andb_true_iff in H as [H1 H2]. repeat (split; [assumption|]). split; [apply mow_check_sound; assumption|].
  apply mow_check_sound; assumption.
Qed.

(** Then the pattern and the one without the commitments give the same result. The captures of an atomic
    group are not registered by the library, so there must be none. *)
Theorem C52_match : forall opt s f r n n' c c', forallb val_ok s = true -> well_numbered r ->
  find_captures (loosen r) = find_captures r -> tight_check opt f r tail_match = true ->
  ctre_match opt n s f r = Ok c -> ctre_match opt n' s f (loosen r) = Ok c' -> same_result c c'.
Proof.
  intros opt s f r n n' c c' Hs Hw Hg H. destruct (tight_parts _ _ _ _ s Hs Hg H) as (H1 & H2 & H3 & H4 & H5).
  apply hold_match; assumption.
Qed.
Print Assumptions C52_match.
Theorem C52_starts_with : forall opt s f r n n' c c', forallb val_ok s = true -> well_numbered r ->
  find_captures (loosen r) = find_captures r -> tight_check opt f r tail_starts = true ->
  ctre_starts_with opt n s f r = Ok c -> ctre_starts_with opt n' s f (loosen r) = Ok c' -> same_result c c'.
Proof.
  intros opt s f r n n' c c' Hs Hw Hg H. destruct (tight_parts _ _ _ _ s Hs Hg H) as (H1 & H2 & H3 & H4 & H5).
  apply hold_starts; assumption.
Qed.
Print Assumptions C52_starts_with.
Theorem C52_search : forall opt s f r n n' c c', forallb val_ok s = true -> well_numbered r ->
  find_captures (loosen r) = find_captures r -> tight_check opt f r tail_starts = true ->
  starts_with_anchor f r = starts_with_anchor f (loosen r) ->
  ctre_search opt n s f r = Ok c -> ctre_search opt n' s f (loosen r) = Ok c' -> same_result c c'.
Proof.
  intros opt s f r n n' c c' Hs Hw Hg H Ha. destruct (tight_parts _ _ _ _ s Hs Hg H) as (H1 & H2 & H3 & H4 & H5).
  apply hold_search; assumption.
Qed.
Print Assumptions C52_search.
(** The derivations do not know about the commitments at all. *)
Theorem C52_derivations : forall s f r p e lg, find_captures (loosen r) = find_captures r ->
  (mderives s f (loosen r) p e lg <-> mderives s f r p e lg).
Proof.
  intros s f r p e lg Hg. unfold mderives. unfold names_of. rewrite Hg.
  split; intros (m & H); exists m; apply loosen_msem; assumption.
Qed.
Print Assumptions C52_derivations.

(** The textual correspondence, and patterns that are covered. *)
Example C52_ex_text : map (fun p => loosen (rx (fst p))) [("a++b", "a+b"); ("[0-9]*+,", "[0-9]*,"); ("x{1,4}+y", "x{1,4}y"); ("(a?+b)\1", "(a?b)\1")]
  = map (fun p => rx (snd p)) [("a++b", "a+b"); ("[0-9]*+,", "[0-9]*,"); ("x{1,4}+y", "x{1,4}y"); ("(a?+b)\1", "(a?b)\1")]
  /\ loosen (rx "(?>a+b)c") = rx "(?:a+b){1,1}c".
Proof. vm_compute. auto. Qed.
Example C52_ex_checks : forallb (fun p => numbered (rx p) && tight_check true plain_mode (rx p) tail_match && tight_check false plain_mode (rx p) tail_match
    && tight_check true plain_mode (rx p) tail_starts && Bool.eqb (starts_with_anchor plain_mode (rx p)) (starts_with_anchor plain_mode (loosen (rx p))))
  ["a++b"; "([0-9]++),([a-z]++)"; "(?>a+b)c"; "^([0-9]+?[a-z]++)+"; "(?<first>[0-9])[0-9]++"; "(?=(a++)b).*+"; "(?!(?:ab)*+c)[a-c]+"] = true.
Proof. vm_compute. reflexivity. Qed.
(** Where something that can be continued would be given back, the results differ. *)
Theorem C52_gives_back_refuted : exists p s n c c', tight_check true plain_mode (rx p) tail_match = false /\
  find_captures (loosen (rx p)) = find_captures (rx p) /\
  ctre_match true n s plain_mode (rx p) = Ok c /\ ctre_match true n s plain_mode (loosen (rx p)) = Ok c' /\
  matched c = false /\ matched c' = true.
Proof.
  exists "a++ab", (codes "aab"), 100. eexists. eexists. split; [vm_compute; reflexivity|]. split; [vm_compute; reflexivity|].
  split; [vm_compute; reflexivity|]. split; [vm_compute; reflexivity|]. split; vm_compute; reflexivity.
Qed.
Print Assumptions C52_gives_back_refuted.

(** Completeness (C02, C38, C47) now reaches such patterns: the calls decide the language. *)
Example C52_ex_right : forallb (fun p => numbered (rx p) && terminating (rx p) && msound_check true plain_mode (rx p) && right_check true plain_mode (rx p) MMatch
    && right_check true plain_mode (rx p) MSearch && right_check false plain_mode (rx p) MStarts)
  ["a++"; "x{1,4}+"; "([0-9]++),([a-z]++)"; "(?>a+b)"; "(?>ab|c)d*+e"; "^(?=(a))$"; "(?=.*(a)\g{1}).*b"; "(?!.*(.)\g{1})[a-z]+";
   "(?=([a-z]+))[a-z]+([0-9])\2"; "(?:a+)?b"] = true
  /\ forallb (fun p => negb (right_check true plain_mode (rx p) MMatch)) ["a++ab"; "a*+a"; "(?=(a|ab))\1c"; "(?>a|ab)c"] = true.
Proof. vm_compute. auto. Qed.
(** The groups of a lookahead that are read outside it: a derivation may choose other groups. *)
Theorem C52_lookahead_group_refuted : exists p s n c lg, msound_check true plain_mode (rx p) = true /\
  ctre_match true n s plain_mode (rx p) = Ok c /\ matched c = false /\ mderives s plain_mode (rx p) 0 (List.length s) lg.
Proof.
  exists "(?=(a|ab))\1c", (codes "abc"), 100. eexists. exists [(1, (0, 2))]. split; [vm_compute; reflexivity|].
  split; [vm_compute; reflexivity|]. split; [vm_compute; reflexivity|].
  exists (mode_of plain_mode). exists (mode_of plain_mode, (0, [(1, (0, 2))])). split.
  - exists (mode_of plain_mode), 2, [(1, (0, 2))]. split; [|reflexivity]. exists (mode_of plain_mode, (2, [(1, (0, 2))])). split; [|reflexivity].
    exists (mode_of plain_mode), 2, []. split; [|reflexivity]. exists (mode_of plain_mode, (2, [])). split; [|reflexivity].
    right. left. split; [reflexivity|]. split; [reflexivity|]. intros [|[|[|i]]] ch; cbn; intros [= <-]; eexists; (split; reflexivity).
  - exists (mode_of plain_mode, (2, [(1, (0, 2))])). split.
    + split; [reflexivity|]. exists 0, 2. repeat (split; [vm_compute; reflexivity || lia|]). reflexivity.
    + exists (mode_of plain_mode, (3, [(1, (0, 2))])). split; [|reflexivity]. split; [reflexivity|].
      exists 99%Z. repeat (split; [vm_compute; reflexivity|]). reflexivity.
Qed.
Print Assumptions C52_lookahead_group_refuted.
