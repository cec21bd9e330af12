(** Well-formed programs and total correctness: C47. *)
From Coq Require Import List ZArith NArith Bool Lia Arith String.
From Verif Require Import Chars Syntax First Utf8 View Eval Api Spec CharProofs EvalInv ApiProofs EvalTop Checks Match Utf8Proofs Views Term
  Mode ModeSem ModeCalls ModeTop Compiles Total ModeText Grammar Actions Parser Literals Numbering Fusion FusionRuns Pattern PatternLink Properties2 Properties10.
Import ListNotations.
Local Open Scope string_scope.
Local Open Scope list_scope.
Local Open Scope nat_scope.

(** * C47 *)
(** [compiles opt same r tl] follows the templates instantiated for the pattern [r] in front of [tl]:
    overloads, conversions and captures that they need exist. [same]: the iterator of the subject is the one
    stored in the result (not on UTF-8 subjects). Then no evaluation gets to an ill-formed program. *)
Theorem C47_well_formed : forall a opt n s f r, compiles opt true r (tail_of a) = true -> on_array a opt n s f r <> Ill.
Proof. exact (fun a opt n s f r H => exec_no_ill a opt true n _ _ f r 0 (arr_views s) H). Qed.
Print Assumptions C47_well_formed.
Theorem C47_well_formed_pointer : forall a opt n mem f r, compiles opt true r (tail_of a) = true -> on_pointer a opt n mem f r <> Ill.
Proof. exact (fun a opt n mem f r H => exec_no_ill a opt true n _ _ f r 0 (zt_views mem) H). Qed.
Print Assumptions C47_well_formed_pointer.
Theorem C47_well_formed_u8 : forall strict a opt n mem f r, compiles opt false r (tail_of a) = true -> on_u8 strict a opt n mem f r <> Ill.
Proof. exact (fun strict a opt n mem f r H => exec_no_ill a opt false n _ _ f r 0 (u8_views strict mem (List.length mem)) H). Qed.
Print Assumptions C47_well_formed_u8.
(** Without the greedy optimisation: no repetition, capture or atomic group inside of a lookbehind, no group
    inside of an atomic group, and every backreference is to a group that the result has. *)
Theorem C47_structure : forall same a r, compiles false same r (tail_of a) = structure (find_captures r) true same r.
Proof. exact compiles_structure. Qed.
Print Assumptions C47_structure.

(** Every call ends with a result, on every subject: no undefined behaviour, no endless loop. *)
Theorem C47_answers : forall props u r a opt s f, compile props u = CRegex r -> terminating r = true ->
  compiles opt true r (tail_of a) = true -> exists c, answers (fun n => on_array a opt n s f r) c.
Proof. exact (fun props u r a opt s f H => array_answers a opt s f r (compiled_well_numbered _ _ _ H)). Qed.
Print Assumptions C47_answers.
Theorem C47_answers_pointer : forall props u r a opt s rest f, compile props u = CRegex r -> terminating r = true ->
  compiles opt true r (tail_of a) = true -> ~ In 0%Z s -> exists c, answers (fun n => on_pointer a opt n (s ++ 0%Z :: rest) f r) c.
Proof. exact (fun props u r a opt s rest f H H1 H2 H3 => pointer_answers a opt s rest f r H3 (compiled_well_numbered _ _ _ H) H1 H2). Qed.
Print Assumptions C47_answers_pointer.
Theorem C47_answers_u8 : forall props u r a opt bs f, compile props u = CRegex r -> terminating r = true ->
  compiles opt false r (tail_of a) = true -> u8_ok false r = true -> Forall byte bs ->
  exists c, answers (fun n => on_u8 false a opt n bs f r) c.
Proof. exact (fun props u r a opt bs f H H1 H2 H3 H4 => u8_answers a opt bs f r H4 (compiled_well_numbered _ _ _ H) H3 H1 H2). Qed.
Print Assumptions C47_answers_u8.

(** And the result is the right one. [mderives]: the declarative meaning, mode switches included; without
    switches it is [derives] (C38_no_switch). *)
Theorem C47_match : forall props u r opt s f, compile props u = CRegex r -> forallb val_ok s = true -> terminating r = true ->
  msound_check opt f r = true -> right_check opt f r MMatch = true ->
  exists c, answers (fun n => ctre_match opt n s f r) c /\ (matched c = true <-> exists lg, mderives s f r 0 (List.length s) lg) /\
    (matched c = true -> exists lg, mderives s f r 0 (List.length s) lg /\ captures_are r c lg).
Proof. exact (fun props u r opt s f H H1 => match_right opt s f r H1 (compiled_well_numbered _ _ _ H)). Qed.
Print Assumptions C47_match.
Theorem C47_starts_with : forall props u r opt s f, compile props u = CRegex r -> forallb val_ok s = true -> terminating r = true ->
  msound_check opt f r = true -> right_check opt f r MStarts = true ->
  exists c, answers (fun n => ctre_starts_with opt n s f r) c /\ (matched c = true <-> exists e lg, mderives s f r 0 e lg) /\
    (matched c = true -> exists e lg, group c 0 = Some (0, e) /\ mderives s f r 0 e lg /\ captures_are r c lg).
Proof. exact (fun props u r opt s f H H1 => starts_right opt s f r H1 (compiled_well_numbered _ _ _ H)). Qed.
Print Assumptions C47_starts_with.
Theorem C47_search : forall props u r opt s f, compile props u = CRegex r -> forallb val_ok s = true -> terminating r = true ->
  msound_check opt f r = true -> right_check opt f r MSearch = true -> starts_with_anchor f r = false ->
  exists c, answers (fun n => ctre_search opt n s f r) c /\
    (matched c = true <-> exists b e lg, b <= List.length s /\ mderives s f r b e lg) /\
    (matched c = true -> exists b e lg, group c 0 = Some (b, e) /\ mderives s f r b e lg /\ captures_are r c lg /\
       forall b' e' lg', b' <= List.length s -> mderives s f r b' e' lg' -> b <= b').
Proof. exact (fun props u r opt s f H H1 => search_right opt s f r H1 (compiled_well_numbered _ _ _ H)). Qed.
Print Assumptions C47_search.
(** From the text of a pattern, read without the parser and without rewriting, to the answer. *)
Theorem C47_text_match : forall props u r0 r, pattern_text props plain_builders u r0 -> compile props u = CRegex r -> fusible r0 = true ->
  forall opt s f, forallb val_ok s = true -> terminating r = true -> msound_check opt f r = true -> right_check opt f r MMatch = true ->
  exists c, answers (fun n => ctre_match opt n s f r) c /\ (matched c = true <-> exists lg, mderives s f r0 0 (List.length s) lg) /\
    (matched c = true -> exists lg, mderives s f r0 0 (List.length s) lg /\ captures_are r0 c lg).
Proof. exact m_text_match. Qed.
Print Assumptions C47_text_match.
Theorem C47_text_starts_with : forall props u r0 r, pattern_text props plain_builders u r0 -> compile props u = CRegex r -> fusible r0 = true ->
  forall opt s f, forallb val_ok s = true -> terminating r = true -> msound_check opt f r = true -> right_check opt f r MStarts = true ->
  exists c, answers (fun n => ctre_starts_with opt n s f r) c /\ (matched c = true <-> exists e lg, mderives s f r0 0 e lg) /\
    (matched c = true -> exists e lg, group c 0 = Some (0, e) /\ mderives s f r0 0 e lg /\ captures_are r0 c lg).
Proof. exact m_text_starts. Qed.
Print Assumptions C47_text_starts_with.
Theorem C47_text_search : forall props u r0 r, pattern_text props plain_builders u r0 -> compile props u = CRegex r -> fusible r0 = true ->
  forall opt s f, forallb val_ok s = true -> terminating r = true -> msound_check opt f r = true -> right_check opt f r MSearch = true ->
  starts_with_anchor f r = false ->
  exists c, answers (fun n => ctre_search opt n s f r) c /\
    (matched c = true <-> exists b e lg, b <= List.length s /\ mderives s f r0 b e lg) /\
    (matched c = true -> exists b e lg, group c 0 = Some (b, e) /\ mderives s f r0 b e lg /\ captures_are r0 c lg /\
       forall b' e' lg', b' <= List.length s -> mderives s f r0 b' e' lg' -> b <= b').
Proof. exact m_text_search. Qed.
Print Assumptions C47_text_search.
(** * C35, C43 with mode switches *)
Theorem C35_modes_language : forall props input r, compile props input = CRegex r ->
  exists r0, plain_compile props input = CRegex r0 /\ find_captures r0 = find_captures r /\
    (fusible r0 = true -> forall s f p e lg, mderives s f r0 p e lg <-> mderives s f r p e lg).
Proof. exact m_compiled_language. Qed.
Print Assumptions C35_modes_language.
Theorem C43_modes_language : forall props u r, several_letters u = false -> compile props u = CRegex r ->
  exists r0, pattern_text props plain_builders u r0 /\ find_captures r0 = find_captures r /\
    (fusible r0 = true -> forall s f p e lg, mderives s f r0 p e lg <-> mderives s f r p e lg).
Proof.
  intros props u r S H. destruct (compiled_denotes props u r S H) as (r0 & T & R). exists r0. split; [assumption|].
  split; [apply R|]. exact (rel_mderives _ _ R).
Qed.
Print Assumptions C43_modes_language.
Example C35_ex_modes : let p := "(?i)ab(?:x(?c)y){2}(?:x(?c)y)+?z(?:c|(?i)d)*" in
  several_letters (codes p) = false /\ fusible (px p) = true /\ rx p <> px p /\ no_switch (rx p) = false.
Proof. cbn zeta. split; [vm_compute; reflexivity|]. split; [vm_compute; reflexivity|]. split; [vm_compute; discriminate|vm_compute; reflexivity]. Qed.

Definition usual : list string :=
  ["[a-zA-Z_][a-zA-Z0-9_]*"; "([0-9]{4})/([0-9]{1,2})/([0-9]{1,2})"; "(?:ab|cd)+?e"; "([^@]+)@([a-z]+\.[a-z]+)"; "(\w+) \1";
   "^\s*#(?:include|define)\b(.*)$"; "(?<n>a+)b\g{n}"; "x(?=y)[yz]|(?<=q)x"; "-?[0-9]+"; "(?i)ab*c(?c)d";
   "-?[0-9]+(?:\.[0-9]+)?(?:[eE][+\-]?[0-9]+)?"; "(?:[^,]*,)*[^,]*x"; "([^@]+)@((?:[a-z]+\.)+)com"; "(?i)<[^>]*?>";
   "([^&=]+)=([^&]*)(?:&([^&=]+)=([^&]*))*"; "(?:[0-9]{1,3}\.){3}[0-9]{1,3}"; """(?:[^""\\]|\\.)*"""].
Example C47_ex_covered : forallb (fun p => terminating (rx p) && msound_check true plain_mode (rx p) &&
    forallb (right_check true plain_mode (rx p)) [MMatch; MStarts; MSearch]) usual = true.
Proof. vm_compute. reflexivity. Qed.
Example C47_ex : exists c, answers (fun n => ctre_search true n (codes "a big big dog") plain_mode (rx "(\w+) \1")) c /\
  matched c = true /\ group c 1 = Some (2, 5).
Proof.
  eexists. split; [apply (exec_answers MSearch true 200); vm_compute; reflexivity|]. vm_compute. split; reflexivity.
Qed.

(** ** Patterns that the parser takes and that are no programs *)
(** Whatever the subject: a repetition or a group in a lookbehind, a group in an atomic group, a backreference in
    a lookbehind. *)
Theorem C47_structure_refuted : forall p, In p ["(?<=a+)b"; "(?<=(a))b"; "(?>(a))b"; "(?<=(?>a))b"; "(a)(?<=\1)b"] ->
  exists r, compile no_props (codes p) = CRegex r /\ (forall opt same a, compiles opt same r (tail_of a) = false) /\
    forall opt, exists s n, ctre_search opt n s plain_mode r = Ill.
Proof.
  intros p H. cbn [In] in H. repeat (destruct H as [<-|H]; [eexists; split; [vm_compute; reflexivity|];
    split; [intros [] [] []; vm_compute; reflexivity|]; intros []; exists (codes "ab"), 50; vm_compute; reflexivity|]). destruct H.
Qed.
Print Assumptions C47_structure_refuted.
(** Only with the greedy optimisation: the analysis of first characters has no case for a mode switch and
    for the complement of a complement. *)
Theorem C47_optimisation_refuted : forall p, In p ["a*(?i)b"; "(?:(?i)a)*b"; "[^\D]*a"; "a*[^\D]"] ->
  exists r, compile no_props (codes p) = CRegex r /\ compiles false true r tail_match = true /\
    exists s n, ctre_match true n s plain_mode r = Ill /\ exists c, ctre_match false n s plain_mode r = Ok c.
Proof.
  intros p H. cbn [In] in H. repeat (destruct H as [<-|H]; [eexists; split; [vm_compute; reflexivity|];
    split; [vm_compute; reflexivity|]; exists (codes "ab"), 50; split; [vm_compute; reflexivity|]; eexists; vm_compute; reflexivity|]). destruct H.
Qed.
Print Assumptions C47_optimisation_refuted.
(** On UTF-8 subjects: every backreference. *)
Theorem C47_u8_refuted : exists r, compile no_props (codes "(a)\1") = CRegex r /\ compiles true true r tail_match = true /\
  exists mem n, on_u8 true MMatch true n mem plain_mode r = Ill.
Proof. eexists. split; [vm_compute; reflexivity|]. split; [vm_compute; reflexivity|]. exists (codes "aa"), 50. vm_compute. reflexivity. Qed.
Print Assumptions C47_u8_refuted.
