(** The exact meaning of the calls under the library's own discipline: C64.

    [xenum s names r x] (Committed.v) lists the outcomes of [r] from [x] in order of preference, when an iteration keeps only the first
    outcome that made progress. [possessify opt r tl] (Possess.v) writes possessively the repetitions that the library runs so before [tl].
    [means a opt s f r] (CommittedTop.v): begin, end and log of the possible results of the call [a], best first. *)
From Coq Require Import List ZArith NArith Bool Lia Arith String.
From Verif Require Import Chars Syntax First Utf8 View Eval Api Actions Parser Spec CharProofs EvalInv ApiProofs Match Term Utf8Proofs Views
  Mode ModeSem ModeCalls ModeTop Compiles Total Numbering Possess Committed CommittedRefine CommittedTop Properties2 Properties10 Properties28.
Import ListNotations.
Local Open Scope string_scope.
Local Open Scope list_scope.

(** * C64 *)
(** Every call answers, and the answer is the best of the outcomes. *)
Theorem C64_exact : forall props u r a opt s f, compile props u = CRegex r -> forallb val_ok s = true -> meant_check f r = true ->
  terminating r = true -> compiles opt true r (tail_of a) = true ->
  exists c, answers (fun n => on_array a opt n s f r) c /\ tells r c (hd_error (means a opt s f r)).
Proof. exact (fun props u r a opt s f Hr V K T C => calls_mean opt s f r V K (compiled_well_numbered _ _ _ Hr) T a C). Qed.
Print Assumptions C64_exact.

(** So a call succeeds exactly when there is an outcome ... *)
Theorem C64_succeeds : forall props u r a opt s f c, compile props u = CRegex r -> forallb val_ok s = true -> meant_check f r = true ->
  terminating r = true -> compiles opt true r (tail_of a) = true -> answers (fun n => on_array a opt n s f r) c ->
  matched c = true <-> means a opt s f r <> [].
Proof.
  intros props u r a opt s f c Hr V K T C A. destruct (C64_exact props u r a opt s f Hr V K T C) as (c' & A' & H).
  replace c' with c in H.
  - destruct (means a opt s f r) as [|[b [e lg]] l]; cbn [hd_error tells] in H.
    + rewrite H. split; [discriminate|congruence].
    + destruct H as [-> _]. split; [discriminate|reflexivity].
  - destruct A as (n & A), A' as (m & B). specialize (A (n + m) (Nat.le_add_r _ _)). specialize (B (n + m) ltac:(lia)). congruence.
Qed.
Print Assumptions C64_succeeds.
(** ... and two patterns with the same best outcome on [s] cannot be told apart by a call on [s], except by the groups they have. *)
Theorem C64_same : forall props u u' r r' a opt s f, compile props u = CRegex r -> compile props u' = CRegex r' -> forallb val_ok s = true ->
  meant_check f r = true -> meant_check f r' = true -> terminating r = true -> terminating r' = true ->
  compiles opt true r (tail_of a) = true -> compiles opt true r' (tail_of a) = true ->
  hd_error (means a opt s f r) = hd_error (means a opt s f r') ->
  exists c c', answers (fun n => on_array a opt n s f r) c /\ answers (fun n => on_array a opt n s f r') c' /\
    matched c = matched c' /\ (matched c = true -> group c 0 = group c' 0).
Proof.
  intros props u u' r r' a opt s f Hr Hr' V K K' T T' C C' E.
  destruct (C64_exact props u r a opt s f Hr V K T C) as (c & A & H).
  destruct (C64_exact props u' r' a opt s f Hr' V K' T' C') as (c' & A' & H'). exists c, c'. split; [exact A|]. split; [exact A'|].
  rewrite <- E in H'. destruct (hd_error (means a opt s f r)) as [[b [e lg]]|]; cbn [tells] in H, H'.
  - destruct H as (-> & -> & _), H' as (-> & -> & _). split; reflexivity.
  - rewrite H, H'. split; [reflexivity|discriminate].
Qed.
Print Assumptions C64_same.

(** On a valid UTF-8 text, read as code points ... *)
Theorem C64_utf8 : forall props u r a opt t f, compile props u = CRegex r -> wf_text t -> u8_ok true r = true -> meant_check f r = true ->
  terminating r = true -> compiles opt true r (tail_of a) = true ->
  exists c c', answers (fun n => on_u8 true a opt n (encode t) f r) c' /\ tells r c (hd_error (means a opt t f r)) /\
    matched c' = matched c /\ forall id, group c' id = option_map (move_span (offset t)) (group c id).
Proof.
  intros props u r a opt t f Hr Ht Hu K T C.
  destruct (C64_exact props u r a opt t f Hr (scalars_ok t Ht) K T C) as (c & A & H).
  destruct (C47_utf8 t Ht a opt f r c (compiled_well_numbered _ _ _ Hr) Hu A) as (c' & A' & M & G). exists c, c'. auto.
Qed.
Print Assumptions C64_utf8.
(** ... on any bytes, read as the decoder reads them ... *)
Theorem C64_bytes : forall props u r a opt bs f, compile props u = CRegex r -> Forall byte bs -> u8_ok false r = true -> meant_check f r = true ->
  terminating r = true -> compiles opt true r (tail_of a) = true ->
  exists c c', answers (fun n => on_u8 false a opt n bs f r) c' /\ tells r c (hd_error (means a opt (decode bs) f r)) /\
    matched c' = matched c /\ forall id, group c' id = option_map (move_span (reached bs)) (group c id).
Proof.
  intros props u r a opt bs f Hr Hb Hu K T C.
  destruct (C64_exact props u r a opt (decode bs) f Hr (decode_ok bs Hb) K T C) as (c & A & H).
  destruct (C47_bytes bs Hb a opt f r c (compiled_well_numbered _ _ _ Hr) Hu A) as (c' & A' & M & G). exists c, c'. auto.
Qed.
Print Assumptions C64_bytes.
(** ... and on a NUL-terminated string. *)
Theorem C64_pointer : forall props u r a opt s rest f, compile props u = CRegex r -> forallb val_ok s = true -> ~ In 0%Z s ->
  meant_check f r = true -> terminating r = true -> compiles opt true r (tail_of a) = true ->
  exists c, answers (fun n => on_pointer a opt n (s ++ 0%Z :: rest) f r) c /\ tells r c (hd_error (means a opt s f r)).
Proof.
  intros props u r a opt s rest f Hr V N0 K T C. destruct (C64_exact props u r a opt s f Hr V K T C) as (c & A & H). exists c.
  split; [|exact H]. exact (C47_pointer s rest N0 a opt f r c (compiled_well_numbered _ _ _ Hr) A).
Qed.
Print Assumptions C64_pointer.

(** For any pattern, view and continuation, checked or not: the optimisation of greedy repetitions is only this rewriting. *)
Theorem C64_rewriting : forall opt n v w p f c stk x, eval opt n v w p f c stk = x -> x <> Fuel -> x <> Ill ->
  eval false n v w p f c (pstack opt stk) = x.
Proof.
  intros opt n v w p f c stk x E HF HI. destruct (proj1 (possessify_all opt n) v w p f c stk) as [H|[H|H]]; congruence.
Qed.
Print Assumptions C64_rewriting.
(** It leaves the groups alone. *)
Theorem C64_rewriting_groups : forall opt r tl, find_captures (possessify opt r tl) = find_captures r.
Proof. exact possessify_captures. Qed.
Print Assumptions C64_rewriting_groups.

(** ** Examples *)
Definition best (a : method) (opt : bool) (p s : string) : option (nat * state) := hd_error (means a opt (codes s) plain_mode (rx p)).
Definition in_scope (a : method) (opt : bool) (p : string) : bool :=
  meant_check plain_mode (rx p) && terminating (rx p) && compiles opt true (rx p) (tail_of a).
(** An iteration is not taken back: "abc" is in the language, but after [a] the loop cannot go on. *)
Example C64_ex_committed : in_scope MMatch true "(?:a|ab)*c" = true /\ best MMatch true "(?:a|ab)*c" "abc" = None /\
  best MMatch true "(?:ab|a)*c" "abc" = Some (0, (3, [])).
Proof. vm_compute. auto. Qed.
Example C64_ex_run : match ctre_match true 200 (codes "abc") plain_mode (rx "(?:a|ab)*c") with Ok c => matched c | _ => true end = false.
Proof. vm_compute. reflexivity. Qed.
(** Mandatory iterations have to make progress too, unless a repetition inside lifted the flag. *)
Example C64_ex_empty : in_scope MMatch true "(?:a*|b){2}" = true /\ mfragment plain_mode (rx "(?:a*|b){2}") = false /\
  best MMatch true "(?:a*|b){2}" "ab" = Some (0, (2, [])) /\
  in_scope MSearch true "(?:(?=(a))){1,3}a" = true /\ best MSearch true "(?:(?=(a))){1,3}a" "bac" = None /\
  best MSearch true "(?=(a))a" "bac" = Some (1, (2, [(1, (1, 2))])).
Proof. vm_compute. repeat split; reflexivity. Qed.
(** Groups of earlier iterations stay. *)
Example C64_ex_groups : best MSearch true "(?:(a)|b)*" "ab" = Some (0, (2, [(1, (0, 1))])) /\ best MMatch true "(a*)?b" "aab" = Some (0, (3, [(1, (0, 2))])).
Proof. vm_compute. auto. Qed.
(** What becomes possessive: a repetition whose content cannot begin what follows. *)
Example C64_ex_rewriting : possessify true (rx "a*b(c+)d") tail_match = rx "a*+b(c++)d" /\ possessify true (rx "a*ab") tail_match = rx "a*ab".
Proof. vm_compute. auto. Qed.
