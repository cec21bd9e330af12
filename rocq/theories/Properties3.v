(** Termination (C31), mode switches (C38), the rest of soundness (C01). *)
From Coq Require Import List ZArith NArith Bool Lia String.
From Verif Require Import Chars Syntax View Eval Api Parser Spec CharProofs EvalTop Checks EvalSound Match Term Mode
  Properties2.
Import ListNotations.
Local Open Scope string_scope.

(** * C31 *)
(** [settles X]: with enough fuel the outcome is one fixed outcome other than [Fuel], the call
    returns. [terminating r]: the body of every unbounded repetition consumes, a decidable condition on
    the pattern. No condition on the subject, the mode or the kind of repetition. *)
Theorem C31_match : forall opt s f r, terminating r = true -> settles (fun n => ctre_match opt n s f r).
Proof. exact match_settles. Qed.
Print Assumptions C31_match.
Theorem C31_starts_with : forall opt s f r, terminating r = true -> settles (fun n => ctre_starts_with opt n s f r).
Proof. exact starts_settles. Qed.
Print Assumptions C31_starts_with.
Theorem C31_search : forall opt s f r, terminating r = true -> settles (fun n => ctre_search opt n s f r).
Proof. exact search_settles. Qed.
Print Assumptions C31_search.
Theorem C31_zero_terminated : forall opt mem f r, terminating r = true ->
  settles (fun n => exec_match opt n (zt_view mem) (zt_view mem) f r 0) /\
  settles (fun n => exec_starts_with opt n (zt_view mem) (zt_view mem) f r 0) /\
  settles (fun n => exec_search opt n (zt_view mem) (zt_view mem) f r 0).
Proof. exact zt_settles. Qed.
Print Assumptions C31_zero_terminated.
Theorem C31_utf8 : forall opt strict mem len f r, terminating r = true ->
  settles (fun n => exec_match opt n (utf8_view strict mem len) (raw8_view mem) f r 0) /\
  settles (fun n => exec_starts_with opt n (utf8_view strict mem len) (raw8_view mem) f r 0) /\
  settles (fun n => exec_search opt n (utf8_view strict mem len) (raw8_view mem) f r 0).
Proof. exact utf8_settles. Qed.
Print Assumptions C31_utf8.
Example C31_ex : forallb terminating
  [date_re; mail_re; line_re; twice_re; rx "(a|b)*c"; rx "(?:\d+(?:,\d+)*;)*"; rx "(?:(a)\1)+?x"; rx "(?:a|b?+)*";
   rx "(?:(?=a*)[ab]){2,}(?<!b)"] = true.
Proof. vm_compute. reflexivity. Qed.
(** [(?:a*[a]?)*] on "b", and the same under search and starts_with, in every mode without case
    folding, with and without the greedy optimisation. *)
Theorem C31_empty_iteration_refuted : exists s r, forall opt n m,
  ctre_match opt n s (mkFlags false m false) r = Fuel /\
  ctre_starts_with opt n s (mkFlags false m false) r = Fuel /\
  ctre_search opt n s (mkFlags false m false) r = Fuel.
Proof. exact (ex_intro _ [98%Z] (ex_intro _ loop_re loop_forever)). Qed.
Print Assumptions C31_empty_iteration_refuted.
Example C31_loop_text : rx "(?:a*[a]?)*" = loop_re.
Proof. vm_compute. reflexivity. Qed.

(** * C38 *)
(** [scoped] (Mode.v) reads switches with their textual scope. For a top-level sequence of switches and
    switch-free characters, classes, strings, assertions, groups and alternations the library agrees. *)
Theorem C38_flat : forall opt s f r, forallb val_ok s = true -> f_block f = false -> flat r = true ->
  exists n c, (forall m, n <= m -> ctre_match opt m s f r = Ok c) /\
    (matched c = true <-> In (List.length s) (scoped s (mode_of f) r 0)).
Proof. exact (fun opt s f r Hs => flat_match opt s Hs f r). Qed.
Print Assumptions C38_flat.
Example C38_ex_flat : forallb flat [rx "a(?i)bc(?c)d"; rx "(?i)(?m)^a.(?s).(?:x|yz)$"] = true /\
  map (fun t => scoped (codes t) (mode_of plain_mode) (rx "a(?i)bc(?c)d") 0) ["aBcd"; "abcd"; "Abcd"; "abcD"] = [[4]; [4]; []; []].
Proof. vm_compute. split; reflexivity. Qed.
(** A switch at the beginning of any pattern is the same as the modifier. *)
Theorem C38_leading : forall opt n s f m x xs,
  ctre_match opt (S (S (S n))) s f (RSeq (RMode m :: x :: xs)) = ctre_match opt (S n) s (add_mode f m) (RSeq (x :: xs)) /\
  ctre_starts_with opt (S (S (S n))) s f (RSeq (RMode m :: x :: xs)) =
  ctre_starts_with opt (S n) s (add_mode f m) (RSeq (x :: xs)).
Proof. exact (fun opt n s f m x xs => conj (match_under opt n s f m x xs) (starts_under opt n s f m x xs)). Qed.
Print Assumptions C38_leading.
Example C38_ex_leading : rx "(?i)a+b" = RSeq [RMode ModeCI; RRep Greedy 1 0 [RCls (CChar 97)]; RCls (CChar 98)] /\
  add_mode plain_mode ModeCI = ci_mode.
Proof. vm_compute. split; reflexivity. Qed.
(** A switch leaks out of its group: [((?i)a)b] and [(?:(?i)a)b] match "aB". *)
Theorem C38_leak_refuted : forall opt, exists s n c c',
  ctre_match opt n s plain_mode (rx "((?i)a)b") = Ok c /\ matched c = true /\
  ctre_match opt n s plain_mode (rx "(?:(?i)a)b") = Ok c' /\ matched c' = true /\
  scoped s (mode_of plain_mode) (rx "((?i)a)b") 0 = [] /\ scoped s (mode_of plain_mode) (rx "(?:(?i)a)b") 0 = [].
Proof.
  intros []; exists (codes "aB"), 50; eexists; eexists; vm_compute; repeat split.
Qed.
Print Assumptions C38_leak_refuted.
(** It is lost in the later alternatives: [(?i)a|b] does not match "B". *)
Theorem C38_alternative_refuted : forall opt, exists s n c,
  ctre_match opt n s plain_mode (rx "(?i)a|b") = Ok c /\ matched c = false /\
  In (List.length s) (scoped s (mode_of plain_mode) (rx "(?i)a|b") 0).
Proof. intros []; exists (codes "B"), 50; eexists; vm_compute; repeat split; left; reflexivity. Qed.
Print Assumptions C38_alternative_refuted.
(** Of several letters only the last one is kept, and an atom before the switch is dropped. *)
Theorem C38_letters_refuted : rx "(?im)a" = rx "(?m)a" /\ rx "(?im)a" <> rx "(?i)(?m)a" /\ rx "x(?im)a" = rx "(?i)(?m)a".
Proof. vm_compute. split; [reflexivity|]. split; [discriminate|reflexivity]. Qed.
Print Assumptions C38_letters_refuted.
(** The modifiers of the call: of those that speak of the same mode the last one counts, the others do not disturb. *)
Theorem C38_modifiers : forall l, f_block (flags_of l) = false /\
  (f_ci (flags_of l) = true <-> exists l1 l2, l = (l1 ++ Mcase_insensitive :: l2)%list /\ ~ In Mcase_sensitive l2) /\
  (f_ml (flags_of l) = true <-> exists l1 l2, l = (l1 ++ Mmultiline :: l2)%list /\ ~ In Msingleline l2).
Proof. exact modifiers. Qed.
Print Assumptions C38_modifiers.
Example C38_ex_modifiers : flags_of [Mcase_insensitive; Mmultiline; Mcase_sensitive] = mkFlags false true false /\
  flags_of [Mcase_sensitive; Mmultiline; Mcase_insensitive; Msingleline] = mkFlags false false true.
Proof. split; reflexivity. Qed.
(** * C01, patterns with switches and self-references *)
(** With a switch at the beginning. *)
Theorem C01_leading_mode : forall opt s f m x xs n c, forallb val_ok s = true ->
  sound_fragment opt (add_mode f m) (RSeq (x :: xs)) ->
  ctre_match opt (S (S n)) s f (RSeq (RMode m :: x :: xs)) = Ok c -> matched c = true ->
  exists lg, derives s (add_mode f m) (RSeq (x :: xs)) 0 (List.length s) lg /\ captures_are (RSeq (x :: xs)) c lg.
Proof. exact leading_sound. Qed.
Print Assumptions C01_leading_mode.
Example C01_ex_leading : sound_check true ci_mode (rx "a+b|(c)\1") = true /\ rx "(?i)(?:a+b|(c)\1)" <> rx "a+b|(c)\1".
Proof. vm_compute. split; [reflexivity|discriminate]. Qed.
(** Elsewhere a switch is refuted by C38_leak_refuted: "aB" is matched and not in the language.
    A backreference to the group it stands in uses the new beginning and the old end: the pattern
    [(?:(a|b\1c))+] matches "abc", where the text of the group was "a". *)
Theorem C01_self_reference_refuted : forall opt, exists s n c,
  ctre_match opt n s plain_mode (rx "(?:(a|b\1c))+") = Ok c /\ matched c = true /\
  forall lg, ~ derives s plain_mode (rx "(?:(a|b\1c))+") 0 (List.length s) lg.
Proof.
  intros opt. exists (codes "abc"), 100.
  assert (D : forall lg, ~ derives (codes "abc") plain_mode (rx "(?:(a|b\1c))+") 0 3 lg).
  { intros lg H. apply derives_listed in H; [|vm_compute; reflexivity | cbn; lia].
    vm_compute in H. destruct H as [H|[]]. discriminate. }
  destruct opt; eexists; (split; [vm_compute; reflexivity|]); (split; [reflexivity | exact D]).
Qed.
Print Assumptions C01_self_reference_refuted.
