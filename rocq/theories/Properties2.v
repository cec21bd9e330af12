(** The matcher against the regex language: C01, C02, C03, C30.

    [derives s f r p e lg] (Match.v, on top of [Spec.sem]) is declarative membership: [r] read from
    position [p] of [s] can end at [e], [lg] listing the group participations, latest first.
    [outcomes false s f r p] (on top of [Spec.enum]) lists all ends with their groups in Perl priority
    order. [forallb val_ok s]: the characters are values of the character types of C++. *)
From Coq Require Import List ZArith NArith Bool Lia String.
From Verif Require Import Chars Syntax View Eval Api Parser Spec CharProofs SpecCut ApiProofs EvalTop Checks
  EvalSound Match.
Import ListNotations.
Local Open Scope string_scope.

Definition rx (p : string) : re := match re_of p with CRegex r => r | _ => RReject end.
Definition plain_mode : flags := mkFlags false false false.
Definition ci_mode : flags := mkFlags false false true.
Definition ml_mode : flags := mkFlags false true false.

Definition date_re : re := rx "(?<y>[0-9]{4})/([0-9]{1,2})/([0-9]{1,2})".
Definition mail_re : re := rx "([a-z0-9.]+)@([a-z0-9]+)[.]([a-z]+)".
Definition line_re : re := rx "^\s*(\w+)\s*=\s*(.*?)\s*$".
Definition twice_re : re := rx "(?!no)(\w+) \1".

(** * C01 *)
(** For every pattern in [sound_fragment] (no in-pattern mode switch, no self-referential
    backreference, ranges that are folded correctly when the mode is case-insensitive, contents of
    negative lookaheads in the fragment of C02), with or without the greedy optimisation. *)
Theorem C01_match_sound : forall opt s f r n c, forallb val_ok s = true -> sound_fragment opt f r ->
  ctre_match opt n s f r = Ok c -> matched c = true ->
  exists lg, derives s f r 0 (List.length s) lg /\ captures_are r c lg.
Proof. exact (fun opt s f r n c Hs => match_sound opt s f r Hs n c). Qed.
Print Assumptions C01_match_sound.
Theorem C01_search_sound : forall opt s f r n c, forallb val_ok s = true -> well_numbered r ->
  sound_fragment opt f r -> ctre_search opt n s f r = Ok c -> matched c = true ->
  exists b e lg, group c 0 = Some (b, e) /\ derives s f r b e lg /\ captures_are r c lg.
Proof. exact (fun opt s f r n c Hs => search_sound opt s f r Hs n c). Qed.
Print Assumptions C01_search_sound.
(** The condition is decidable on the pattern alone. *)
Theorem C01_match_sound_checked : forall opt s f r n c, forallb val_ok s = true -> sound_check opt f r = true ->
  ctre_match opt n s f r = Ok c -> matched c = true ->
  exists lg, derives s f r 0 (List.length s) lg /\ captures_are r c lg.
Proof. exact (fun opt s f r n c Hs Hc => match_sound opt s f r Hs n c (sound_check_spec opt f r Hc)). Qed.
Print Assumptions C01_match_sound_checked.
Example C01_ex_checked : forallb (sound_check true plain_mode)
  [date_re; mail_re; line_re; twice_re; rx "(?:a|ab)*c"; rx "(?>a|ab)*+(?=c)c"; rx "(a*)*b|(?<=x)y\b"] = true.
Proof. vm_compute. reflexivity. Qed.
Example C01_ex : exists c lg, ctre_match true 100 (codes "2026/1/17") plain_mode date_re = Ok c /\
  matched c = true /\ lookup 1 lg = Some (0, 4) /\ lookup 3 lg = Some (7, 9) /\
  derives (codes "2026/1/17") plain_mode date_re 0 9 lg.
Proof.
  eexists. exists [(3, (7, 9)); (2, (5, 6)); (1, (0, 4))]. split; [vm_compute; reflexivity|].
  split; [reflexivity|]. split; [reflexivity|]. split; [reflexivity|].
  apply outcome_derives; [vm_compute; reflexivity | cbn; lia | vm_compute; auto].
Qed.
(** Outside of the fragment: a negative lookahead around a repetition with several ways to match
    succeeds although its content matches. *)
Theorem C01_negative_lookahead_refuted : exists s r n c,
  ctre_match true n s plain_mode (RSeq [RAhead true [r]; RRep Greedy 0 0 [RAny]]) = Ok c /\ matched c = true /\
  (exists lg, derives s plain_mode r 0 (List.length s) lg) /\
  forall lg, ~ derives s plain_mode (RSeq [RAhead true [r]; RRep Greedy 0 0 [RAny]]) 0 (List.length s) lg.
Proof.
  exists (codes "abc"), (rx "(?:a|ab)*c"), 100. eexists.
  split; [vm_compute; reflexivity|]. split; [reflexivity|].
  assert (D : derives (codes "abc") plain_mode (rx "(?:a|ab)*c") 0 3 [])
    by (apply outcome_derives; [vm_compute; reflexivity | cbn; lia | vm_compute; auto]).
  split; [exists []; exact D|].
  intros lg H. unfold derives in H. rewrite sem_seq in H. destruct H as (m & H & _).
  rewrite sem_ahead in H. destruct H as [_ H]. apply (H (3, [])).
  exists (3, []). split; [exact D | reflexivity].
Qed.
(** A range that mixes cases is not folded in case-insensitive mode. *)
Theorem C01_case_refuted : exists s r n c,
  ctre_match true n s ci_mode r = Ok c /\ matched c = true /\
  forall lg, ~ derives s ci_mode r 0 (List.length s) lg.
Proof.
  exists (codes "z"), (rx "[^Z-a]"), 100. eexists. split; [vm_compute; reflexivity|]. split; [reflexivity|].
  intros lg (v & H1 & H2 & _). cbn in H1. injection H1 as <-. vm_compute in H2. discriminate.
Qed.

(** * C02 *)
Theorem C02_match_complete : forall opt s f r n c lg, forallb val_ok s = true -> complete_fragment s f r ->
  opt_ok opt s f r tail_match -> ctre_match opt n s f r = Ok c ->
  derives s f r 0 (List.length s) lg -> matched c = true.
Proof. exact (fun opt s f r n c lg Hs => match_complete opt s f r Hs n c lg). Qed.
Print Assumptions C02_match_complete.
(** With soundness: the decision of match is membership. *)
Theorem C02_match_decides : forall opt s f r n c, forallb val_ok s = true ->
  sound_check opt f r = true -> complete_check opt f r tail_match = true ->
  ctre_match opt n s f r = Ok c ->
  (matched c = true <-> exists lg, derives s f r 0 (List.length s) lg).
Proof.
  exact (fun opt s f r n c Hs H1 H2 E => conj
    (fun Hm => match match_sound opt s f r Hs n c (sound_check_spec opt f r H1) E Hm with
               | ex_intro _ lg (conj D _) => ex_intro _ lg D end)
    (fun X => match X with ex_intro _ lg D =>
       match_complete opt s f r Hs n c lg (proj1 (complete_check_spec opt f r tail_match s Hs H2))
         (proj2 (complete_check_spec opt f r tail_match s Hs H2)) E D end)).
Qed.
Print Assumptions C02_match_decides.
Theorem C02_search_complete : forall opt s f r n c p e lg, forallb val_ok s = true -> well_numbered r ->
  complete_fragment s f r -> opt_ok opt s f r tail_starts -> starts_with_anchor f r = false ->
  ctre_search opt n s f r = Ok c -> p <= List.length s -> derives s f r p e lg ->
  matched c = true /\ exists b e' lg', group c 0 = Some (b, e') /\ b <= p /\ derives s f r b e' lg' /\
    forall p' e2 lg2, p' < b -> ~ derives s f r p' e2 lg2.
Proof. exact (fun opt s f r n c p e lg Hs => search_complete opt s f r Hs n c p e lg). Qed.
Print Assumptions C02_search_complete.
Example C02_ex_checked : forallb (fun r => complete_check true plain_mode r tail_match && sound_check true plain_mode r)
  [date_re; mail_re; line_re; twice_re; rx "[a-zA-Z_][a-zA-Z0-9_]*"; rx "(?:ab|cd)+?e"; rx ".*foo"] = true.
Proof. vm_compute. reflexivity. Qed.
Example C02_ex : exists c, ctre_match true 100 (codes "ab ab") plain_mode twice_re = Ok c /\ matched c = true.
Proof. eexists. split; vm_compute; reflexivity. Qed.
(** Without the restriction on repeated bodies, completeness fails: the iterations are not backtracked
    into, and they must not be empty. Even without the greedy optimisation. *)
Theorem C02_iteration_refuted : forall opt, exists s r n c lg,
  derives s plain_mode r 0 (List.length s) lg /\
  ctre_match opt n s plain_mode r = Ok c /\ matched c = false.
Proof.
  intros opt. exists (codes "abc"), (rx "(?:a|ab)?c"), 100. eexists. exists [].
  split; [apply outcome_derives; [vm_compute; reflexivity | cbn; lia | vm_compute; auto]|].
  destruct opt; (split; [vm_compute; reflexivity | reflexivity]).
Qed.
Theorem C02_empty_iteration_refuted : forall opt, exists s r n c lg,
  derives s plain_mode r 0 (List.length s) lg /\
  ctre_match opt n s plain_mode r = Ok c /\ matched c = false.
Proof.
  intros opt. exists (codes "a"), (rx "(?:a|){2}"), 100. eexists. exists [].
  split; [apply outcome_derives; [vm_compute; reflexivity | cbn; lia | vm_compute; auto]|].
  destruct opt; (split; [vm_compute; reflexivity | reflexivity]).
Qed.

(** * C03 *)
(** At every start position: the reported end and captures are those of the first outcome in priority
    order; failure means that there is no outcome. *)
Theorem C03_priority : forall opt s f r n p, forallb val_ok s = true -> priority_fragment s f r ->
  opt_ok opt s f r tail_starts -> p <= List.length s ->
  match attempt opt n s f r p with
  | Ok c => exists e lg rest, outcomes false s f r p = (e, lg) :: rest /\
      s_end (c0 c) = Some e /\ captures_are r c lg
  | No => outcomes false s f r p = []
  | _ => True
  end.
Proof. exact (fun opt s f r n p Hs => attempt_priority opt s f r Hs n p). Qed.
Print Assumptions C03_priority.
Theorem C03_priority_checked : forall opt s f r n p, forallb val_ok s = true ->
  priority_check opt f r tail_starts = true -> p <= List.length s ->
  match attempt opt n s f r p with
  | Ok c => exists e lg rest, outcomes false s f r p = (e, lg) :: rest /\
      s_end (c0 c) = Some e /\ captures_are r c lg
  | No => outcomes false s f r p = []
  | _ => True
  end.
Proof.
  exact (fun opt s f r n p Hs Hc => attempt_priority opt s f r Hs n p
    (proj1 (priority_check_spec opt f r tail_starts s Hs Hc))
    (proj2 (priority_check_spec opt f r tail_starts s Hs Hc))).
Qed.
Print Assumptions C03_priority_checked.
(** match: the first outcome that ends at the end of the subject. *)
Theorem C03_match_priority : forall opt s f r n, forallb val_ok s = true -> priority_fragment s f r ->
  opt_ok opt s f r tail_match ->
  match whole opt n s f r 0 with
  | Ok c => exists lg rest, filter (at_end_st s) (outcomes false s f r 0) = (List.length s, lg) :: rest /\
      captures_are r c lg
  | No => filter (at_end_st s) (outcomes false s f r 0) = []
  | _ => True
  end.
Proof. exact (fun opt s f r n Hs => match_priority opt s f r Hs n). Qed.
Print Assumptions C03_match_priority.
(** Without restriction to [priority_fragment]: the first outcome of the library's own discipline, in
    which iterations of repetitions and atomic groups must advance and keep only their first outcome. *)
Theorem C03_library_discipline : forall opt s f r n p, forallb val_ok s = true -> fragment f r ->
  p <= List.length s -> opt_ok opt s f r tail_starts ->
  match attempt opt n s f r p with
  | Ok c => exists st rest, outcomes true s f r p = st :: rest /\
      s_end (c0 c) = Some (fst st) /\ groups_are r c (snd st)
  | No => outcomes true s f r p = []
  | _ => True
  end.
Proof. exact (fun opt s f r n p Hs Hf => starts_first opt s f r Hs Hf n p). Qed.
Print Assumptions C03_library_discipline.
Example C03_ex_checked : forallb (fun r => priority_check true plain_mode r tail_starts)
  [date_re; mail_re; line_re; twice_re; rx "(a|ab)(c|bcd)(d*)"; rx "x*+y"; rx "(?>ab|a)c|a"] = true.
Proof. vm_compute. reflexivity. Qed.
Example C03_ex : outcomes false (codes "abcd") plain_mode (rx "(a|ab)(c|bcd)(d*)") 0 =
    [(4, [(3, (4, 4)); (2, (1, 4)); (1, (0, 1))]);
     (4, [(3, (3, 4)); (2, (2, 3)); (1, (0, 2))]);
     (3, [(3, (3, 3)); (2, (2, 3)); (1, (0, 2))])] /\
  exists c, attempt true 100 (codes "abcd") plain_mode (rx "(a|ab)(c|bcd)(d*)") 0 = Ok c /\
    group c 1 = Some (0, 1) /\ group c 2 = Some (1, 4).
Proof. split; [vm_compute; reflexivity|]. eexists. split; [vm_compute; reflexivity|]. split; reflexivity. Qed.
(** Outside of the fragment the reported end is not the preferred one. *)
Theorem C03_iteration_refuted : exists s r n c e lg rest,
  outcomes false s plain_mode r 0 = (e, lg) :: rest /\
  attempt true n s plain_mode r 0 = Ok c /\ s_end (c0 c) <> Some e.
Proof.
  exists (codes "abc"), (rx "(?:a|ab)?c|a"), 100. eexists. exists 3, []. eexists.
  split; [vm_compute; reflexivity|]. split; [vm_compute; reflexivity|]. discriminate.
Qed.

(** * C30 *)
(** Same decision, span and captures with and without CTRE_DISABLE_GREEDY_OPT, on [fragment] with the
    decidable side condition [ow_check] on the places where a greedy repetition becomes possessive. *)
Theorem C30_match : forall s f r n n' c c', forallb val_ok s = true -> well_numbered r -> fragment f r ->
  ow_check true (f_ml f) (f_ci f) r tail_match = true ->
  ctre_match true n s f r = Ok c -> ctre_match false n' s f r = Ok c' -> same_result c c'.
Proof.
  exact (fun s f r n n' c c' Hs Hw Hf Ho =>
    match_opt s f r Hs Hw Hf n n' c c' (ow_check_sound true (f_ml f) (f_ci f) s _ Hs r tail_match Ho)).
Qed.
Print Assumptions C30_match.
Theorem C30_starts_with : forall s f r n n' c c', forallb val_ok s = true -> well_numbered r -> fragment f r ->
  ow_check true (f_ml f) (f_ci f) r tail_starts = true ->
  ctre_starts_with true n s f r = Ok c -> ctre_starts_with false n' s f r = Ok c' -> same_result c c'.
Proof.
  exact (fun s f r n n' c c' Hs Hw Hf Ho =>
    starts_opt s f r Hs Hw Hf n n' c c' (ow_check_sound true (f_ml f) (f_ci f) s _ Hs r tail_starts Ho)).
Qed.
Print Assumptions C30_starts_with.
Theorem C30_search : forall s f r n n' c c', forallb val_ok s = true -> well_numbered r -> fragment f r ->
  ow_check true (f_ml f) (f_ci f) r tail_starts = true ->
  ctre_search true n s f r = Ok c -> ctre_search false n' s f r = Ok c' -> same_result c c'.
Proof.
  exact (fun s f r n n' c c' Hs Hw Hf Ho =>
    search_opt s f r Hs Hw Hf n n' c c' (ow_check_sound true (f_ml f) (f_ci f) s _ Hs r tail_starts Ho)).
Qed.
Print Assumptions C30_search.
(** The condition holds for patterns in which repetitions do become possessive. *)
Example C30_ex : ow_check true false false mail_re tail_match = true /\
  becomes_possessive true [RCls (CRange 48 57)] [AR (RCls (CChar 47)); AEnd; AAccept] = Some true /\
  exists c c', ctre_search true 200 (codes "to: me@here.org") plain_mode mail_re = Ok c /\
    ctre_search false 200 (codes "to: me@here.org") plain_mode mail_re = Ok c' /\
    group c 0 = Some (4, 15) /\ group c' 0 = Some (4, 15).
Proof.
  split; [vm_compute; reflexivity|]. split; [vm_compute; reflexivity|]. eexists. eexists.
  split; [vm_compute; reflexivity|]. split; [vm_compute; reflexivity|]. split; reflexivity.
Qed.
(** Case-insensitive mode: the collision test ignores the mode. *)
Theorem C30_case_refuted : exists s r n c c',
  ctre_match true n s ci_mode r = Ok c /\ ctre_match false n s ci_mode r = Ok c' /\
  matched c = false /\ matched c' = true.
Proof.
  exists (codes "aaa"), (rx "a*A"), 100. eexists. eexists.
  split; [vm_compute; reflexivity|]. split; [vm_compute; reflexivity|]. split; reflexivity.
Qed.
(** Assertions after the repetition are ignored by the collision test. *)
Theorem C30_boundary_refuted : exists s r n c c',
  ctre_starts_with true n s plain_mode r = Ok c /\ ctre_starts_with false n s plain_mode r = Ok c' /\
  matched c = false /\ matched c' = true.
Proof.
  exists (codes "a-"), (rx "[a\-]*\b"), 100. eexists. eexists.
  split; [vm_compute; reflexivity|]. split; [vm_compute; reflexivity|]. split; reflexivity.
Qed.
Theorem C30_line_end_refuted : exists s r n c c',
  ctre_starts_with true n s ml_mode r = Ok c /\ ctre_starts_with false n s ml_mode r = Ok c' /\
  matched c = false /\ matched c' = true.
Proof.
  exists (97 :: 10 :: 98 :: nil)%Z, (rx "[a\n]*$"), 100. eexists. eexists.
  split; [vm_compute; reflexivity|]. split; [vm_compute; reflexivity|]. split; reflexivity.
Qed.
