(** Regular patterns against textbook regular expressions: C48.

    [regexp], [word], [accepts] (Lang.v): regular expressions over predicates on characters, the words of an
    expression by its inductive definition, Brzozowski's derivatives. No positions, captures, preference.
    [textbook f r]: the expression that the AST [r] denotes in the mode [f]. [regular r]: no references,
    assertions, lookarounds, atomic groups. *)
From Coq Require Import List ZArith NArith Bool Lia Arith String.
From Verif Require Import Chars Syntax First View Eval Api Spec CharProofs EvalInv ApiProofs EvalTop Checks Match Views Term
  Mode ModeSem ModeScope ModeCalls ModeTop Compiles Total Grammar Actions Parser Literals Numbering Fusion FusionRuns Pattern PatternLink ModeText
  Lang Textbook Properties2 Properties10.
Import ListNotations.
Local Open Scope string_scope.
Local Open Scope list_scope.
Local Open Scope nat_scope.

(** * C48 *)
(** The derivatives decide membership. *)
Theorem C48_derivatives : forall w x, accepts x w = true <-> word x w.
Proof. exact accepts_word. Qed.
Print Assumptions C48_derivatives.
(** [first_piece]: the least position from which some piece is a word. *)
Theorem C48_first_piece : forall w x b, first_piece x w = Some b <->
  b <= List.length w /\ (exists e, word x (firstn e (skipn b w))) /\ forall b' e, b' < b -> ~ word x (firstn e (skipn b' w)).
Proof.
  assert (P : forall w x, accepts_prefix x w = true <-> exists e, word x (firstn e w)).
  { intros w x. rewrite accepts_prefix_word. split.
    - intros (w1 & w2 & -> & H). exists (List.length w1). rewrite firstn_app, firstn_all, Nat.sub_diag, app_nil_r. exact H.
    - intros (e & H). exists (firstn e w), (skipn e w). split; [symmetry; apply firstn_skipn|exact H]. }
  assert (N : forall w x, accepts_prefix x w = false -> forall e, ~ word x (firstn e w)).
  { intros w x H e W. rewrite (proj2 (P w x) (ex_intro _ e W)) in H. discriminate. }
  intros w x b. pose proof (first_piece_least w x) as F. split.
  - intros H. rewrite H in F. destruct F as (F1 & F2 & F3). split; [exact F1|]. split; [apply P; exact F2|].
    intros b' e Hb. apply N. apply F3. exact Hb.
  - intros (B1 & B2 & B3). apply P in B2. destruct (first_piece x w) as [b'|].
    + destruct F as (F1 & F2 & F3). f_equal. destruct (Nat.lt_trichotomy b' b) as [L|[E|L]]; [|exact E|].
      * apply P in F2 as (e & F2). destruct (B3 b' e L F2).
      * rewrite (F3 b L) in B2. discriminate.
    + rewrite (F b B1) in B2. discriminate.
Qed.
Print Assumptions C48_first_piece.
(** The derivations of a regular pattern are the words of its expression, at every place of every subject. *)
Theorem C48_language : forall s f r p e, regular r = true -> scope_check f r = true -> p <= List.length s ->
  ((exists lg, mderives s f r p e lg) <-> (p <= e /\ e <= List.length s) /\ word (textbook f r) (firstn (e - p) (skipn p s))).
Proof. exact (fun s f r p e H1 H2 => derives_word s f r H1 H2 p e). Qed.
Print Assumptions C48_language.

(** What the library finds is a word, from the text of the pattern read without the parser. *)
Theorem C48_match_sound : forall props u r0 r, pattern_text props plain_builders u r0 -> compile props u = CRegex r ->
  fusible r0 = true -> regular r0 = true -> forall opt n s f c, forallb val_ok s = true -> scope_check f r0 = true ->
  msound_check opt f r = true -> ctre_match opt n s f r = Ok c -> matched c = true -> accepts (textbook f r0) s = true.
Proof. exact textbook_match_sound. Qed.
Print Assumptions C48_match_sound.
Theorem C48_search_sound : forall props u r0 r, pattern_text props plain_builders u r0 -> compile props u = CRegex r ->
  fusible r0 = true -> regular r0 = true -> forall opt n s f c, forallb val_ok s = true -> scope_check f r0 = true ->
  msound_check opt f r = true -> ctre_search opt n s f r = Ok c -> matched c = true ->
  exists b e, group c 0 = Some (b, e) /\ b <= e /\ e <= List.length s /\ accepts (textbook f r0) (firstn (e - b) (skipn b s)) = true.
Proof. exact textbook_search_sound. Qed.
Print Assumptions C48_search_sound.
(** Under the checks of C47 the answer is the one of the decision procedure. *)
Theorem C48_match : forall props u r0 r, pattern_text props plain_builders u r0 -> compile props u = CRegex r ->
  fusible r0 = true -> regular r0 = true -> forall opt s f, forallb val_ok s = true -> terminating r = true -> scope_check f r0 = true ->
  msound_check opt f r = true -> right_check opt f r MMatch = true ->
  exists c, answers (fun n => ctre_match opt n s f r) c /\ matched c = accepts (textbook f r0) s.
Proof. exact textbook_match. Qed.
Print Assumptions C48_match.
Theorem C48_starts_with : forall props u r0 r, pattern_text props plain_builders u r0 -> compile props u = CRegex r ->
  fusible r0 = true -> regular r0 = true -> forall opt s f, forallb val_ok s = true -> terminating r = true -> scope_check f r0 = true ->
  msound_check opt f r = true -> right_check opt f r MStarts = true ->
  exists c, answers (fun n => ctre_starts_with opt n s f r) c /\ matched c = accepts_prefix (textbook f r0) s /\
    (matched c = true -> exists e, group c 0 = Some (0, e) /\ e <= List.length s /\ accepts (textbook f r0) (firstn e s) = true).
Proof. exact textbook_starts. Qed.
Print Assumptions C48_starts_with.
Theorem C48_search : forall props u r0 r, pattern_text props plain_builders u r0 -> compile props u = CRegex r ->
  fusible r0 = true -> regular r0 = true -> forall opt s f, forallb val_ok s = true -> terminating r = true -> scope_check f r0 = true ->
  msound_check opt f r = true -> right_check opt f r MSearch = true -> starts_with_anchor f r = false ->
  exists c, answers (fun n => ctre_search opt n s f r) c /\
    match first_piece (textbook f r0) s with
    | None => matched c = false
    | Some b => matched c = true /\ exists e, group c 0 = Some (b, e) /\ b <= e /\ e <= List.length s /\
        accepts (textbook f r0) (firstn (e - b) (skipn b s)) = true
    end.
Proof. exact textbook_search. Qed.
Print Assumptions C48_search.

(** The hypotheses hold for usual patterns: also with mode switches, counted and lazy repetitions, groups. *)
Definition regular_patterns : list string :=
  ["[a-zA-Z_][a-zA-Z0-9_]*"; "([0-9]{4})/([0-9]{1,2})/([0-9]{1,2})"; "(?:ab|cd)+?e"; "-?[0-9]+(?:\.[0-9]+)?(?:[eE][+\-]?[0-9]+)?";
   "(?i)<[^>]*?>"; "a(?i)b(?c)c*"; "(?:[0-9]{1,3}\.){3}[0-9]{1,3}"; """(?:[^""\\]|\\.)*"""; "([^&=]+)=([^&]*)(?:&([^&=]+)=([^&]*))*"; "a.c|d{2,}"].
Example C48_ex_covered : forallb (fun p => negb (several_letters (codes p)) && fusible (px p) && regular (px p) && scope_check plain_mode (px p) &&
    terminating (rx p) && msound_check true plain_mode (rx p) &&
    forallb (right_check true plain_mode (rx p)) [MMatch; MStarts; MSearch] && negb (starts_with_anchor plain_mode (rx p))) regular_patterns = true.
Proof. vm_compute. reflexivity. Qed.
Example C48_ex_texts : forall p, In p regular_patterns -> exists r0 r,
  pattern_text no_props plain_builders (codes p) r0 /\ compile no_props (codes p) = CRegex r.
Proof.
  intros p H. assert (S : forall q, In q regular_patterns -> several_letters (codes q) = false /\ compile no_props (codes q) = CRegex (rx q)).
  { intros q Hq. cbn in Hq. repeat (destruct Hq as [<-|Hq]; [split; vm_compute; reflexivity|]). destruct Hq. }
  destruct (S p H) as [S1 S2]. destruct (compiled_denotes no_props (codes p) _ S1 S2) as (r0 & T & _). eauto.
Qed.
Example C48_ex_decide : map (fun t => accepts (textbook plain_mode (px "-?[0-9]+(?:\.[0-9]+)?")) (codes t)) ["-12.50"; "7"; "1."; ".5"] = [true; true; false; false] /\
  map (fun t => first_piece (textbook plain_mode (px "-?[0-9]+(?:\.[0-9]+)?")) (codes t)) ["x = -12;"; "none"] = [Some 4; None].
Proof. split; vm_compute; reflexivity. Qed.

(** ** Without the check on loops it is false *)
(** A loop takes the first way through its body and never another one (evaluation.hpp, 343-374): a word of the
    expression is not matched, with and without the greedy optimisation. *)
Theorem C48_match_refuted : exists p, several_letters (codes p) = false /\ fusible (px p) = true /\ regular (px p) = true /\
  compile no_props (codes p) = CRegex (rx p) /\ terminating (rx p) = true /\ forall opt, msound_check opt plain_mode (rx p) = true /\
  exists w n c, accepts (textbook plain_mode (px p)) w = true /\ ctre_match opt n w plain_mode (rx p) = Ok c /\ matched c = false.
Proof.
  exists "(?:a|ab)*c". do 5 (split; [vm_compute; reflexivity|]). intros opt. split; [destruct opt; vm_compute; reflexivity|].
  exists (codes "abc"), 60. destruct opt; eexists; (split; [vm_compute; reflexivity|]); split; vm_compute; reflexivity.
Qed.
Print Assumptions C48_match_refuted.
