(** From the text of a pattern to the answer, with mode switches anywhere: the rewriting of the AST while
    parsing keeps the language in which the mode travels with the evaluation. *)
From Coq Require Import List ZArith NArith Bool Lia Arith.
From Verif Require Import Chars Syntax First View Eval Api Spec CharProofs EvalInv ApiProofs EvalTop Checks Match Views Term
  Mode ModeSem ModeCalls ModeCut ModeOpt ModeRefine Follow ModeTop Compiles Total
  Grammar Actions Parser Numbering Fusion FusionRuns Pattern PatternLink.
Import ListNotations.

Lemma rel_mderives : forall r0 r, rel r0 r -> fusible r0 = true ->
  forall s f p e lg, mderives s f r0 p e lg <-> mderives s f r p e lg.
Proof.
  intros r0 r R G s f p e lg. unfold mderives, names_of. rewrite (rel_caps _ _ R).
  split; intros (m & H); exists m; apply (rel_msem _ _ R G); exact H.
Qed.
Theorem m_compiled_language : forall props input r, compile props input = CRegex r ->
  exists r0, plain_compile props input = CRegex r0 /\ find_captures r0 = find_captures r /\
    (fusible r0 = true -> forall s f p e lg, mderives s f r0 p e lg <-> mderives s f r p e lg).
Proof.
  intros props input r H. destruct (compile_plain _ _ _ H) as (r0 & H0 & R). exists r0. split; [assumption|].
  split; [apply R|]. exact (rel_mderives _ _ R).
Qed.

Section Text.
Variable props : list Z -> option (list Z) -> option (list (Z * Z)).
Variables (u : list Z) (r0 r : re).
Hypothesis text : pattern_text props plain_builders u r0.
Hypothesis compiled : compile props u = CRegex r.
Hypothesis harmless : fusible r0 = true.

Lemma m_text_language : find_captures r0 = find_captures r /\
  forall s f p e lg, mderives s f r0 p e lg <-> mderives s f r p e lg.
Proof. pose proof (text_rel _ _ _ _ text compiled) as R. split; [apply R|]. exact (rel_mderives _ _ R harmless). Qed.

Theorem m_text_match : forall opt s f, forallb val_ok s = true -> terminating r = true ->
  msound_check opt f r = true -> right_check opt f r MMatch = true ->
  exists c, answers (fun n => ctre_match opt n s f r) c /\ (matched c = true <-> exists lg, mderives s f r0 0 (length s) lg) /\
    (matched c = true -> exists lg, mderives s f r0 0 (length s) lg /\ captures_are r0 c lg).
Proof.
  intros opt s f Hs Ht S0 R0. destruct m_text_language as [F L].
  destruct (match_right opt s f r Hs (compiled_well_numbered _ _ _ compiled) Ht S0 R0) as (c & A & B & D).
  exists c. split; [exact A|]. split.
  - rewrite B. split; intros (lg & H); exists lg; apply L; exact H.
  - intros M. destruct (D M) as (lg & H & K). exists lg. split; [apply L; exact H|]. eapply captures_same; eassumption.
Qed.
Theorem m_text_starts : forall opt s f, forallb val_ok s = true -> terminating r = true ->
  msound_check opt f r = true -> right_check opt f r MStarts = true ->
  exists c, answers (fun n => ctre_starts_with opt n s f r) c /\ (matched c = true <-> exists e lg, mderives s f r0 0 e lg) /\
    (matched c = true -> exists e lg, group c 0 = Some (0, e) /\ mderives s f r0 0 e lg /\ captures_are r0 c lg).
Proof.
  intros opt s f Hs Ht S0 R0. destruct m_text_language as [F L].
  destruct (starts_right opt s f r Hs (compiled_well_numbered _ _ _ compiled) Ht S0 R0) as (c & A & B & D).
  exists c. split; [exact A|]. split.
  - rewrite B. split; intros (e & lg & H); exists e, lg; apply L; exact H.
  - intros M. destruct (D M) as (e & lg & G & H & K). exists e, lg. split; [exact G|]. split; [apply L; exact H|].
    eapply captures_same; eassumption.
Qed.
Theorem m_text_search : forall opt s f, forallb val_ok s = true -> terminating r = true ->
  msound_check opt f r = true -> right_check opt f r MSearch = true -> starts_with_anchor f r = false ->
  exists c, answers (fun n => ctre_search opt n s f r) c /\
    (matched c = true <-> exists b e lg, b <= length s /\ mderives s f r0 b e lg) /\
    (matched c = true -> exists b e lg, group c 0 = Some (b, e) /\ mderives s f r0 b e lg /\ captures_are r0 c lg /\
       forall b' e' lg', b' <= length s -> mderives s f r0 b' e' lg' -> b <= b').
Proof.
  intros opt s f Hs Ht S0 R0 Ha. destruct m_text_language as [F L].
  destruct (search_right opt s f r Hs (compiled_well_numbered _ _ _ compiled) Ht S0 R0 Ha) as (c & A & B & D).
  exists c. split; [exact A|]. split.
  - rewrite B. split; intros (b & e & lg & Hb & H); exists b, e, lg; (split; [exact Hb|]); apply L; exact H.
  - intros M. destruct (D M) as (b & e & lg & G & H & K & Q). exists b, e, lg. split; [exact G|]. split; [apply L; exact H|].
    split; [eapply captures_same; eassumption|]. intros b' e' lg' Hb H'. apply L in H'. exact (Q _ _ _ Hb H').
Qed.
End Text.
