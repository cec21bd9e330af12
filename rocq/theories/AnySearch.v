(** Search is right for patterns that start with an anchor too: the one attempt it makes is the only one that can succeed. *)
From Coq Require Import List ZArith NArith Bool Lia Arith.
From Verif Require Import Chars Syntax First View Eval Api Spec CharProofs EvalInv ApiProofs EvalTop Checks Match Views Term Anchor
  Mode ModeSem ModeScope ModeCalls ModeCut ModeOpt ModeRefine Follow ModeTop Compiles Total
  Grammar Actions Parser Numbering Fusion FusionRuns Pattern PatternLink ModeText Lang.
Import ListNotations.

(** Search may stop after the first position ([starts_with_anchor], starts_with_anchor.hpp) only where nothing is lost. *)
Definition fair_anchor (f : flags) (r : re) : bool := negb (starts_with_anchor f r) || zero_safe r.

Section Any.
Variables (opt : bool) (s : list Z) (f : flags) (r : re).
Hypothesis s_ok : forallb val_ok s = true.
Hypothesis Hw : well_numbered r.
Hypothesis Ht : terminating r = true.

Lemma attempt_decides : forall p, compiles opt true r tail_starts = true -> p <= length s ->
  exists n x, (x = No \/ exists c, x = Ok c) /\ attempt opt n s f r p = x.
Proof.
  intros p Hc Hp.
  destruct (settles_attempt opt (length s) (arr_view s) (arr_view s) f r (fwd_arr s) (fwd_arr s) eq_refl Ht p) as (n & x & Hx & H).
  exists n, x. specialize (H n (le_n n)). split; [|exact H].
  pose proof (attempt_fine opt true (arr_view s) (arr_view s) f r (arr_views s) n p _ Hc) as F. unfold tail_starts in F. cbn [app] in F. rewrite H in F.
  pose proof (attempt_ok opt n s f r p x Hw Hp H) as U.
  destruct x as [c| | | |]; [eauto|auto|congruence|destruct U|destruct F].
Qed.
Lemma anchored_derives : forall p e lg, right_check opt f r MSearch = true -> zero_safe r = true -> starts_with_anchor f r = true ->
  p <= length s -> mderives s f r p e lg -> p = 0.
Proof.
  intros p e lg H Hz Ha Hp Hd. destruct (Nat.eq_dec p 0) as [E|E]; [exact E|exfalso].
  destruct (right_parts opt s f r s_ok _ H) as (Hc & H1 & H2 & H3 & H4).
  destruct (attempt_decides p Hc Hp) as (n & x & [->|(c & ->)] & A).
  - pose proof (m_attempt_priority opt s f r s_ok H1 n p H2 H4 Hp) as P. rewrite A in P.
    pose proof (m_starts_derives s f r s_ok p H2 H3 Hp) as D. rewrite P in D. exact (D e lg Hd).
  - exact (anchored_nowhere_else opt n s f r p c Hz Ha ltac:(lia) A).
Qed.
Theorem any_search_right : msound_check opt f r = true -> right_check opt f r MSearch = true -> fair_anchor f r = true ->
  exists c, answers (fun n => ctre_search opt n s f r) c /\ (matched c = true <-> exists b e lg, b <= length s /\ mderives s f r b e lg) /\
    (matched c = true -> exists b e lg, group c 0 = Some (b, e) /\ mderives s f r b e lg /\ captures_are r c lg /\
       forall b' e' lg', b' <= length s -> mderives s f r b' e' lg' -> b <= b').
Proof.
  intros Hs H Hf. destruct (starts_with_anchor f r) eqn:Ha; [|exact (search_right opt s f r s_ok Hw Ht Hs H Ha)].
  assert (Hz : zero_safe r = true) by (unfold fair_anchor in Hf; rewrite Ha in Hf; exact Hf).
  destruct (right_parts opt s f r s_ok _ H) as (Hc & H1 & H2 & H3 & H4).
  destruct (array_answers MSearch opt s f r Hw Ht Hc) as (c & n & E). exists c. split; [exists n; exact E|].
  specialize (E n (le_n n)). change (ctre_search opt n s f r = Ok c) in E.
  assert (B : matched c = true -> exists b e lg, b <= length s /\ group c 0 = Some (b, e) /\ mderives s f r b e lg /\ captures_are r c lg).
  { intros Hm. destruct (m_search_sound opt s f r s_ok Hs n c Hw E Hm) as (b & e & lg & D1 & D2 & D3).
    destruct (search_span _ _ _ _ _ _ Hw E Hm) as (b' & e' & G & G2). rewrite D1 in G. injection G as <- <-.
    exists b, e, lg. split; [lia|]. auto. }
  split.
  - split.
    + intros Hm. destruct (B Hm) as (b & e & lg & L & _ & D & _). exists b, e, lg. auto.
    + intros (b & e & lg & L & D). pose proof (anchored_derives b e lg H Hz Ha L D) as ->.
      apply search_cases in E; auto with arith. rewrite Ha in E. destruct E as [(q & Q1 & Q2 & _)|(q & _ & _ & Q)].
      * eapply attempt_matched. exact Q2.
      * exfalso. pose proof (m_attempt_priority opt s f r s_ok H1 n 0 H2 H4 L) as P. rewrite Q in P.
        pose proof (m_starts_derives s f r s_ok 0 H2 H3 L) as D'. rewrite P in D'. exact (D' e lg D).
  - intros Hm. destruct (B Hm) as (b & e & lg & L & D1 & D2 & D3). exists b, e, lg. repeat (split; [assumption|]).
    intros b' e' lg' L' D'. rewrite (anchored_derives b e lg H Hz Ha L D2). lia.
Qed.
End Any.

Section Text.
Variable props : list Z -> option (list Z) -> option (list (Z * Z)).
Variables (u : list Z) (r0 r : re).
Hypothesis text : pattern_text props plain_builders u r0.
Hypothesis compiled : compile props u = CRegex r.
Hypothesis harmless : fusible r0 = true.

Theorem any_text_search : forall opt s f, forallb val_ok s = true -> terminating r = true ->
  msound_check opt f r = true -> right_check opt f r MSearch = true -> fair_anchor f r = true ->
  exists c, answers (fun n => ctre_search opt n s f r) c /\
    (matched c = true <-> exists b e lg, b <= length s /\ mderives s f r0 b e lg) /\
    (matched c = true -> exists b e lg, group c 0 = Some (b, e) /\ mderives s f r0 b e lg /\ captures_are r0 c lg /\
       forall b' e' lg', b' <= length s -> mderives s f r0 b' e' lg' -> b <= b').
Proof.
  intros opt s f Hs Ht S0 R0 Ha. destruct (m_text_language props u r0 r text compiled harmless) as [F L].
  destruct (any_search_right opt s f r Hs (compiled_well_numbered _ _ _ compiled) Ht S0 R0 Ha) as (c & A & B & D).
  exists c. split; [exact A|]. split.
  - rewrite B. split; intros (b & e & lg & Hb & H); exists b, e, lg; (split; [exact Hb|]); apply L; exact H.
  - intros M. destruct (D M) as (b & e & lg & G & H & K & Q). exists b, e, lg. split; [exact G|]. split; [apply L; exact H|].
    split; [eapply captures_same; eassumption|]. intros b' e' lg' Hb H'. apply L in H'. exact (Q _ _ _ Hb H').
Qed.
End Text.
