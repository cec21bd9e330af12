(** The answers of the calls are those of the textbook decision procedure. *)
From Coq Require Import List ZArith NArith Bool Lia Arith.
From Verif Require Import Chars Syntax First View Eval Api Spec CharProofs EvalInv ApiProofs EvalTop Checks Match Views Term
  Mode ModeSem ModeScope ModeCalls ModeTop Compiles Total Grammar Actions Parser Numbering Fusion FusionRuns Pattern PatternLink ModeText Lang.
Import ListNotations.

Section Text.
Variable props : list Z -> option (list Z) -> option (list (Z * Z)).
Variables (u : list Z) (r0 r : re).
Hypothesis text : pattern_text props plain_builders u r0.
Hypothesis compiled : compile props u = CRegex r.
Hypothesis harmless : fusible r0 = true.
Hypothesis r0_regular : regular r0 = true.

Lemma bool_iff : forall a b : bool, (a = true <-> b = true) -> a = b.
Proof. intros [] [] H; try reflexivity; [symmetry; apply H; reflexivity|apply H; reflexivity]. Qed.

(** What is found is a word. *)
Theorem textbook_match_sound : forall opt n s f c, forallb val_ok s = true -> scope_check f r0 = true -> msound_check opt f r = true ->
  ctre_match opt n s f r = Ok c -> matched c = true -> accepts (textbook f r0) s = true.
Proof.
  intros opt n s f c H1 H2 H3 H4 H5. destruct (m_match_sound opt s f r H1 H3 n c H4 H5) as (lg & D & _).
  apply whole_accepts; [exact r0_regular|exact H2|]. exists lg. apply (m_text_language props u r0 r text compiled harmless). exact D.
Qed.
Theorem textbook_search_sound : forall opt n s f c, forallb val_ok s = true -> scope_check f r0 = true -> msound_check opt f r = true ->
  ctre_search opt n s f r = Ok c -> matched c = true -> exists b e, group c 0 = Some (b, e) /\ b <= e /\ e <= length s /\
    accepts (textbook f r0) (firstn (e - b) (skipn b s)) = true.
Proof.
  intros opt n s f c H1 H2 H3 H4 H5.
  pose proof (compiled_well_numbered _ _ _ compiled) as Hw.
  destruct (m_search_sound opt s f r H1 H3 n c Hw H4 H5) as (b & e & lg & G & D & _). exists b, e. split; [exact G|].
  apply (m_text_language props u r0 r text compiled harmless) in D.
  assert (Hb : b <= length s).
  { apply search_cases in H4; auto with arith. destruct H4 as [(q & Q1 & Q2 & _)|(q & -> & _)]; [|discriminate].
    pose proof (attempt_ok _ _ _ _ _ _ _ Hw (proj2 Q1) Q2) as (_ & E1 & E2 & _).
    destruct E2 as (e' & E2 & _). rewrite (c0_group c q e' H5 E1 E2) in G. injection G as <- _. lia. }
  destruct (proj1 (derives_word s f r0 r0_regular H2 b e Hb) (ex_intro _ lg D)) as [[L1 L2] W].
  split; [exact L1|]. split; [exact L2|]. apply accepts_word. exact W.
Qed.
Theorem textbook_match : forall opt s f, forallb val_ok s = true -> terminating r = true -> scope_check f r0 = true ->
  msound_check opt f r = true -> right_check opt f r MMatch = true ->
  exists c, answers (fun n => ctre_match opt n s f r) c /\ matched c = accepts (textbook f r0) s.
Proof.
  intros opt s f H1 H2 H3 H4 H5. destruct (m_text_match props u r0 r text compiled harmless opt s f H1 H2 H4 H5) as (c & A & B & _).
  exists c. split; [exact A|]. apply bool_iff. rewrite B. apply whole_accepts; assumption.
Qed.
Theorem textbook_starts : forall opt s f, forallb val_ok s = true -> terminating r = true -> scope_check f r0 = true ->
  msound_check opt f r = true -> right_check opt f r MStarts = true ->
  exists c, answers (fun n => ctre_starts_with opt n s f r) c /\ matched c = accepts_prefix (textbook f r0) s /\
    (matched c = true -> exists e, group c 0 = Some (0, e) /\ e <= length s /\ accepts (textbook f r0) (firstn e s) = true).
Proof.
  intros opt s f H1 H2 H3 H4 H5. destruct (m_text_starts props u r0 r text compiled harmless opt s f H1 H2 H4 H5) as (c & A & B & D).
  exists c. split; [exact A|]. split.
  - apply bool_iff. rewrite B. apply (prefix_accepts s f r0 r0_regular H3 0 (Nat.le_0_l _)).
  - intros M. destruct (D M) as (e & lg & G & H & _). exists e. split; [exact G|].
    destruct (proj1 (derives_word s f r0 r0_regular H3 0 e (Nat.le_0_l _)) (ex_intro _ lg H)) as [[_ L] W].
    split; [exact L|]. apply accepts_word. unfold piece in W. rewrite Nat.sub_0_r in W. exact W.
Qed.
(** The first position where some piece is a word, and a word from there. *)
Theorem textbook_search : forall opt s f, forallb val_ok s = true -> terminating r = true -> scope_check f r0 = true ->
  msound_check opt f r = true -> right_check opt f r MSearch = true -> starts_with_anchor f r = false ->
  exists c, answers (fun n => ctre_search opt n s f r) c /\
    match first_piece (textbook f r0) s with
    | None => matched c = false
    | Some b => matched c = true /\ exists e, group c 0 = Some (b, e) /\ b <= e /\ e <= length s /\
        accepts (textbook f r0) (firstn (e - b) (skipn b s)) = true
    end.
Proof.
  intros opt s f H1 H2 H3 H4 H5 H6. destruct (m_text_search props u r0 r text compiled harmless opt s f H1 H2 H4 H5 H6) as (c & A & B & D).
  exists c. split; [exact A|]. pose proof (first_piece_least s (textbook f r0)) as P. destruct (first_piece _ s) as [b|].
  - destruct P as (P1 & P2 & P3). apply (prefix_accepts s f r0 r0_regular H3 b P1) in P2.
    destruct P2 as (e0 & lg0 & K). assert (M : matched c = true) by (apply B; eauto 6). split; [exact M|].
    destruct (D M) as (b' & e & lg & G & H & _ & Q). pose proof (Q b e0 lg0 P1 K) as L.
    assert (Hb : b' <= length s) by lia.
    assert (b' = b).
    { destruct (Nat.eq_dec b' b) as [E|E]; [exact E|]. specialize (P3 b' ltac:(lia)).
      rewrite (proj1 (prefix_accepts s f r0 r0_regular H3 b' Hb) (ex_intro _ e (ex_intro _ lg H))) in P3. discriminate. }
    subst b'. exists e. split; [exact G|].
    destruct (proj1 (derives_word s f r0 r0_regular H3 b e Hb) (ex_intro _ lg H)) as [[L1 L2] W].
    split; [exact L1|]. split; [exact L2|]. apply accepts_word. exact W.
  - destruct (matched c) eqn:M; [|reflexivity]. destruct (proj1 B eq_refl) as (b & e & lg & Hb & H).
    specialize (P b Hb). rewrite (proj1 (prefix_accepts s f r0 r0_regular H3 b Hb) (ex_intro _ e (ex_intro _ lg H))) in P. discriminate.
Qed.
End Text.
