(** Captures that took no part in a match: both iterators are value-initialised.
    Source: /repo/include/ctre/return_type.hpp lines 46-76, 110-124, 143-174. *)
From Coq Require Import List ZArith NArith Bool Arith Lia.
From Verif Require Import Chars Syntax View Eval Api Spec EvalInv ApiProofs Results.
Import ListNotations.

Definition blank_ok (c : caps) : Prop :=
  forall id sl, find_id id (cl c) = Some sl -> s_m sl = false -> s_beg sl = None /\ s_end sl = None.
Lemma inv_blank : forall len lo c, Inv len lo [] c -> blank_ok c.
Proof. intros len lo c I id sl H Hm. destruct (i_blank _ _ _ _ I id sl H Hm) as [E [E'|[]]]. auto. Qed.
Lemma attempt_blank : forall opt n s f r p c, well_numbered r -> p <= length s -> attempt opt n s f r p = Ok c -> blank_ok c.
Proof.
  intros opt n s f r p c Hw Hp Hx. pose proof (attempt_spec opt n s f r p [AEnd; AAccept] Hw Hp) as H.
  unfold attempt in Hx. rewrite Hx in H. destruct H as (n' & q & f' & c1 & H1 & H2 & H3 & H4 & H5 & H6).
  symmetry in H2; apply end_accept in H2 as [H2|H2]; try discriminate. injection H2 as ->. exact (inv_blank _ _ _ H5).
Qed.
Lemma whole_blank : forall opt n s f r p c, well_numbered r -> p <= length s -> whole opt n s f r p = Ok c -> blank_ok c.
Proof.
  intros opt n s f r p c Hw Hp Hx. pose proof (attempt_spec opt n s f r p [AR (RAssert ASubjectEnd); AEnd; AAccept] Hw Hp) as H.
  unfold whole in Hx. rewrite Hx in H. destruct H as (n' & q & f' & c1 & H1 & H2 & H3 & H4 & H5 & H6).
  destruct n' as [|n']; [discriminate|]. cbn [eval eval_assert arr_view vend or_ub] in H2.
  destruct (Nat.eqb q (length s)); try discriminate.
  symmetry in H2; apply end_accept in H2 as [H2|H2]; try discriminate. injection H2 as ->. exact (inv_blank _ _ _ H5).
Qed.
Lemma fresh_blank : forall r x, blank_ok (set_end_mark x (fresh r)) /\ blank_ok (fresh r).
Proof. intros r x. split; intros id sl H _; apply find_fresh in H; subst; auto. Qed.
(** Every call, successful or not. *)
Theorem call_blank : forall m opt n s f r c, entry_point m -> well_numbered r -> m opt n s f r = Ok c -> blank_ok c.
Proof.
  intros m opt n s f r c Hm Hw H. destruct Hm as [->|[->| ->]].
  - unfold ctre_match, exec_match in H. apply returned_cases in H as [H | [_ ->]]; [|exact (proj2 (fresh_blank r 0))].
    exact (whole_blank opt n s f r 0 c Hw ltac:(lia) H).
  - unfold ctre_starts_with, exec_starts_with in H. apply returned_cases in H as [H | [_ ->]]; [|exact (proj2 (fresh_blank r 0))].
    exact (attempt_blank opt n s f r 0 c Hw ltac:(lia) H).
  - apply search_cases in H; auto; [|lia]. destruct H as [(q & Hq & H & _) | (q & -> & _)]; [|exact (proj1 (fresh_blank r q))].
    exact (attempt_blank opt n s f r q c Hw ltac:(lia) H).
Qed.
(** A group that took no part reads as the empty text. *)
Theorem missing_reads : forall m opt n s f r c id sl, entry_point m -> well_numbered r -> m opt n s f r = Ok c -> id <> 0 ->
  get_id id c = Some sl -> s_m sl = false ->
  sl = mkSlot None None false /\ to_view s sl = Ok [] /\ to_string s sl = Ok [] /\ slot_size sl = Ok 0 /\ to_optional_view s sl = Ok None.
Proof.
  intros m opt n s f r c id sl Hm Hw H H0 Hg Hs. unfold get_id in Hg. apply Nat.eqb_neq in H0. rewrite H0 in Hg.
  destruct (call_blank m opt n s f r c Hm Hw H id sl Hg Hs) as [E1 E2]. destruct sl as [b e x]. cbn in *. subst. repeat split.
Qed.
