(** The comparison that stands for "the same template arguments" in the overloads of make_sequence
    (fusion.inc.hpp lines 34-68) is equality; when repetitions are merged and when not. *)
From Coq Require Import List ZArith NArith Bool Arith Lia.
From Verif Require Import Chars Syntax Actions Spec Fusion.
Import ListNotations.

Lemma leqb_refl : forall A (e : A -> A -> bool) l, Forall (fun x => e x x = true) l -> leqb e l l = true.
Proof. intros A e l H. induction H as [|x l H _ IH]; [reflexivity|]. cbn [leqb]. rewrite H. exact IH. Qed.
Lemma zs_refl : forall l, leqb Z.eqb l l = true.
Proof. intros l. apply leqb_refl, Forall_forall. intros x _. apply Z.eqb_refl. Qed.
Lemma cls_eqb_refl : forall c, cls_eqb c c = true.
Proof.
  fix IH 1. assert (L : forall l, leqb cls_eqb l l = true).
  { induction l as [|x l I]; [reflexivity|]. cbn [leqb]. rewrite IH. exact I. }
  intros []; cbn [cls_eqb]; auto using zs_refl.
  - apply Z.eqb_refl.
  - rewrite !Z.eqb_refl. reflexivity.
  - apply leqb_refl, Forall_forall. intros x _. unfold pair_eqb. rewrite !Z.eqb_refl. reflexivity.
Qed.
Lemma re_eqb_refl : forall r, re_eqb r r = true.
Proof.
  fix IH 1. assert (L : forall l, leqb re_eqb l l = true).
  { induction l as [|x l I]; [reflexivity|]. cbn [leqb]. rewrite IH. exact I. }
  intros []; cbn [re_eqb]; rewrite ?L, ?N.eqb_refl, ?Nat.eqb_refl, ?zs_refl, ?Bool.eqb_reflx, ?cls_eqb_refl; try reflexivity.
  - destruct k; reflexivity.
  - destruct a; reflexivity.
  - destruct m; reflexivity.
Qed.
Lemma re_eqb_iff : forall a b, re_eqb a b = true <-> a = b.
Proof. intros a b. split; [apply re_eqb_eq|intros ->; apply re_eqb_refl]. Qed.
Lemma res_refl : forall l, leqb re_eqb l l = true.
Proof. intros l. apply leqb_refl, Forall_forall. intros x _. apply re_eqb_refl. Qed.
Lemma res_eq : forall l l', leqb re_eqb l l' = true -> l = l'.
Proof. induction l as [|x l IH]; intros [|y l'] H; try discriminate; [reflexivity|]. cbn [leqb] in H. apply andb_true_iff in H as [H1 H2].
  apply re_eqb_eq in H1 as ->. f_equal. apply IH, H2. Qed.
Lemma same_spec : forall k k' l l', rkind_eqb k k' && leqb re_eqb l l' = true <-> k = k' /\ l = l'.
Proof.
  intros k k' l l'. split.
  - intros H. apply andb_true_iff in H as [H1 H2]. split; [destruct k, k'; (reflexivity || discriminate)|apply res_eq, H2].
  - intros [-> ->]. rewrite res_refl. destruct k'; reflexivity.
Qed.

(** What the merged counts are to be: 0 as maximum stands for no maximum, sums are taken modulo 2^64. *)
Definition sum_max (b d : N) : N := if (N.eqb b 0 || N.eqb d 0)%bool then 0%N else ((b + d) mod 2 ^ 64)%N.
Definition sum_min (a c : N) : N := ((a + c) mod 2 ^ 64)%N.

Lemma merged : forall k a b c d l, k <> Possessive ->
  make_sequence (RRep k c d l) (RRep k a b l) = RRep k (sum_min a c) (sum_max b d) l /\
  forall sq, make_sequence (RSeq (RRep k c d l :: sq)) (RRep k a b l) = RSeq (RRep k (sum_min a c) (sum_max b d) l :: sq).
Proof.
  intros k a b c d l Hk. cbn [make_sequence]. rewrite (proj2 (same_spec k k l l) (conj eq_refl eq_refl)).
  assert (W : forall x, wrap x = (x mod 2 ^ 64)%N) by reflexivity.
  assert (M : combine_max b d = sum_max b d /\ combine_max d b = sum_max b d).
  { unfold combine_max, sum_max. rewrite !W. destruct (N.eqb_spec b 0), (N.eqb_spec d 0); cbn; try (split; reflexivity).
    split; [reflexivity|]. f_equal. lia. }
  destruct M as [M1 M2]. unfold combine_repeat, sum_min. rewrite M1, M2, !W.
  destruct k; [split; [reflexivity|intros sq; do 3 f_equal; lia]|split; [reflexivity|intros sq; do 3 f_equal; lia]|contradiction].
Qed.
(** Repetitions of another kind or body stay apart. *)
Lemma kept : forall k a b l k' c d l', (k, l) <> (k', l') ->
  make_sequence (RRep k' c d l') (RRep k a b l) = RSeq [RRep k a b l; RRep k' c d l'] /\
  forall sq, make_sequence (RSeq (RRep k' c d l' :: sq)) (RRep k a b l) = RSeq (RRep k a b l :: RRep k' c d l' :: sq).
Proof.
  intros k a b l k' c d l' H. cbn [make_sequence].
  destruct (rkind_eqb k' k && leqb re_eqb l' l) eqn:E; [apply same_spec in E as [-> ->]; contradiction|]. split; reflexivity.
Qed.
