(** Comparison of split iterators, and with the sentinel. *)
From Coq Require Import List ZArith NArith Bool Lia Arith.
From Verif Require Import Chars Syntax View Eval Api Spec EvalInv ApiProofs Anchor Iter IterProofs.
Import ListNotations.

(** iterators.hpp lines 162-179: only [current] takes part. *)
Definition si_eq (a b : siter) : bool := Nat.eqb (si_cur a) (si_cur b).
Definition si_ne (a b : siter) : bool := negb (Nat.eqb (si_cur a) (si_cur b)).
Definition si_lt (a b : siter) : bool := Nat.ltb (si_cur a) (si_cur b).
Definition si_gt (a b : siter) : bool := Nat.ltb (si_cur b) (si_cur a).
Definition si_le (a b : siter) : bool := Nat.leb (si_cur a) (si_cur b).
Definition si_ge (a b : siter) : bool := Nat.leb (si_cur b) (si_cur a).
(** Lines 73-81. *)
Definition ri_gt (a b : riter) : bool := Nat.ltb (ri_cur b) (ri_cur a).
Definition ri_le (a b : riter) : bool := Nat.leb (ri_cur a) (ri_cur b).
Definition ri_ge (a b : riter) : bool := Nat.leb (ri_cur b) (ri_cur a).
(** Lines 180-191, the overloads besides [si_ne_end]. *)
Definition si_eq_end (it : siter) : bool := negb (matched (si_match it)).
Definition end_eq_si (it : siter) : bool := negb (matched (si_match it)).
Definition end_ne_si (it : siter) : bool := matched (si_match it).

(** The iterator after [k] increments. *)
Section Nth.
Variables (exec : nat -> res caps) (v : view) (r : re).
Fixpoint si_nth (k : nat) : res siter :=
  match k with O => si_begin exec | S k' => bind (si_nth k') (si_next exec v r) end.
(** The loop lists what the increments lead to: [k] pieces and then an iterator that equals the sentinel. *)
Lemma ri_listed : forall m k it l, ri_nth exec v r k = Ok it -> ri_loop exec v r m it = Ok l ->
  forall i, (forall c, nth_error l i = Some c -> exists a, ri_nth exec v r (k + i) = Ok a /\ ri_match a = c /\ ri_eq_end a = false) /\
            (nth_error l i = None -> i = length l -> exists a, ri_nth exec v r (k + i) = Ok a /\ ri_eq_end a = true).
Proof.
  induction m as [|m IH]; intros k it l Hk H i; [discriminate|]. cbn [ri_loop] in H. unfold ri_ne_end in H.
  destruct (matched (ri_match it)) eqn:E.
  - apply bind_ok in H as (it' & H1 & H). apply bind_ok in H as (l' & H2 & H). injection H as <-.
    assert (Hk' : ri_nth exec v r (S k) = Ok it') by (cbn [ri_nth]; rewrite Hk; exact H1).
    destruct i as [|i]; cbn [nth_error length].
    + rewrite Nat.add_0_r. split; [|discriminate]. intros c Hc. injection Hc as <-. exists it. split; [exact Hk|]. split; [reflexivity|]. unfold ri_eq_end. rewrite E. reflexivity.
    + rewrite <- plus_n_Sm. destruct (IH (S k) it' l' Hk' H2 i) as [A B]. cbn [plus] in A, B. split; [exact A|]. intros Hn Hi. apply B; [exact Hn|lia].
  - injection H as <-. split; [destruct i; discriminate|]. intros _ Hi. cbn in Hi. subst i. rewrite Nat.add_0_r. exists it. split; [exact Hk|]. unfold ri_eq_end. rewrite E. reflexivity.
Qed.
Lemma si_listed : forall m k it l, si_nth k = Ok it -> si_loop exec v r m it = Ok l ->
  forall i, (forall c, nth_error l i = Some c -> exists a, si_nth (k + i) = Ok a /\ si_match a = c /\ si_eq_end a = false) /\
            (nth_error l i = None -> i = length l -> exists a, si_nth (k + i) = Ok a /\ si_eq_end a = true).
Proof.
  induction m as [|m IH]; intros k it l Hk H i; [discriminate|]. cbn [si_loop] in H. unfold si_ne_end in H.
  destruct (matched (si_match it)) eqn:E.
  - apply bind_ok in H as (it' & H1 & H). apply bind_ok in H as (l' & H2 & H). injection H as <-.
    assert (Hk' : si_nth (S k) = Ok it') by (cbn [si_nth]; rewrite Hk; exact H1).
    destruct i as [|i]; cbn [nth_error length].
    + rewrite Nat.add_0_r. split; [|discriminate]. intros c Hc. injection Hc as <-. exists it. split; [exact Hk|]. split; [reflexivity|]. unfold si_eq_end. rewrite E. reflexivity.
    + rewrite <- plus_n_Sm. destruct (IH (S k) it' l' Hk' H2 i) as [A B]. cbn [plus] in A, B. split; [exact A|]. intros Hn Hi. apply B; [exact Hn|lia].
  - injection H as <-. split; [destruct i; discriminate|]. intros _ Hi. cbn in Hi. subst i. rewrite Nat.add_0_r. exists it. split; [exact Hk|]. unfold si_eq_end. rewrite E. reflexivity.
Qed.
End Nth.

(** * Split iterators of patterns without empty matches *)
Section Split.
Variables (opt : bool) (n : nat) (s : list Z) (f : flags) (r : re).
Hypothesis Hw : well_numbered r.
Hypothesis Hz : zero_safe r = true.
Hypothesis Ha : starts_with_anchor f r = false.
Hypothesis Hn : no_empty opt s f r.
Let exec := exec_search opt n (arr_view s) (arr_view s) f r.
Let nth_it := si_nth exec (arr_view s) r.

(** One step: a match further on, or the rest. *)
Lemma take_step : forall p c it, p <= length s -> exec p = Ok c -> si_take p false c = Ok it ->
  matched (si_match it) = true /\ si_cur it <= length s /\
  ((si_last it = false /\ p < si_cur it) \/ (si_last it = true /\ si_cur it = length s)).
Proof.
  intros p c it Hp H1 H2. unfold si_take in H2. destruct (matched c) eqn:Hc.
  - destruct (nonempty_search opt s f r Hw n p c Hn Hz Hp H1 Hc) as (q & e & Q1 & Q2 & Q3 & Q4 & Q5).
    unfold modify_match in H2. rewrite Q3, Q4 in H2. cbn [or_ub] in H2. injection H2 as <-. cbn [si_match si_cur si_last].
    split; [exact Hc|]. split; [exact Q2|]. left. split; [reflexivity|lia].
  - destruct (search_from opt s f r Hw n p c Hz Hp H1) as [[Hc' _]|(_ & _ & H3)]; [congruence|]. specialize (H3 Ha). subst c.
    unfold match_rest in H2. cbn [c0 s_end set_matched set_start_mark set_end_mark or_ub] in H2. injection H2 as <-. cbn [si_match si_cur si_last].
    split; [reflexivity|]. split; [lia|]. right. split; reflexivity.
Qed.
Lemma nth_split : forall k it, nth_it k = Ok it -> si_cur it <= length s /\ (si_last it = true -> si_cur it = length s).
Proof.
  induction k as [|k IH]; intros it H.
  - unfold nth_it in H. cbn [si_nth] in H. unfold si_begin in H. apply bind_ok in H as (c & H1 & H2).
    destruct (take_step 0 c it (Nat.le_0_l _) H1 H2) as (_ & L & [[E _]|[E1 E2]]); split; try exact L; [congruence|auto].
  - unfold nth_it in H. cbn [si_nth] in H. apply bind_ok in H as (a & H1 & H2). destruct (IH a H1) as [L E]. unfold si_next in H2.
    cbn [arr_view vend or_ub] in H2. fold (arr_view s) in H2. destruct (si_last a) eqn:La.
    + rewrite (E eq_refl), Nat.eqb_refl in H2. cbn [andb] in H2. injection H2 as <-. cbn. rewrite <- (E eq_refl) at 1. split; [exact L|auto].
    + rewrite andb_false_r in H2. apply bind_ok in H2 as (c & H3 & H4).
      destruct (take_step (si_cur a) c it L H3 H4) as (_ & L' & [[E' _]|[E1 E2]]); split; try exact L'; [congruence|auto].
Qed.
(** Before the last piece the position grows; the last piece has the end. *)
Lemma nth_split_step : forall k b, nth_it (S k) = Ok b -> matched (si_match b) = true ->
  exists a, nth_it k = Ok a /\ matched (si_match a) = true /\ si_last a = false /\ si_cur a <= si_cur b /\ (si_last b = false -> si_cur a < si_cur b).
Proof.
  intros k b H M. unfold nth_it in H. cbn [si_nth] in H. apply bind_ok in H as (a & H1 & H2). exists a. split; [exact H1|].
  destruct (nth_split k a H1) as [L E]. unfold si_next in H2. cbn [arr_view vend or_ub] in H2. fold (arr_view s) in H2. destruct (si_last a) eqn:La.
  - rewrite (E eq_refl), Nat.eqb_refl in H2. cbn [andb] in H2. injection H2 as <-. discriminate.
  - rewrite andb_false_r in H2. apply bind_ok in H2 as (c & H3 & H4).
    destruct (take_step (si_cur a) c b L H3 H4) as (_ & L' & K). split.
    + destruct k as [|k]; unfold nth_it in H1; cbn [si_nth] in H1.
      * unfold si_begin in H1. apply bind_ok in H1 as (c1 & H5 & H6). exact (proj1 (take_step 0 c1 a (Nat.le_0_l _) H5 H6)).
      * apply bind_ok in H1 as (a0 & H5 & H6). destruct (nth_split k a0 H5) as [L0 E0]. unfold si_next in H6. cbn [arr_view vend or_ub] in H6. fold (arr_view s) in H6.
        destruct (si_last a0) eqn:La0.
        -- rewrite (E0 eq_refl), Nat.eqb_refl in H6. cbn [andb] in H6. injection H6 as <-. cbn in La. discriminate.
        -- rewrite andb_false_r in H6. apply bind_ok in H6 as (c1 & H7 & H8). exact (proj1 (take_step (si_cur a0) c1 a L0 H7 H8)).
    + split; [reflexivity|]. destruct K as [[K1 K2]|[K1 K2]]; (split; [lia|intros X; congruence || lia]).
Qed.
Lemma nth_split_increasing : forall k j a b, j < k -> nth_it j = Ok a -> nth_it k = Ok b -> matched (si_match b) = true ->
  si_last a = false /\ si_cur a <= si_cur b /\ (si_last b = false -> si_cur a < si_cur b) /\ (S j < k -> si_cur a < si_cur b).
Proof.
  induction k as [|k IH]; intros j a b Hj Ja Jb M; [lia|]. destruct (nth_split_step k b Jb M) as (a' & K1 & K2 & K3 & K4 & K5).
  destruct (Nat.eq_dec j k) as [->|Hjk].
  - assert (a' = a) by congruence. subst a'. repeat split; auto. lia.
  - destruct (IH j a a' ltac:(lia) Ja K1 K2) as (I1 & I2 & I3 & _). specialize (I3 K3). repeat split; auto; try lia.
Qed.
(** Two iterators at pieces are equal only if they are the same, or the last two. *)
Theorem split_iterators_equal : forall j k a b, nth_it j = Ok a -> nth_it k = Ok b ->
  matched (si_match a) = true -> matched (si_match b) = true ->
  (si_last a = false -> si_last b = false -> (si_eq a b = true <-> j = k) /\ (si_lt a b = true <-> j < k)) /\
  (j < k -> si_le a b = true) /\ (S j < k -> si_lt a b = true).
Proof.
  intros j k a b Ja Jb Ma Mb. unfold si_eq, si_lt, si_le. rewrite Nat.eqb_eq, !Nat.ltb_lt, Nat.leb_le. split; [|split].
  - intros La Lb. destruct (lt_eq_lt_dec j k) as [[L|L]|L].
    + destruct (nth_split_increasing k j a b L Ja Jb Mb) as (_ & _ & K & _). specialize (K Lb). split; split; intros; lia.
    + subst k. assert (a = b) by congruence. subst b. split; split; intros; lia.
    + destruct (nth_split_increasing j k b a L Jb Ja Ma) as (_ & _ & K & _). specialize (K La). split; split; intros; lia.
  - intros L. destruct (nth_split_increasing k j a b L Ja Jb Mb) as (_ & K & _). exact K.
  - intros L. destruct (nth_split_increasing k j a b ltac:(lia) Ja Jb Mb) as (_ & _ & _ & K). exact (K L).
Qed.
End Split.
