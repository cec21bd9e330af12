(** The rest of utf8_iterator: steps of several code points, comparisons, utf8_range.
    Source: /repo/include/ctre/utf8.hpp lines 18-247. *)
From Coq Require Import List ZArith Bool Arith Lia.
From Verif Require Import Utf8 View Spec Utf8Proofs Views.
Import ListNotations.

(** Lines 154-161: [operator+(unsigned step)], [step] times [++]. *)
Fixpoint utf8_plus (strict : bool) (mem : list Z) (step p : nat) : option nat :=
  match step with
  | O => Some p
  | S step' => match utf8_next strict mem p with Some q => utf8_plus strict mem step' q | None => None end
  end.
(** Lines 163-170: [operator-(unsigned step)]. *)
Fixpoint utf8_minus (mem : list Z) (len step p : nat) : option nat :=
  match step with
  | O => Some p
  | S step' => match utf8_prev mem len p with Some q => utf8_minus mem len step' q | None => None end
  end.
(** Lines 148-152 and 142-146: the postfix forms, value and iterator afterwards. *)
Definition utf8_post_next (strict : bool) (mem : list Z) (p : nat) : option (nat * nat) :=
  match utf8_next strict mem p with Some q => Some (p, q) | None => None end.
Definition utf8_post_prev (mem : list Z) (len p : nat) : option (nat * nat) :=
  match utf8_prev mem len p with Some q => Some (p, q) | None => None end.

(** What is compared: an iterator, a pointer to a unit, a sentinel. *)
Inductive operand := OIter (p end_ : nat) | OPtr (p : nat) | OEnd.
(** Lines 77-87 and 43-45; with C++20 also the reversed arguments. [None]: the operator is only declared (line 40), or a
    read outside of the memory. Two plain pointers are compared by the language. *)
Definition unit_is_nul (mem : list Z) (p : nat) : option bool :=
  match nth_error mem p with Some b => Some (Z.eqb b 0) | None => None end.
Definition eq20 (mem : list Z) (a b : operand) : option bool :=
  match a, b with
  | OIter p e, OEnd | OEnd, OIter p e => Some (Nat.leb e p)
  | OIter p _, OPtr q | OPtr q, OIter p _ => Some (Nat.eqb p q)
  | OIter p _, OIter q _ => Some (Nat.eqb p q)
  | OEnd, OPtr p | OPtr p, OEnd => unit_is_nul mem p
  | OPtr p, OPtr q => Some (Nat.eqb p q)
  | OEnd, OEnd => None
  end.
(** C++20: [a != b] is rewritten to [!(a == b)]. *)
Definition ne20 (mem : list Z) (a b : operand) : option bool := option_map negb (eq20 mem a b).
(** Before C++20: [==] lines 77-87, 98-104, 43-45, 51-53; [!=] lines 65-75, 90-96, 47-49, 55-57. Line 95 compares with [==]. *)
Definition eq17 (mem : list Z) (a b : operand) : option bool :=
  match a, b with
  | OIter p e, OEnd => Some (Nat.leb e p)
  | OIter p _, OPtr q => Some (Nat.eqb p q)
  | OIter p _, OIter q _ => Some (Nat.eqb p q)
  | OEnd, OIter p e => Some (Nat.leb e p)
  | OPtr q, OIter p _ => Some (Nat.eqb q p)
  | OEnd, OPtr p => unit_is_nul mem p
  | OPtr p, OEnd => unit_is_nul mem p
  | OPtr p, OPtr q => Some (Nat.eqb p q)
  | OEnd, OEnd => None
  end.
Definition unit_is_not_nul (mem : list Z) (p : nat) : option bool :=
  match nth_error mem p with Some b => Some (negb (Z.eqb b 0)) | None => None end.
Definition ne17 (mem : list Z) (a b : operand) : option bool :=
  match a, b with
  | OIter p e, OEnd => Some (Nat.ltb p e)
  | OIter p _, OPtr q => Some (negb (Nat.eqb p q))
  | OIter p _, OIter q _ => Some (negb (Nat.eqb p q))
  | OEnd, OIter p e => Some (Nat.ltb p e)
  | OPtr q, OIter p _ => Some (Nat.eqb q p)
  | OEnd, OPtr p => unit_is_not_nul mem p
  | OPtr p, OEnd => unit_is_not_nul mem p
  | OPtr p, OPtr q => Some (negb (Nat.eqb p q))
  | OEnd, OEnd => None
  end.

(** utf8_range, lines 234-245: [for (auto it = range.begin(); it != range.end(); ++it) out.push_back( *it);] on the units
    [bs]; at most [n] rounds. *)
Inductive walk := Walked (out : list Z) | OutOfRounds | Outside.
Fixpoint utf8_for (strict : bool) (bs : list Z) (n p : nat) : walk :=
  match n with
  | O => OutOfRounds
  | S n' =>
      match ne20 bs (OIter p (length bs)) OEnd with
      | None => Outside
      | Some false => Walked []
      | Some true =>
          match utf8_get bs (length bs) p, utf8_next strict bs p with
          | Some c, Some q => match utf8_for strict bs n' q with Walked out => Walked (c :: out) | x => x end
          | _, _ => Outside
          end
      end
  end.
(** [while (it != begin) { --it; out.push_back( *it); }] with the pointer [begin]. *)
Fixpoint utf8_rfor (bs : list Z) (n p : nat) : walk :=
  match n with
  | O => OutOfRounds
  | S n' =>
      match ne20 bs (OIter p (length bs)) (OPtr 0) with
      | None => Outside
      | Some false => Walked []
      | Some true =>
          match utf8_prev bs (length bs) p with
          | Some q => match utf8_get bs (length bs) q, utf8_rfor bs n' q with
                      | Some c, Walked out => Walked (c :: out)
                      | None, _ => Outside
                      | _, x => x
                      end
          | None => Outside
          end
      end
  end.

(** * Comparisons *)
(** Line 95 is left when a pointer is compared with an iterator by [!=] before C++20. *)
Definition sound_pair (a b : operand) : bool := match a, b with OPtr _, OIter _ _ => false | _, _ => true end.
Lemma same_equal : forall mem a b, eq17 mem a b = eq20 mem a b.
Proof. intros mem [p e|p|] [q e'|q|]; cbn [eq17 eq20]; try reflexivity. f_equal. apply Nat.eqb_sym. Qed.
Lemma same_unequal : forall mem a b, sound_pair a b = true -> ne17 mem a b = ne20 mem a b.
Proof.
  assert (U : forall mem p, unit_is_not_nul mem p = option_map negb (unit_is_nul mem p)).
  { intros mem p. unfold unit_is_not_nul, unit_is_nul. destruct (nth_error mem p); reflexivity. }
  intros mem [p e|p|] [q e'|q|] H; unfold ne20; cbn [ne17 eq20 option_map]; try discriminate; try reflexivity; try apply U;
    f_equal; apply Nat.ltb_antisym.
Qed.
Lemma wrong_unequal : forall mem p q e, ne17 mem (OPtr q) (OIter p e) = eq17 mem (OPtr q) (OIter p e).
Proof. reflexivity. Qed.

(** * Steps of several code points *)
Section Text.
Variables (t post : list Z).
Hypothesis wf : wf_text t.
Theorem plus_text : forall k i strict, i + k <= length t ->
  utf8_plus strict (encode t ++ post) k (offset t i) = Some (offset t (i + k)).
Proof.
  induction k as [|k IH]; intros i strict H; cbn [utf8_plus]; [rewrite Nat.add_0_r; reflexivity|].
  destruct (nth_error t i) as [c|] eqn:E; [|apply nth_error_None in E; lia].
  rewrite (text_next t post i c strict wf E), IH by lia. f_equal. f_equal. lia.
Qed.
Theorem minus_text : forall k i len, k <= i -> i <= length t -> length (encode t) <= len ->
  utf8_minus (encode t ++ post) len k (offset t i) = Some (offset t (i - k)).
Proof.
  induction k as [|k IH]; intros i len H1 H2 Hl; cbn [utf8_minus]; [rewrite Nat.sub_0_r; reflexivity|].
  destruct i as [|i]; [lia|]. rewrite text_prev by (assumption || lia). rewrite IH by (assumption || lia). reflexivity.
Qed.
End Text.
Lemma plus_add : forall strict mem j k p,
  utf8_plus strict mem (j + k) p = match utf8_plus strict mem j p with Some q => utf8_plus strict mem k q | None => None end.
Proof.
  induction j as [|j IH]; intros k p; [reflexivity|]. cbn [utf8_plus plus]. destruct (utf8_next strict mem p); [apply IH|reflexivity].
Qed.

(** * Walks *)
Lemma skipn_nth_cons : forall A (l : list A) i c, nth_error l i = Some c -> skipn i l = c :: skipn (S i) l.
Proof. induction l as [|x l IH]; intros [|i] c H; try discriminate; [injection H as ->; reflexivity|]. exact (IH i c H). Qed.
Theorem for_text : forall t, wf_text t -> forall n, length t < n -> utf8_for true (encode t) n 0 = Walked t.
Proof.
  intros t wf.
  assert (G : forall d i n, d = length t - i -> i <= length t -> d < n -> utf8_for true (encode t) n (offset t i) = Walked (skipn i t)).
  { induction d as [|d IH]; intros i n Hd Hi Hn; (destruct n as [|n]; [lia|]); cbn [utf8_for ne20 eq20 option_map].
    - replace i with (length t) by lia. rewrite offset_all by lia. rewrite Nat.leb_refl, skipn_all. reflexivity.
    - assert (L : Nat.leb (length (encode t)) (offset t i) = false).
      { apply Nat.leb_gt. rewrite <- (offset_all t (length t)) by lia. apply offset_mono; lia. }
      rewrite L. cbn [negb]. destruct (nth_error t i) as [c|] eqn:E; [|apply nth_error_None in E; lia].
      pose proof (text_get t [] i c (length (encode t)) wf E (le_n _)) as G1. pose proof (text_next t [] i c true wf E) as G2.
      rewrite app_nil_r in G1, G2. rewrite G1, G2, IH by lia.
      rewrite (skipn_nth_cons _ t i c E). reflexivity. }
  intros n Hn. apply (G (length t) 0); lia.
Qed.
Theorem rfor_text : forall t, wf_text t -> forall n, length t < n -> utf8_rfor (encode t) n (length (encode t)) = Walked (rev t).
Proof.
  intros t wf.
  assert (G : forall i n, i <= length t -> i < n -> utf8_rfor (encode t) n (offset t i) = Walked (rev (firstn i t))).
  { induction i as [|i IH]; intros n Hi Hn; (destruct n as [|n]; [lia|]); cbn [utf8_rfor ne20 eq20 option_map].
    - reflexivity.
    - assert (L : Nat.eqb (offset t (S i)) 0 = false).
      { apply Nat.eqb_neq. pose proof (offset_mono t i (S i) ltac:(lia) Hi). lia. }
      rewrite L. cbn [negb]. destruct (nth_error t i) as [c|] eqn:E; [|apply nth_error_None in E; lia].
      pose proof (text_get t [] i c (length (encode t)) wf E (le_n _)) as G1.
      pose proof (text_prev t [] i (length (encode t)) wf Hi (le_n _)) as G2.
      rewrite app_nil_r in G1, G2. rewrite G2, G1, IH by lia.
      assert (F : firstn (S i) t = firstn i t ++ [c]).
      { rewrite (nth_split3 _ t i c E) at 1. rewrite firstn_app, firstn_firstn, firstn_length_le by lia.
        replace (S i - i) with 1 by lia. rewrite Nat.min_r by lia. reflexivity. }
      rewrite F, rev_app_distr. reflexivity. }
  intros n Hn. rewrite <- (offset_all t (length t)) by lia. rewrite G by lia. rewrite firstn_all. reflexivity.
Qed.

(** Any units: a group of units for each round. *)
Theorem for_bytes : forall bs, Forall byte bs -> forall n, length bs < n -> utf8_for false bs n 0 = Walked (decode bs).
Proof.
  intros bs B.
  assert (G : forall d i n, d = length (pieces bs) - i -> i <= length (pieces bs) -> d < n ->
    utf8_for false bs n (reached bs i) = Walked (skipn i (decode bs))).
  { induction d as [|d IH]; intros i n Hd Hi Hn; (destruct n as [|n]; [lia|]); cbn [utf8_for ne20 eq20 option_map].
    - replace i with (length (pieces bs)) by lia. pose proof (reached_all bs) as R. apply Nat.leb_le in R. rewrite R.
      rewrite <- decode_length, skipn_all. reflexivity.
    - destruct (nth_error (pieces bs) i) as [x|] eqn:E; [|apply nth_error_None in E; lia].
      destruct (piece_at _ _ _ E) as (pre & b & l & rest & E1 & E2 & E3 & E4 & E5 & E6).
      assert (N : nth_error bs (reached bs i) = Some b) by (rewrite <- E3; rewrite E1 at 1; apply nth_pre0).
      assert (L : Nat.leb (length bs) (reached bs i) = false) by (apply Nat.leb_gt, nth_error_Some; congruence).
      rewrite L. cbn [negb].
      assert (Gt : utf8_get bs (length bs) (reached bs i) = Some (value x)).
      { rewrite <- E3. rewrite E1 at 1 2. rewrite E2. apply get_piece; try assumption. rewrite E1 in B. rewrite !Forall_app in B. tauto. }
      assert (Nx : utf8_next false bs (reached bs i) = Some (reached bs (S i))).
      { unfold utf8_next. rewrite N. cbn [andb]. assert (Hb : byte b) by (eapply Forall_forall; [exact B|]; eapply nth_error_In; eassumption).
        destruct (announced_extra b Hb) as [X _]. f_equal. lia. }
      rewrite Gt, Nx, IH by lia.
      assert (D : nth_error (decode bs) i = Some (value x)) by (unfold decode; rewrite nth_error_map, E; reflexivity).
      rewrite (skipn_nth_cons _ (decode bs) i _ D). reflexivity. }
  intros n Hn. apply (G (length (pieces bs)) 0); try lia.
  assert (P : length (pieces bs) <= length bs); [|lia]. pose proof (reached_mono bs) as M.
  assert (K : forall j, j <= length (pieces bs) -> j <= reached bs j).
  { induction j as [|j IHj]; intros Hj; [lia|]. specialize (M j (S j) ltac:(lia) Hj). specialize (IHj ltac:(lia)). lia. }
  destruct (length (pieces bs)) as [|m] eqn:E; [lia|]. specialize (K m ltac:(lia)).
  destruct (nth_error (pieces bs) m) as [x|] eqn:Ex; [|apply nth_error_None in Ex; lia].
  destruct (piece_at _ _ _ Ex) as (pre & b & l & rest & E1 & _ & E3 & _).
  apply (f_equal (@length Z)) in E1. rewrite !app_length in E1. cbn [length] in E1. lia.
Qed.
