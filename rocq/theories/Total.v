(** Total correctness: every call on a well-formed, terminating pattern answers, and the answer is right. *)
From Coq Require Import List ZArith NArith Bool Arith Lia.
From Verif Require Import Chars Syntax First Utf8 View Eval Api Spec CharProofs EvalMono EvalInv ApiProofs EvalTop Checks Match Utf8Proofs Views Term
  Mode ModeSem ModeCalls ModeCut ModeOpt ModeRefine Follow ModeTop Compiles.
Import ListNotations.

(** From some fuel on, the call returns [c]. *)
Definition answers (X : nat -> res caps) (c : caps) : Prop := exists n, forall m, n <= m -> X m = Ok c.
Definition tail_of (a : method) : list atom := match a with MMatch => tail_match | _ => tail_starts end.

Lemma exec_never_no : forall a opt n v w f r p, exec a opt n v w f r p <> No.
Proof.
  intros a opt n v w f r p. destruct a; cbn [exec].
  - unfold exec_match. destruct (eval _ _ _ _ _ _ _ _); discriminate.
  - unfold exec_starts_with. destruct (eval _ _ _ _ _ _ _ _); discriminate.
  - unfold exec_search. assert (X : forall m p, search_loop opt n v w f r m p <> No); [|apply X].
    clear p. induction m as [|m IH]; intros p; cbn [search_loop]; [discriminate|].
    unfold or_ub. destruct (vend v p); [|discriminate]. destruct (negb b && _).
    + destruct (eval _ _ _ _ _ _ _ _); try discriminate. destruct (vnext v p); [apply IH|discriminate].
    + unfold search_last. destruct (eval _ _ _ _ _ _ _ _); discriminate.
Qed.
Lemma exec_no_ill : forall a opt same n v w f r p, views true same v w -> compiles opt same r (tail_of a) = true ->
  exec a opt n v w f r p <> Ill.
Proof.
  intros a opt same n v w f r p Hv H. destruct a; cbn [exec tail_of] in *.
  - eapply match_no_ill; eassumption.
  - eapply starts_no_ill; eassumption.
  - eapply search_no_ill; eassumption.
Qed.
Lemma answered : forall X, settles X -> (forall n, X n <> No) -> (forall n, X n <> UB) -> (forall n, X n <> Ill) -> exists c, answers X c.
Proof.
  intros X (n & x & Hx & H) H1 H2 H3. pose proof (H n (le_n n)) as E.
  destruct x as [c| | | |].
  - exists c, n. exact H.
  - destruct (H1 n E).
  - destruct (Hx eq_refl).
  - destruct (H2 n E).
  - destruct (H3 n E).
Qed.

(** A result stays the result with more fuel. *)
Lemma exec_mono : forall a opt n m v w f r p c, n <= m -> exec a opt n v w f r p = Ok c -> exec a opt m v w f r p = Ok c.
Proof.
  intros a opt n m v w f r p c L H.
  assert (E : forall q stk x, eval opt n v w q f (fresh r) stk = x -> x <> Fuel -> eval opt m v w q f (fresh r) stk = x).
  { intros q stk x Hx Hf. exact (eval_mono n m opt v w q f (fresh r) stk x L Hx Hf). }
  destruct a; cbn [exec] in *.
  - unfold exec_match in *. destruct (eval opt n _ _ _ _ _ _) eqn:Q; try discriminate; rewrite (E _ _ _ Q) by discriminate; exact H.
  - unfold exec_starts_with in *. destruct (eval opt n _ _ _ _ _ _) eqn:Q; try discriminate; rewrite (E _ _ _ Q) by discriminate; exact H.
  - unfold exec_search in *.
    assert (X : forall k k' q, k <= k' -> search_loop opt n v w f r k q = Ok c -> search_loop opt m v w f r k' q = Ok c).
    { clear p H. induction k as [|k IH]; intros k' q K H; [discriminate|]. destruct k' as [|k']; [lia|].
      cbn [search_loop] in *. unfold or_ub in *. destruct (vend v q); [|discriminate]. destruct (negb b && _).
      - destruct (eval opt n _ _ _ _ _ _) eqn:Q; try discriminate; rewrite (E _ _ _ Q) by discriminate; [exact H|].
        destruct (vnext v q); [|discriminate]. apply (IH k'); [lia|exact H].
      - unfold search_last in *. destruct (eval opt n _ _ _ _ _ _) eqn:Q; try discriminate; rewrite (E _ _ _ Q) by discriminate; exact H. }
    exact (X n m p L H).
Qed.
Lemma exec_answers : forall a opt n v w f r p c, exec a opt n v w f r p = Ok c -> answers (fun n => exec a opt n v w f r p) c.
Proof. intros a opt n v w f r p c H. exists n. intros m Hm. exact (exec_mono _ _ _ _ _ _ _ _ _ _ Hm H). Qed.

Lemma arr_views : forall s, views true true (arr_view s) (arr_view s).
Proof. intros s. split; auto. Qed.
Lemma zt_views : forall mem, views true true (zt_view mem) (zt_view mem).
Proof. intros s. split; auto. Qed.
Lemma u8_views : forall strict mem len, views true false (utf8_view strict mem len) (raw8_view mem).
Proof. intros. split; [auto|discriminate]. Qed.

Theorem array_answers : forall a opt s f r, well_numbered r -> terminating r = true -> compiles opt true r (tail_of a) = true ->
  exists c, answers (fun n => on_array a opt n s f r) c.
Proof.
  intros a opt s f r Hw Ht Hc. apply answered.
  - destruct a; [apply match_settles|apply starts_settles|apply search_settles]; assumption.
  - intros n. apply exec_never_no.
  - intros n. apply on_array_no_ub. assumption.
  - intros n. eapply exec_no_ill; [apply arr_views|assumption].
Qed.
Theorem pointer_answers : forall a opt s rest f r, ~ In 0%Z s -> well_numbered r -> terminating r = true ->
  compiles opt true r (tail_of a) = true -> exists c, answers (fun n => on_pointer a opt n (s ++ 0%Z :: rest) f r) c.
Proof.
  intros a opt s rest f r Hs Hw Ht Hc. destruct (array_answers a opt s f r Hw Ht Hc) as (c & n & H). exists c, n.
  intros m Hm. rewrite pointer_same by assumption. apply H. assumption.
Qed.
Theorem u8_answers : forall a opt bs f r, Forall byte bs -> well_numbered r -> u8_ok false r = true -> terminating r = true ->
  compiles opt false r (tail_of a) = true -> exists c, answers (fun n => on_u8 false a opt n bs f r) c.
Proof.
  intros a opt bs f r Hs Hw Hu Ht Hc. apply answered.
  - destruct (utf8_settles opt false bs (length bs) f r Ht) as (T1 & T2 & T3). destruct a; assumption.
  - intros n. apply exec_never_no.
  - intros n. apply bytes_reads; assumption.
  - intros n. eapply exec_no_ill; [apply u8_views|assumption].
Qed.

(** * The check without the greedy optimisation *)
(** No repetition, capture or atomic group in a lookbehind; every group is one of the result type; every
    backreference is to such a group. *)
Section Structure.
Variable G : list (nat * option (list Z)).
Fixpoint structure (conv same : bool) (r : re) : bool :=
  match r with
  | RSelect l | RSeq l | RAhead _ l => forallb (structure conv same) l
  | RRep _ _ _ l | RAtomic l => conv && forallb (structure conv same) l
  | RCap id l | RNCap id _ l => conv && known_id G id && forallb (structure conv same) l
  | RBack id => same && known_id G id
  | RNBack nm => same && known_name G nm
  | RBehind _ l => forallb (structure false false) l
  | _ => true
  end.
Lemma structure_check : forall r conv same tl, cw false G conv same r tl = structure conv same r.
Proof.
  apply (re_ind2 (fun r => forall conv same tl, cw false G conv same r tl = structure conv same r)
    (fun l => (forall conv same tl, cseq false G conv same l tl = forallb (structure conv same) l) /\
              (forall conv same, ccyc false G conv same l = forallb (structure conv same) l) /\
              (forall conv same tl, cw false G conv same (RSelect l) tl = forallb (structure conv same) l))); try reflexivity.
  - repeat split.
  - intros r l Hr (H1 & H2 & H3). split; [|split]; intros.
    + cbn [cseq forallb]. destruct l as [|y ys]; [rewrite Hr; cbn [forallb]; rewrite andb_true_r; reflexivity|].
      rewrite Hr, H1. reflexivity.
    + cbn [ccyc forallb]. rewrite Hr, H2. reflexivity.
    + cbn [forallb]. rewrite <- (H3 conv same tl), <- (Hr conv same tl). reflexivity.
  - intros l (H1 & H2 & H3) conv same tl. apply H3.
  - intros l (H1 & H2 & H3) conv same tl. apply H1.
  - intros k a b l (H1 & H2 & H3) conv same tl. cbn [structure]. rewrite <- H2.
    change (cw false G conv same (RRep k a b l) tl) with (conv && ccyc false G conv same l && choice_ok false k l tl).
    assert (E : choice_ok false k l tl = true) by (destruct k; reflexivity). rewrite E. apply andb_true_r.
  - intros id l (H1 & _) conv same tl. cbn [structure]. rewrite <- (H1 conv same (ANum id :: tl)). reflexivity.
  - intros id nm l (H1 & _) conv same tl. cbn [structure]. rewrite <- (H1 conv same (ANum id :: tl)). reflexivity.
  - intros neg l (H1 & _) conv same tl. cbn [structure]. rewrite <- (H1 conv same [AEndAhead]). reflexivity.
  - intros neg l (H1 & _) conv same tl. cbn [structure]. rewrite <- (H1 false false [AEndBehind]). reflexivity.
  - intros l (_ & H2 & _) conv same tl. cbn [structure]. rewrite <- H2. reflexivity.
Qed.
End Structure.
Theorem compiles_structure : forall same a r, compiles false same r (tail_of a) = structure (find_captures r) true same r.
Proof.
  intros same a r. unfold compiles. cbn [cws]. rewrite structure_check.
  destruct a; cbn [tail_of tail_match tail_starts cws cw]; apply andb_true_r.
Qed.

(** * Right answers *)
Section Right.
Variables (opt : bool) (s : list Z) (f : flags) (r : re).
Hypothesis s_ok : forallb val_ok s = true.
Hypothesis Hw : well_numbered r.
Hypothesis Ht : terminating r = true.
Hypothesis Hs : msound_check opt f r = true.
Definition right_check (a : method) : bool := mcomplete_check opt f r (tail_of a) && compiles opt true r (tail_of a).

Lemma right_parts : forall a, right_check a = true -> compiles opt true r (tail_of a) = true /\
  mfragment f r = true /\ acheck (modes_in f r) r (ends (tail_of a)) = true /\ commit_check f r (tail_of a) = true /\ mow opt s (modes_in f r) (find_captures r) r (tail_of a).
Proof.
  intros a H. unfold right_check in H. apply andb_true_iff in H as [H Hc]. split; [assumption|].
  unfold mcomplete_check, mpriority_check in H.
  apply andb_true_iff in H as [H H1]. apply andb_true_iff in H as [H H2]. apply andb_true_iff in H as [H3 H4].
  repeat (split; [assumption|]). apply mow_check_sound; assumption.
Qed.
Theorem match_right : right_check MMatch = true ->
  exists c, answers (fun n => ctre_match opt n s f r) c /\ (matched c = true <-> exists lg, mderives s f r 0 (length s) lg) /\
    (matched c = true -> exists lg, mderives s f r 0 (length s) lg /\ captures_are r c lg).
Proof.
  intros H. destruct (right_parts _ H) as (Hc & H1 & H2 & H3 & H4).
  destruct (array_answers MMatch opt s f r Hw Ht Hc) as (c & n & E). exists c. split; [exists n; exact E|].
  specialize (E n (le_n n)). change (ctre_match opt n s f r = Ok c) in E. split.
  - split.
    + intros Hm. destruct (m_match_sound opt s f r s_ok Hs n c E Hm) as (lg & D & _). exists lg. exact D.
    + intros (lg & D). eapply (m_match_complete opt s f r); eassumption.
  - intros Hm. exact (m_match_sound opt s f r s_ok Hs n c E Hm).
Qed.
Theorem starts_right : right_check MStarts = true ->
  exists c, answers (fun n => ctre_starts_with opt n s f r) c /\ (matched c = true <-> exists e lg, mderives s f r 0 e lg) /\
    (matched c = true -> exists e lg, group c 0 = Some (0, e) /\ mderives s f r 0 e lg /\ captures_are r c lg).
Proof.
  intros H. destruct (right_parts _ H) as (Hc & H1 & H2 & H3 & H4).
  destruct (array_answers MStarts opt s f r Hw Ht Hc) as (c & n & E). exists c. split; [exists n; exact E|].
  specialize (E n (le_n n)). change (ctre_starts_with opt n s f r = Ok c) in E.
  assert (S1 : matched c = true -> exists e lg, group c 0 = Some (0, e) /\ mderives s f r 0 e lg /\ captures_are r c lg).
  { intros Hm. pose proof (starts_matched _ _ _ _ _ _ E Hm) as A.
    destruct (m_starts_sound opt s f r s_ok Hs n 0 c (Nat.le_0_l _) A) as (e & lg & D1 & D2 & D3).
    pose proof (attempt_ok _ _ _ _ _ _ _ Hw (Nat.le_0_l _) A) as (E1 & E2 & _).
    exists e, lg. split; [apply c0_group; assumption|]. auto. }
  split; [|exact S1]. split.
  - intros Hm. destruct (S1 Hm) as (e & lg & _ & D & _). exists e, lg. exact D.
  - intros (e & lg & D). eapply (m_starts_complete opt s f r); eassumption.
Qed.
Theorem search_right : right_check MSearch = true -> starts_with_anchor f r = false ->
  exists c, answers (fun n => ctre_search opt n s f r) c /\ (matched c = true <-> exists b e lg, b <= length s /\ mderives s f r b e lg) /\
    (matched c = true -> exists b e lg, group c 0 = Some (b, e) /\ mderives s f r b e lg /\ captures_are r c lg /\
       forall b' e' lg', b' <= length s -> mderives s f r b' e' lg' -> b <= b').
Proof.
  intros H Ha. destruct (right_parts _ H) as (Hc & H1 & H2 & H3 & H4).
  destruct (array_answers MSearch opt s f r Hw Ht Hc) as (c & n & E). exists c. split; [exists n; exact E|].
  specialize (E n (le_n n)). change (ctre_search opt n s f r = Ok c) in E.
  assert (B : matched c = true -> exists b e lg, b <= length s /\ group c 0 = Some (b, e) /\ mderives s f r b e lg /\ captures_are r c lg).
  { intros Hm. destruct (m_search_sound opt s f r s_ok Hs n c Hw E Hm) as (b & e & lg & D1 & D2 & D3).
    destruct (search_span _ _ _ _ _ _ Hw E Hm) as (b' & e' & G & G2). rewrite D1 in G. injection G as <- <-.
    exists b, e, lg. split; [lia|]. auto. }
  split.
  - split.
    + intros Hm. destruct (B Hm) as (b & e & lg & L & _ & D & _). exists b, e, lg. auto.
    + intros (b & e & lg & L & D). eapply (m_search_complete opt s f r); eassumption.
  - intros Hm. destruct (B Hm) as (b & e & lg & L & D1 & D2 & D3). exists b, e, lg. repeat (split; [assumption|]).
    intros b' e' lg' L' D'.
    destruct (m_search_complete opt s f r s_ok H1 n c b' e' lg' Hw H2 H3 H4 Ha E L' D') as (_ & b2 & e2 & lg2 & K1 & K2 & _).
    rewrite D1 in K1. injection K1 as <- <-. assumption.
Qed.
End Right.
