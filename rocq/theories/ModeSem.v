(** Which texts a pattern with mode switches anywhere matches in the library: the mode travels with the
    evaluation. It leaves alternatives, groups and captures with the last switch on the path taken, and
    is restored after a repetition, an atomic group and a lookaround, which evaluate a stack of their
    own (evaluation.hpp lines 558-562 hand the changed flags to the whole remaining stack). *)
From Coq Require Import List ZArith NArith Bool Lia Arith ZifyBool ZifyN ZifyNat.
From Verif Require Import Chars Syntax First View Eval Api Spec CharProofs EvalInv EvalSem SpecProps SpecCut Mode.
Import ListNotations.

(** * Semantics *)
(** The mode in effect, the position and the participations of groups. *)
Definition mstate : Type := modes * state.

Section MSem.
  Variable s : list Z.
  Variable names : list Z -> option nat.

  Fixpoint msem (r : re) (x y : mstate) : Prop :=
    let seq := fix seq (l : list re) (x y : mstate) : Prop :=
      match l with
      | [] => y = x
      | r :: rs => exists z, msem r x z /\ seq rs z y
      end in
    match r with
    | RMode k => y = (switch k (fst x), snd x)
    | RSelect l => (fix alt (l : list re) : Prop :=
                      match l with [] => False | r :: rs => msem r x y \/ alt rs end) l
    | RSeq l => seq l x y
    | RRep _ a b l =>
        exists k : nat, (a <= N.of_nat k)%N /\ (b = 0%N \/ (N.of_nat k <= b)%N)
          /\ fst y = fst x /\ iter (fun st st' => exists m, seq l (fst x, st) (m, st')) k (snd x) (snd y)
    | RCap id l | RNCap id _ l =>
        exists m p lg, seq l x (m, (p, lg)) /\ y = (m, (p, (id, (fst (snd x), p)) :: lg))
    | RAhead false l =>
        exists m p lg, seq l x (m, (p, lg)) /\ y = (fst x, (fst (snd x), lg))
    | RAhead true l => y = x /\ forall z, ~ seq l x z
    | RAtomic l => fst y = fst x /\ exists m, seq l x (m, snd y)
    | _ => fst y = fst x /\ sem s (fst (fst x)) (snd (fst x)) names r (snd x) (snd y)
    end.
  Fixpoint msems (l : list re) (x y : mstate) : Prop :=
    match l with
    | [] => y = x
    | r :: rs => exists z, msem r x z /\ msems rs z y
    end.

  (** One iteration of a repetition that was entered in mode [m]. *)
  Definition mround (l : list re) (m : modes) (st st' : state) : Prop := exists m', msems l (m, st) (m', st').

  Lemma msem_seq : forall l x y, msem (RSeq l) x y = msems l x y.
  Proof. reflexivity. Qed.
  Lemma msem_rep : forall k a b l x y, msem (RRep k a b l) x y =
    (exists j : nat, (a <= N.of_nat j)%N /\ (b = 0%N \/ (N.of_nat j <= b)%N)
          /\ fst y = fst x /\ iter (mround l (fst x)) j (snd x) (snd y)).
  Proof. reflexivity. Qed.
  Lemma msem_cap : forall id l x y, msem (RCap id l) x y =
    (exists m p lg, msems l x (m, (p, lg)) /\ y = (m, (p, (id, (fst (snd x), p)) :: lg))).
  Proof. reflexivity. Qed.
  Lemma msem_ncap : forall id nm l x y, msem (RNCap id nm l) x y =
    (exists m p lg, msems l x (m, (p, lg)) /\ y = (m, (p, (id, (fst (snd x), p)) :: lg))).
  Proof. reflexivity. Qed.
  Lemma msem_ahead : forall neg l x y, msem (RAhead neg l) x y =
    if neg then y = x /\ forall z, ~ msems l x z
    else exists m p lg, msems l x (m, (p, lg)) /\ y = (fst x, (fst (snd x), lg)).
  Proof. intros []; reflexivity. Qed.
  Lemma msem_atomic : forall l x y, msem (RAtomic l) x y = (fst y = fst x /\ mround l (fst x) (snd x) (snd y)).
  Proof. intros l [m st] y. reflexivity. Qed.
  Lemma msem_select : forall l x y, msem (RSelect l) x y <-> exists r, In r l /\ msem r x y.
  Proof.
    induction l as [|r l IH]; intros x y.
    - split; [intros []|intros (r & [] & _)].
    - change (msem (RSelect (r :: l)) x y) with (msem r x y \/ msem (RSelect l) x y). rewrite IH. split.
      + intros [H|(r' & H1 & H2)]; [exists r | exists r']; cbn; auto.
      + intros (r' & [->|H1] & H2); [left; assumption | right; exists r'; auto].
  Qed.

  (** * Patterns without switches *)
  Fixpoint no_switch (r : re) : bool :=
    match r with
    | RMode _ => false
    | RSelect l | RSeq l | RRep _ _ _ l | RCap _ l | RNCap _ _ l | RAhead _ l | RAtomic l => forallb no_switch l
    | _ => true
    end.

  Notation plain_of m r := (sem s (fst m) (snd m) names r).
  Notation plains_of m l := (sems s (fst m) (snd m) names l).

  Lemma iter_ext : forall (R Q : state -> state -> Prop), (forall a b, R a b <-> Q a b) ->
    forall k a b, iter R k a b <-> iter Q k a b.
  Proof.
    intros R Q H k. induction k as [|k IH]; intros a b; [reflexivity|]. cbn [iter]. split; intros (m & H1 & H2);
      exists m; (split; [apply H; assumption | apply IH; assumption]).
  Qed.

  (** There the mode does not change and the meaning is that of Spec.v. *)
  Lemma msem_plain : forall r, no_switch r = true -> forall m st m' st',
    msem r (m, st) (m', st') <-> m' = m /\ plain_of m r st st'.
  Proof.
    induction r as
      [ | r l IHr IHl | k | | t | l IH | l IH | | | kd a b l IH | id l IH | id nm l IH | id | nm
      | neg l IH | neg l IH | l IH | k | k | a | md ]
      using re_ind2 with (Q := fun l => forallb no_switch l = true ->
        (forall m st m' st', msems l (m, st) (m', st') <-> m' = m /\ plains_of m l st st')
        /\ (forall m st m' st', msem (RSelect l) (m, st) (m', st') <-> m' = m /\ plain_of m (RSelect l) st st'));
      try (intros Hr m st m' st'; cbn; tauto).
    - intros _. split; intros m st m' st'.
      + cbn. split; [intros [= -> ->]; auto | intros [-> ->]; reflexivity].
      + cbn. tauto.
    - cbn [forallb]. intros H. apply andb_true_iff in H as [Hr Hl]. destruct (IHl Hl) as [I1 I2].
      specialize (IHr Hr). split; intros m st m' st'.
      + cbn [msems sems]. split.
        * intros ([m1 st1] & H1 & H2). apply IHr in H1 as [-> H1]. apply I1 in H2 as [-> H2].
          split; [reflexivity|]. exists st1. auto.
        * intros [-> (st1 & H1 & H2)]. exists (m, st1). split; [apply IHr | apply I1]; auto.
      + change (msem r (m, st) (m', st') \/ msem (RSelect l) (m, st) (m', st') <->
                m' = m /\ (plain_of m r st st' \/ plain_of m (RSelect l) st st')).
        rewrite IHr, I2. tauto.
    - intros H. apply (IH H).
    - intros H m st m' st'. destruct (IH H) as [I1 _]. apply I1.
    - (* RRep *)
      intros H m st m' st'. destruct (IH H) as [I1 _]. rewrite msem_rep. cbn [fst snd].
      assert (E : forall a b, mround l m a b <-> plains_of m l a b).
      { intros x y. unfold mround. split; [intros (m1 & H1); apply I1 in H1; tauto|].
        intros H1. exists m. apply I1. auto. }
      rewrite sem_rep. split.
      + intros (k & H1 & H2 & H3 & H4). split; [assumption|]. exists k. split; [assumption|]. split; [assumption|].
        eapply iter_ext; [|exact H4]. intros x y. symmetry. apply E.
      + intros (H3 & k & H1 & H2 & H4). exists k. split; [assumption|]. split; [assumption|]. split; [assumption|].
        eapply iter_ext; [|exact H4]. apply E.
    - (* RCap *)
      intros H m st m' st'. destruct (IH H) as [I1 _]. rewrite msem_cap. cbn [fst snd]. split.
      + intros (m1 & p & lg & H1 & H2). apply I1 in H1 as [-> H1]. injection H2 as -> ->. split; [reflexivity|].
        exists (p, lg). auto.
      + intros [-> ([p lg] & H1 & ->)]. exists m, p, lg. split; [apply I1; auto|reflexivity].
    - (* RNCap *)
      intros H m st m' st'. destruct (IH H) as [I1 _]. rewrite msem_ncap. cbn [fst snd]. split.
      + intros (m1 & p & lg & H1 & H2). apply I1 in H1 as [-> H1]. injection H2 as -> ->. split; [reflexivity|].
        exists (p, lg). auto.
      + intros [-> ([p lg] & H1 & ->)]. exists m, p, lg. split; [apply I1; auto|reflexivity].
    - (* RAhead *)
      intros H m st m' st'. destruct (IH H) as [I1 _]. rewrite msem_ahead, sem_ahead. cbn [fst snd]. destruct neg.
      + split.
        * intros [H1 H2]. injection H1 as -> ->. split; [reflexivity|]. split; [reflexivity|].
          intros x Hx. apply (H2 (m, x)). apply I1. auto.
        * intros (-> & -> & H2). split; [reflexivity|]. intros [m1 x] Hx. apply I1 in Hx as [_ Hx]. exact (H2 x Hx).
      + split.
        * intros (m1 & p & lg & H1 & H2). apply I1 in H1 as [-> H1]. injection H2 as -> ->. split; [reflexivity|].
          exists (p, lg). auto.
        * intros [-> ([p lg] & H1 & ->)]. exists m, p, lg. split; [apply I1; auto|reflexivity].
    - (* RAtomic *)
      intros H m st m' st'. destruct (IH H) as [I1 _]. rewrite msem_atomic, sem_atomic. cbn [fst snd]. split.
      + intros [-> (m1 & H1)]. apply I1 in H1. tauto.
      + intros [-> H1]. split; [reflexivity|]. exists m. apply I1. auto.
    - intros Hr; discriminate.
  Qed.
  Lemma msems_plain : forall l, forallb no_switch l = true -> forall m st m' st',
    msems l (m, st) (m', st') <-> m' = m /\ plains_of m l st st'.
  Proof. intros l H m st m' st'. rewrite <- msem_seq, msem_plain by exact H. rewrite sem_seq. reflexivity. Qed.
End MSem.
