(** Textual scope of mode switches for whole patterns, and the patterns on which the library's way of
    passing the mode along agrees with it. *)
From Coq Require Import List ZArith NArith Bool Lia Arith ZifyBool ZifyN ZifyNat.
From Verif Require Import Chars Syntax First View Eval Api Spec CharProofs EvalMono EvalInv EvalSem SpecProps
  EvalRefine SpecCut ApiProofs EvalTop OptProofs Checks EvalSound Match Mode ModeSem ModeSound.
Import ListNotations.

(** * Textual scope *)
Definition is_mode (r : re) : bool := match r with RMode _ => true | _ => false end.

Section Scope.
  Variable s : list Z.
  Variable names : list Z -> option nat.

  (** A switch acts on the items after it in its sequence and on the alternatives after its own, up to
      the end of the enclosing group, repetition or lookaround (perlre, pcre2pattern). *)
  Fixpoint tsem (m : modes) (r : re) (st st' : state) : Prop :=
    let seq := fix seq (m : modes) (l : list re) (st st' : state) : Prop :=
      match l with
      | [] => st' = st
      | RMode k :: rs => seq (switch k m) rs st st'
      | r :: rs => exists x, tsem m r st x /\ seq m rs x st'
      end in
    match r with
    | RMode _ => st' = st
    | RSelect l => (fix alt (m : modes) (l : list re) : Prop :=
        match l with [] => False | r :: rs => tsem m r st st' \/ alt (mode_end m r) rs end) m l
    | RSeq l | RAtomic l => seq m l st st'
    | RRep _ a b l =>
        exists k : nat, (a <= N.of_nat k)%N /\ (b = 0%N \/ (N.of_nat k <= b)%N) /\ iter (seq m l) k st st'
    | RCap id l | RNCap id _ l => exists x, seq m l st x /\ st' = (fst x, (id, (fst st, fst x)) :: snd x)
    | RAhead false l => exists x, seq m l st x /\ st' = (fst st, snd x)
    | RAhead true l => st' = st /\ forall x, ~ seq m l st x
    | _ => sem s (fst m) (snd m) names r st st'
    end.
  Fixpoint tsems (m : modes) (l : list re) (st st' : state) : Prop :=
    match l with
    | [] => st' = st
    | RMode k :: rs => tsems (switch k m) rs st st'
    | r :: rs => exists x, tsem m r st x /\ tsems m rs x st'
    end.
  Fixpoint talt (m : modes) (l : list re) (st st' : state) : Prop :=
    match l with [] => False | r :: rs => tsem m r st st' \/ talt (mode_end m r) rs st st' end.

  Lemma tsem_seq : forall m l st st', tsem m (RSeq l) st st' = tsems m l st st'.
  Proof. reflexivity. Qed.
  Lemma tsem_select : forall m l st st', tsem m (RSelect l) st st' = talt m l st st'.
  Proof.
    intros m l st st'. revert m. induction l as [|r l IH]; intros m; [reflexivity|]. cbn [talt]. rewrite <- IH. reflexivity.
  Qed.
  Lemma tsems_cons : forall m r rs st st', is_mode r = false ->
    tsems m (r :: rs) st st' = exists x, tsem m r st x /\ tsems m rs x st'.
  Proof. intros m [] rs st st' H; try reflexivity. discriminate. Qed.
End Scope.

(** * Where the two agree *)
(** The modes in which [r] can be left when it is entered in mode [m]. *)
Fixpoint exits (m : modes) (r : re) : list modes :=
  let seq := fix seq (m : modes) (l : list re) : list modes :=
    match l with [] => [m] | r :: rs => flat_map (fun x => seq x rs) (exits m r) end in
  match r with
  | RMode k => [switch k m]
  | RSelect l => (fix alt (l : list re) : list modes :=
                    match l with [] => [] | r :: rs => exits m r ++ alt rs end) l
  | RSeq l | RCap _ l | RNCap _ _ l => seq m l
  | _ => [m]
  end.
Definition stays (m : modes) (r : re) : bool := forallb (mode_eqb m) (exits m r).

(** A switch is not followed by anything outside of its group, and only the last alternative leaves its
    sequence in another mode. *)
Fixpoint tidy (m : modes) (r : re) : bool :=
  let seq := fix seq (m : modes) (l : list re) : bool :=
    match l with
    | [] => true
    | RMode k :: rs => seq (switch k m) rs
    | [r] => tidy m r
    | r :: rs => tidy m r && stays m r && seq m rs
    end in
  match r with
  | RSelect l => (fix alt (l : list re) : bool :=
      match l with
      | [] => true
      | [r] => tidy m r
      | r :: rs => tidy m r && mode_eqb m (mode_end m r) && alt rs
      end) l
  | RSeq l | RCap _ l | RNCap _ _ l | RRep _ _ _ l | RAtomic l | RAhead _ l => seq m l
  | _ => true
  end.

Fixpoint exit_seq (m : modes) (l : list re) : list modes :=
  match l with [] => [m] | r :: rs => flat_map (fun x => exit_seq x rs) (exits m r) end.
Fixpoint tidys (m : modes) (l : list re) : bool :=
  match l with
  | [] => true
  | RMode k :: rs => tidys (switch k m) rs
  | [r] => tidy m r
  | r :: rs => tidy m r && stays m r && tidys m rs
  end.
Definition tidy_alt (m : modes) : list re -> bool :=
  fix alt (l : list re) : bool :=
    match l with
    | [] => true
    | [r] => tidy m r
    | r :: rs => tidy m r && mode_eqb m (mode_end m r) && alt rs
    end.

Section Agree.
  Variable s : list Z.
  Variable names : list Z -> option nat.
  Notation msem := (msem s names).
  Notation msems := (msems s names).
  Notation tsem := (tsem s names).
  Notation tsems := (tsems s names).
  Notation talt := (talt s names).

  Lemma in_exits : forall r m st m' st', msem r (m, st) (m', st') -> In m' (exits m r).
  Proof.
    induction r as
      [ | r l IHr IHl | k | | t | l IH | l IH | | | kd a b l IH | id l IH | id nm l IH | id | nm
      | neg l IH | neg l IH | l IH | k | k | a | md ]
      using re_ind2 with (Q := fun l =>
        (forall m st m' st', msems l (m, st) (m', st') -> In m' (exit_seq m l)) /\
        (forall m st m' st', msem (RSelect l) (m, st) (m', st') -> In m' (exits m (RSelect l))));
      try (intros m st m' st' H; cbn in H; left; intuition congruence).
    - split; intros m st m' st' H; [|contradiction]. cbn in H. left. congruence.
    - destruct IHl as [I1 I2]. split; intros m st m' st' H.
      + destruct H as ([m1 st1] & H1 & H2). cbn [exit_seq]. apply in_flat_map. exists m1. split; eauto.
      + cbn [exits]. apply in_or_app. destruct H as [H|H]; [left; eauto|]. right. exact (I2 _ _ _ _ H).
    - apply IH.
    - intros m st m' st' H. apply (proj1 IH) with st st'. exact H.
    - intros m st m' st' H. rewrite msem_rep in H. destruct H as (j & _ & _ & H & _). left. symmetry. exact H.
    - intros m st m' st' H. rewrite msem_cap in H. destruct H as (m1 & p & lg & H & E). injection E as -> ->.
      eapply (proj1 IH). exact H.
    - intros m st m' st' H. rewrite msem_ncap in H. destruct H as (m1 & p & lg & H & E). injection E as -> ->.
      eapply (proj1 IH). exact H.
    - intros m st m' st' H. rewrite msem_ahead in H. destruct neg.
      + destruct H as [H _]. left. congruence.
      + destruct H as (m1 & p & lg & _ & E). left. cbn in E. congruence.
  Qed.
  Lemma stay : forall r m st m' st', stays m r = true -> msem r (m, st) (m', st') -> m' = m.
  Proof.
    intros r m st m' st' Hs H. apply in_exits in H. unfold stays in Hs. rewrite forallb_forall in Hs.
    specialize (Hs _ H). apply mode_eqb_spec in Hs. congruence.
  Qed.
  Lemma tidys_cons : forall m r x xs, is_mode r = false ->
    tidys m (r :: x :: xs) = tidy m r && stays m r && tidys m (x :: xs).
  Proof. intros m [] x xs H; (reflexivity || discriminate). Qed.
  Lemma tidys_one : forall m r, is_mode r = false -> tidys m [r] = tidy m r.
  Proof. intros m [] H; (reflexivity || discriminate). Qed.
  Lemma tidy_of : forall m r, tidy m r = match r with
    | RSelect l => tidy_alt m l
    | RSeq l | RCap _ l | RNCap _ _ l | RRep _ _ _ l | RAtomic l | RAhead _ l => tidys m l
    | _ => true end.
  Proof. intros m []; reflexivity. Qed.

  Lemma scope_agrees : forall r m, tidy m r = true -> forall st st',
    tsem m r st st' <-> exists m', msem r (m, st) (m', st').
  Proof.
    induction r as
      [ | r l IHr IHl | k | | t | l IH | l IH | | | kd a b l IH | id l IH | id nm l IH | id | nm
      | neg l IH | neg l IH | l IH | k | k | a | md ]
      using re_ind2 with (Q := fun l =>
        (forall m, tidys m l = true -> forall st st', tsems m l st st' <-> exists m', msems l (m, st) (m', st')) /\
        (forall m, tidy_alt m l = true -> forall st st', talt m l st st' <-> exists m', msem (RSelect l) (m, st) (m', st')));
      try (intros m Hr st st'; cbn; split; [intros H; exists m; auto | intros (m' & _ & H); exact H]).
    - split; intros m _ st st'; cbn.
      + split; [intros ->; exists m; reflexivity | intros (m' & [= _ ->]); reflexivity].
      + split; [intros [] | intros (m' & [])].
    - destruct IHl as [I1 I2]. split; intros m Ht st st'.
      + destruct (is_mode r) eqn:Er.
        * destruct r; try discriminate. cbn [ModeScope.tsems tidys] in *. rewrite (I1 _ Ht). cbn [ModeSem.msems ModeSem.msem fst snd].
          split.
          -- intros (m' & H). exists m', (switch m0 m, st). auto.
          -- intros (m' & z & -> & H). exists m'. exact H.
        * rewrite tsems_cons by assumption.
          assert (T : tidy m r = true /\ (l = [] \/ (stays m r = true /\ tidys m l = true))).
          { destruct l as [|x l]; [rewrite tidys_one in Ht; auto|]. rewrite tidys_cons in Ht by assumption.
            apply andb_true_iff in Ht as [Ht T3]. apply andb_true_iff in Ht as [T1 T2]. auto. }
          destruct T as [T1 T2]. cbn [ModeSem.msems]. split.
          -- intros (x & H1 & H2). apply (IHr m T1) in H1 as (m1 & H1). destruct T2 as [->|[T2 T3]].
             ++ cbn in H2. subst x. exists m1, (m1, st'). split; [assumption|reflexivity].
             ++ pose proof (stay r m st m1 x T2 H1) as ->. apply (I1 m T3) in H2 as (m2 & H2).
                exists m2, (m, x). auto.
          -- intros (m' & [m1 x] & H1 & H2). exists x. split; [apply (IHr m T1); exists m1; assumption|].
             destruct T2 as [->|[T2 T3]].
             ++ cbn in H2. cbn. congruence.
             ++ pose proof (stay r m st m1 x T2 H1) as ->. apply (I1 m T3). exists m'. assumption.
      + assert (T : tidy m r = true /\ (l = [] \/ (m = mode_end m r /\ tidy_alt m l = true))).
        { destruct l as [|x l]; [auto|]. change (tidy m r && mode_eqb m (mode_end m r) && tidy_alt m (x :: l) = true) in Ht.
          apply andb_true_iff in Ht as [Ht T3].
          apply andb_true_iff in Ht as [T1 T2]. apply mode_eqb_spec in T2. auto. }
        destruct T as [T1 T2]. cbn [ModeScope.talt].
        assert (E : (exists m', msem (RSelect (r :: l)) (m, st) (m', st')) <->
                    (exists m', msem r (m, st) (m', st')) \/ (exists m', msem (RSelect l) (m, st) (m', st'))).
        { split; [intros (m' & [H|H]); eauto|]. intros [(m' & H)|(m' & H)]; exists m'; [left|right]; assumption. }
        rewrite E, (IHr m T1). destruct T2 as [->|[T2 T3]].
        * cbn [ModeScope.talt]. split; [tauto|]. intros [H|(m' & [])]. auto.
        * rewrite <- T2, (I2 m T3). reflexivity.
    - intros m Ht. rewrite tidy_of in Ht. intros st st'. rewrite tsem_select. apply (proj2 IH m Ht).
    - intros m Ht. rewrite tidy_of in Ht. intros st st'. rewrite tsem_seq. apply (proj1 IH m Ht).
    - (* RRep *)
      intros m Ht st st'. rewrite tidy_of in Ht. destruct IH as [I1 _].
      change (tsem m (RRep kd a b l) st st') with
        (exists k : nat, (a <= N.of_nat k)%N /\ (b = 0%N \/ (N.of_nat k <= b)%N) /\ iter (tsems m l) k st st').
      split.
      + intros (k & H1 & H2 & H3). exists m. rewrite msem_rep. exists k. cbn [fst snd]. split; [assumption|].
        split; [assumption|]. split; [reflexivity|]. eapply iter_ext; [|exact H3].
        intros x y. unfold mround. symmetry. apply I1. assumption.
      + intros (m' & H). rewrite msem_rep in H. destruct H as (k & H1 & H2 & _ & H3). exists k. cbn [fst snd] in H3.
        split; [assumption|]. split; [assumption|]. eapply iter_ext; [|exact H3].
        intros x y. unfold mround. apply I1. assumption.
    - (* RCap *)
      intros m Ht st st'. rewrite tidy_of in Ht. destruct IH as [I1 _].
      change (tsem m (RCap id l) st st') with
        (exists x, tsems m l st x /\ st' = (fst x, (id, (fst st, fst x)) :: snd x)). split.
      + intros ([p lg] & H1 & ->). apply (I1 m Ht) in H1 as (m1 & H1). exists m1. rewrite msem_cap. exists m1, p, lg. auto.
      + intros (m' & H). rewrite msem_cap in H. destruct H as (m1 & p & lg & H1 & E). injection E as -> ->.
        exists (p, lg). split; [apply (I1 m Ht); exists m1; assumption|reflexivity].
    - (* RNCap *)
      intros m Ht st st'. rewrite tidy_of in Ht. destruct IH as [I1 _].
      change (tsem m (RNCap id nm l) st st') with
        (exists x, tsems m l st x /\ st' = (fst x, (id, (fst st, fst x)) :: snd x)). split.
      + intros ([p lg] & H1 & ->). apply (I1 m Ht) in H1 as (m1 & H1). exists m1. rewrite msem_ncap. exists m1, p, lg. auto.
      + intros (m' & H). rewrite msem_ncap in H. destruct H as (m1 & p & lg & H1 & E). injection E as -> ->.
        exists (p, lg). split; [apply (I1 m Ht); exists m1; assumption|reflexivity].
    - (* RAhead *)
      intros m Ht st st'. rewrite tidy_of in Ht. destruct IH as [I1 _].
      change (tsem m (RAhead neg l) st st') with
        (if neg then st' = st /\ forall x, ~ tsems m l st x else exists x, tsems m l st x /\ st' = (fst st, snd x)).
      destruct neg; split.
      + intros [-> H]. exists m. rewrite msem_ahead. split; [reflexivity|]. intros [m1 x] Hx.
        apply (H x). apply (I1 m Ht). exists m1. assumption.
      + intros (m' & H). rewrite msem_ahead in H. destruct H as [E H]. injection E as -> ->. split; [reflexivity|].
        intros x Hx. apply (I1 m Ht) in Hx as (m1 & Hx). exact (H _ Hx).
      + intros ([p lg] & H1 & ->). apply (I1 m Ht) in H1 as (m1 & H1). exists m. rewrite msem_ahead.
        exists m1, p, lg. auto.
      + intros (m' & H). rewrite msem_ahead in H. destruct H as (m1 & p & lg & H1 & E). injection E as -> ->.
        exists (p, lg). split; [apply (I1 m Ht); exists m1; assumption|reflexivity].
    - (* RAtomic *)
      intros m Ht st st'. rewrite tidy_of in Ht. destruct IH as [I1 _].
      change (tsem m (RAtomic l) st st') with (tsems m l st st'). rewrite (I1 m Ht). split.
      + intros (m1 & H). exists m. rewrite msem_atomic. split; [reflexivity|]. exists m1. assumption.
      + intros (m' & H). rewrite msem_atomic in H. destruct H as [_ (m1 & H)]. exists m1. assumption.
    - intros m _ st st'. cbn. split; [intros ->; exists (switch md m); reflexivity | intros (m' & [= _ ->]); reflexivity].
  Qed.
End Agree.
