(** The outcomes of a pattern with mode switches anywhere, in order of preference: [menum] is to
    [ModeSem.msem] what [Spec.enum] is to [Spec.sem]. *)
From Coq Require Import List ZArith NArith Bool Lia Arith ZifyBool ZifyN ZifyNat.
From Verif Require Import Chars Syntax First View Eval Api Spec CharProofs EvalInv EvalSem SpecProps SpecCut Mode ModeSem.
Import ListNotations.

Section MEnum.
  Variable s : list Z.
  Variable names : list Z -> option nat.
  Variable cut : bool.

  (** As in ModeSem.v: alternatives, sequences and groups hand the mode on, repetitions, lookarounds and
      atomic groups restore it. *)
  Fixpoint menum (r : re) (x : mstate) : list mstate :=
    let seq := fix seq (l : list re) (x : mstate) : list mstate :=
      match l with [] => [x] | r :: rs => flat_map (seq rs) (menum r x) end in
    match r with
    | RMode k => [(switch k (fst x), snd x)]
    | RSelect l => (fix alt (l : list re) : list mstate :=
                      match l with [] => [] | r :: rs => menum r x ++ alt rs end) l
    | RSeq l => seq l x
    | RRep k a b l =>
        map (pair (fst x)) (iterate s cut (fun st => map snd (seq l (fst x, st))) k a b (snd x))
    | RCap id l | RNCap id _ l =>
        map (fun y => (fst y, (fst (snd y), (id, (fst (snd x), fst (snd y))) :: snd (snd y)))) (seq l x)
    | RAhead false l => match seq l x with [] => [] | y :: _ => [(fst x, (fst (snd x), snd (snd y)))] end
    | RAhead true l => match seq l x with [] => [x] | _ :: _ => [] end
    | RAtomic l => map (pair (fst x)) (firstn 1 (progress cut (snd x) (map snd (seq l x))))
    | _ => map (pair (fst x)) (enum s (fst (fst x)) (snd (fst x)) names cut r (snd x))
    end.
  Fixpoint menums (l : list re) (x : mstate) : list mstate :=
    match l with [] => [x] | r :: rs => flat_map (menums rs) (menum r x) end.
  (** The outcomes of one iteration of a repetition that was entered in mode [m]. *)
  Definition mbody (l : list re) (m : modes) (st : state) : list state := map snd (menums l (m, st)).

  Lemma menum_seq : forall l x, menum (RSeq l) x = menums l x.
  Proof. reflexivity. Qed.
  Lemma menums_cons : forall r l x, menums (r :: l) x = flat_map (menums l) (menum r x).
  Proof. reflexivity. Qed.
  Lemma menum_select_cons : forall r l x, menum (RSelect (r :: l)) x = menum r x ++ menum (RSelect l) x.
  Proof. reflexivity. Qed.
  Lemma menum_rep : forall k a b l x, menum (RRep k a b l) x =
    map (pair (fst x)) (iterate s cut (mbody l (fst x)) k a b (snd x)).
  Proof. reflexivity. Qed.
  Lemma menum_cap : forall id l x, menum (RCap id l) x =
    map (fun y => (fst y, (fst (snd y), (id, (fst (snd x), fst (snd y))) :: snd (snd y)))) (menums l x).
  Proof. reflexivity. Qed.
  Lemma menum_ncap : forall id nm l x, menum (RNCap id nm l) x =
    map (fun y => (fst y, (fst (snd y), (id, (fst (snd x), fst (snd y))) :: snd (snd y)))) (menums l x).
  Proof. reflexivity. Qed.
  Lemma menum_ahead : forall neg l x, menum (RAhead neg l) x =
    if neg then match menums l x with [] => [x] | _ :: _ => [] end
    else match menums l x with [] => [] | y :: _ => [(fst x, (fst (snd x), snd (snd y)))] end.
  Proof. intros []; reflexivity. Qed.
  Lemma menum_atomic : forall l x, menum (RAtomic l) x =
    map (pair (fst x)) (firstn 1 (progress cut (snd x) (mbody l (fst x) (snd x)))).
  Proof. intros l [m st]. reflexivity. Qed.

  Notation forth := (forth s).

  Lemma menum_forth : forall r x y, In y (menum r x) -> forth (snd x) (snd y).
  Proof.
    induction r as
      [ | r l IHr IHl | k | | t | l IH | l IH | | | kd a b l IH | id l IH | id nm l IH | id | nm
      | neg l IH | neg l IH | l IH | k | k | a | md ]
      using re_ind2 with (Q := fun l =>
        (forall x y, In y (menums l x) -> forth (snd x) (snd y))
        /\ (forall x y, In y (menum (RSelect l) x) -> forth (snd x) (snd y)));
      try (intros x y H; apply in_map_iff in H as (st & <- & H); exact (enum_forth _ _ _ _ _ _ _ _ H)).
    - split; [intros x y [<-|[]]; apply forth_refl | intros x y []].
    - destruct IHl as [I1 I2]. split; intros x y H.
      + rewrite menums_cons in H. apply in_flat_map in H as (z & H1 & H2).
        eapply forth_trans; [exact names | apply IHr; exact H1 | apply I1; exact H2].
      + rewrite menum_select_cons in H. apply in_app_iff in H as [H|H]; auto.
    - apply (proj2 IH).
    - apply (proj1 IH).
    - intros x y H. rewrite menum_rep in H. apply in_map_iff in H as (st & <- & H). cbn [snd].
      eapply (iterate_R s names cut forth (forth_refl s) (forth_trans s names)); [|exact H].
      intros st1 st2 H1. apply in_map_iff in H1 as (z & <- & H1). exact (proj1 IH _ _ H1).
    - intros x y H. rewrite menum_cap in H. apply in_map_iff in H as (z & <- & H).
      apply (proj1 IH) in H. intros Hs. destruct (H Hs) as [[H1 H2] H3]. cbn [fst snd]. split; [|exact H3].
      split; [exact H1|]. constructor; [exact (conj H3 H1) | exact H2].
    - intros x y H. rewrite menum_ncap in H. apply in_map_iff in H as (z & <- & H).
      apply (proj1 IH) in H. intros Hs. destruct (H Hs) as [[H1 H2] H3]. cbn [fst snd]. split; [|exact H3].
      split; [exact H1|]. constructor; [exact (conj H3 H1) | exact H2].
    - intros x y H. rewrite menum_ahead in H. destruct neg.
      + destruct (menums l x); [|contradiction]. destruct H as [<-|[]]. apply forth_refl.
      + destruct (menums l x) as [|z zs] eqn:E; [contradiction|]. destruct H as [<-|[]].
        assert (Hz : In z (menums l x)) by (rewrite E; left; reflexivity).
        apply (proj1 IH) in Hz. intros Hs. destruct (Hz Hs) as [[H1 H2] H3]. cbn [fst snd]. split; [|lia].
        split; [apply Hs | exact H2].
    - intros x y H. rewrite menum_atomic in H. apply in_map_iff in H as (st & <- & H). cbn [snd].
      apply firstn1_in, (progress_in s names) in H. apply in_map_iff in H as (z & <- & H).
      destruct x as [m st]. exact (proj1 IH _ _ H).
    - intros x y [<-|[]]. apply forth_refl.
  Qed.
  Lemma menums_forth : forall l x y, In y (menums l x) -> forth (snd x) (snd y).
  Proof. intros l. exact (menum_forth (RSeq l)). Qed.
  Lemma mbody_forth : forall l m st st', In st' (mbody l m st) -> forth st st'.
  Proof. intros l m st st' H. apply in_map_iff in H as (y & <- & H). exact (menums_forth l _ _ H). Qed.

  (** * Patterns without switches *)
  Lemma map_pair_snd : forall (m : modes) (l : list state), map snd (map (pair m) l) = l.
  Proof. intros m l. rewrite map_map. apply map_id. Qed.

  Lemma mandatory_ext : forall b1 b2, (forall st, b1 st = b2 st) -> forall k st,
    mandatory cut b1 k st = mandatory cut b2 k st.
  Proof.
    intros b1 b2 H. induction k as [|k IH]; intros st; [reflexivity|]. cbn [mandatory]. rewrite H.
    apply flat_map_ext. exact IH.
  Qed.
  Lemma greedy_ext : forall b1 b2, (forall st, b1 st = b2 st) -> forall k b i st,
    more_greedy cut b1 k b i st = more_greedy cut b2 k b i st.
  Proof.
    intros b1 b2 H. induction k as [|k IH]; intros b i st; [reflexivity|]. cbn [more_greedy]. rewrite H. f_equal.
    destruct (N.eqb b 0 || N.ltb i b)%bool; [|reflexivity]. apply flat_map_ext. intros x. apply IH.
  Qed.
  Lemma lazy_ext : forall b1 b2, (forall st, b1 st = b2 st) -> forall k b i st,
    more_lazy cut b1 k b i st = more_lazy cut b2 k b i st.
  Proof.
    intros b1 b2 H. induction k as [|k IH]; intros b i st; [reflexivity|]. cbn [more_lazy]. rewrite H. f_equal.
    destruct (N.eqb b 0 || N.ltb i b)%bool; [|reflexivity]. apply flat_map_ext. intros x. apply IH.
  Qed.
  Lemma iterate_ext : forall b1 b2, (forall st, b1 st = b2 st) -> forall k a b st,
    iterate s cut b1 k a b st = iterate s cut b2 k a b st.
  Proof.
    intros b1 b2 H k a b st. unfold iterate. destruct (negb (N.eqb b 0) && N.ltb b a)%bool; [reflexivity|].
    rewrite (mandatory_ext b1 b2 H).
    destruct k; [| |f_equal]; apply flat_map_ext; intros x; (apply greedy_ext || apply lazy_ext); exact H.
  Qed.

  Lemma menum_plain : forall r, no_switch r = true -> forall m st,
    menum r (m, st) = map (pair m) (enum s (fst m) (snd m) names cut r st).
  Proof.
    induction r as
      [ | r l IHr IHl | k | | t | l IH | l IH | | | kd a b l IH | id l IH | id nm l IH | id | nm
      | neg l IH | neg l IH | l IH | k | k | a | md ]
      using re_ind2 with (Q := fun l => forallb no_switch l = true ->
        (forall m st, menums l (m, st) = map (pair m) (enums s (fst m) (snd m) names cut l st))
        /\ (forall m st, menum (RSelect l) (m, st) = map (pair m) (enum s (fst m) (snd m) names cut (RSelect l) st)));
      try (intros _ m st; reflexivity).
    - intros _. split; reflexivity.
    - cbn [forallb]. intros H. apply andb_true_iff in H as [Hr Hl]. destruct (IHl Hl) as [I1 I2].
      specialize (IHr Hr). split; intros m st.
      + rewrite menums_cons, enums_cons, IHr.
        induction (enum s (fst m) (snd m) names cut r st) as [|y ys IH]; [reflexivity|].
        cbn [map flat_map]. rewrite map_app, I1, IH. reflexivity.
      + rewrite menum_select_cons, enum_select_cons, map_app, IHr, I2. reflexivity.
    - intros H. apply (IH H).
    - intros H. apply (IH H).
    - intros H m st. destruct (IH H) as [I1 _]. rewrite menum_rep, enum_rep. cbn [fst snd]. f_equal.
      apply iterate_ext. intros st'. unfold mbody. rewrite I1. apply map_pair_snd.
    - intros H m st. destruct (IH H) as [I1 _]. rewrite menum_cap, enum_cap, I1, !map_map. reflexivity.
    - intros H m st. destruct (IH H) as [I1 _]. rewrite menum_ncap, enum_ncap, I1, !map_map. reflexivity.
    - intros H m st. destruct (IH H) as [I1 _]. rewrite menum_ahead, enum_ahead, I1.
      destruct neg, (enums s (fst m) (snd m) names cut l st); reflexivity.
    - intros H m st. destruct (IH H) as [I1 _]. rewrite menum_atomic, enum_atomic. cbn [fst snd].
      unfold mbody. rewrite I1, map_pair_snd. reflexivity.
    - discriminate.
  Qed.

  (** The modes that occur. *)
  Variable M : list modes.
  Fixpoint closed (r : re) : Prop :=
    let all := fix all (l : list re) : Prop :=
      match l with [] => True | x :: xs => closed x /\ all xs end in
    match r with
    | RMode k => forall m, In m M -> In (switch k m) M
    | RSelect l | RSeq l | RRep _ _ _ l | RCap _ l | RNCap _ _ l | RAhead _ l | RAtomic l => all l
    | _ => True
    end.
  Fixpoint closeds (l : list re) : Prop :=
    match l with [] => True | x :: xs => closed x /\ closeds xs end.

  Lemma menum_modes : forall r, closed r -> forall x y, In (fst x) M -> In y (menum r x) -> In (fst y) M.
  Proof.
    induction r as
      [ | r l IHr IHl | k | | t | l IH | l IH | | | kd a b l IH | id l IH | id nm l IH | id | nm
      | neg l IH | neg l IH | l IH | k | k | a | md ]
      using re_ind2 with (Q := fun l => closeds l ->
        (forall x y, In (fst x) M -> In y (menums l x) -> In (fst y) M)
        /\ (forall x y, In (fst x) M -> In y (menum (RSelect l) x) -> In (fst y) M));
      try (intros _ x y Hx H; apply in_map_iff in H as (st & <- & H); exact Hx).
    - intros _. split; [intros x y Hx [<-|[]]; exact Hx | intros x y _ []].
    - intros [H1 H2]. destruct (IHl H2) as [I1 I2]. specialize (IHr H1). split; intros x y Hx H.
      + rewrite menums_cons in H. apply in_flat_map in H as (z & Z1 & Z2). eauto.
      + rewrite menum_select_cons in H. apply in_app_iff in H as [H|H]; eauto.
    - intros H. apply (IH H).
    - intros H. apply (IH H).
    - intros H x y Hx Hy. rewrite menum_cap in Hy. apply in_map_iff in Hy as (z & <- & Hz).
      exact (proj1 (IH H) _ _ Hx Hz).
    - intros H x y Hx Hy. rewrite menum_ncap in Hy. apply in_map_iff in Hy as (z & <- & Hz).
      exact (proj1 (IH H) _ _ Hx Hz).
    - intros H x y Hx Hy. rewrite menum_ahead in Hy. destruct neg; destruct (menums l x); try contradiction;
        destruct Hy as [<-|[]]; exact Hx.
    - intros H x y Hx [<-|[]]. apply H. exact Hx.
  Qed.
End MEnum.
