(** Patterns with switches: the greedy-to-possessive optimisation keeps the preferred outcome. The first
    sets are read in the mode in which the repetition is entered; the analysis of the library stops
    (ill formed) when it reaches a switch. *)
From Coq Require Import List ZArith NArith Bool Lia Arith ZifyBool ZifyN ZifyNat.
From Verif Require Import Chars Syntax First View Eval Api Spec CharProofs EvalMono EvalInv EvalSem SpecProps
  EvalRefine SpecCut ApiProofs EvalTop OptProofs Checks Mode ModeSem ModeSound ModeEnum ModeRefine ModeCut.
Import ListNotations.

Section MFirst.
Variable s : list Z.
Variable m : modes.
Variable G : list (nat * option (list Z)).
Hypothesis s_ok : forallb val_ok s = true.
Notation ml := (fst m).
Notation ci := (snd m).
Notation names := (name_number G).
Notation menum := (menum s names true).
Notation menums := (menums s names true).
Notation mbody := (mbody s names true).
Notation mouts := (mouts s G).
Notation len := (length s).
Notation st_ok := (st_ok s).
Notation nlp := (nlp s ml).
Notation casel := (casel ci).
Notation casels := (casels ci).
Notation kgood := (kgood ci).

Definition mkrel := mstate -> state -> Prop.
Definition mkforth (T : mkrel) : Prop := forall x y, st_ok (snd x) -> T x y -> st_ok y /\ fst (snd x) <= fst y.
Definition mafter (r : re) (T : mkrel) : mkrel := fun x y => exists z, In z (menum r x) /\ T z y.
Definition mafters (l : list re) (T : mkrel) : mkrel := fun x y => exists z, In z (menums l x) /\ T z y.
Definition mFk (k : fkont) (T : mkrel) : Prop := forall acc F, k acc = Some F ->
  forall x y, st_ok x -> nlp (fst x) -> T (m, x) y -> fst x < fst y ->
  exists v, nth_error s (fst x) = Some v /\ finc ci F v = true.
Definition here : mkrel := fun x y => y = snd x.

Lemma mFk_here : forall k, mFk k here.
Proof. intros k acc F _ x y _ _ -> H. cbn [snd] in H. lia. Qed.
Lemma mkforth_here : mkforth here.
Proof. intros x y H ->. auto. Qed.
Lemma mkforth_after : forall r T, mkforth T -> mkforth (mafter r T).
Proof.
  intros r T HT x y Hx (z & H1 & H2). destruct (menum_forth _ _ _ _ _ _ H1 Hx) as [H3 H4].
  destruct (HT _ _ H3 H2). split; [assumption|]. unfold mstate, state in *. lia.
Qed.
Lemma mkforth_afters : forall l T, mkforth T -> mkforth (mafters l T).
Proof. intros l T HT. exact (mkforth_after (RSeq l) T HT). Qed.

Lemma leaf_in : forall r (x : state) z, (forall y, In y (menum r (m, x)) -> In y (map (pair m) (enum s ml ci names true r x))) ->
  In z (menum r (m, x)) -> exists st, z = (m, st) /\ In st (enum s ml ci names true r x).
Proof. intros r x z H Hz. apply H in Hz. apply in_map_iff in Hz as (st & <- & Hst). eauto. Qed.

(** The next character of a continuation that consumes is in its first set. *)
Lemma mF_re : forall r, casel r = true -> forall k T, kgood k -> mkforth T -> mFk k T ->
  mFk (first_re r k) (mafter r T).
Proof.
  assert (Any : forall r (T : mkrel) (x y : state) F, mkforth T -> st_ok x -> mafter r T (m, x) y -> fst x < fst y ->
    exists v, nth_error s (fst x) = Some v /\ finc ci (FAny :: F) v = true).
  { intros r T x y F HT Hx Hy Hlt. destruct (nth_error s (fst x)) as [v|] eqn:E; [exists v; auto|].
    apply nth_error_None in E. destruct (mkforth_after _ T HT (m, x) y Hx Hy) as [[Y1 _] _]. lia. }
  induction r as
    [ | r l IHr IHl | c | | t | l IH | l IH | | | kd a b l IH | id l IH | id nm l IH | id | nm
    | neg l IH | neg l IH | l IH | c | c | a | md ]
    using re_ind2 with (Q := fun l => forallb casel l = true -> forall k T, kgood k -> mkforth T -> mFk k T ->
      mFk (first_l l k) (mafters l T) /\ mFk (first_re (RSelect l) k) (mafter (RSelect l) T));
    cbn [OptProofs.casel forallb].
  - intros _ k T Hg HT HF. split.
    + intros acc F H x y Hx Hn (z & [<-|[]] & H2). apply (HF acc F H x y Hx Hn H2).
    + intros acc F H x y Hx Hn (z & [] & H2).
  - intros H k T Hg HT HF. apply andb_true_iff in H as [H1 H2].
    destruct (IHl H2 k T Hg HT HF) as [I1 I2]. split.
    + intros acc F H x y Hx Hn (z & Hm & Hy) Hlt. cbn [first_l] in H. rewrite menums_cons in Hm.
      apply in_flat_map in Hm as (m0 & M1 & M2).
      apply (IHr H1 (first_l l k) (mafters l T) (first_l_good ci l H2 k Hg) (mkforth_afters l T HT) I1
               acc F H x y Hx Hn); [|assumption].
      exists m0. split; [assumption|]. exists z. auto.
    + intros acc F H x y Hx Hn (z & Hm & Hy) Hlt. rewrite first_select_cons in H.
      destruct (first_re r k acc) as [acc'|] eqn:E; [|discriminate].
      rewrite menum_select_cons in Hm. apply in_app_iff in Hm as [Hm|Hm].
      * destruct (IHr H1 k T Hg HT HF acc acc' E x y Hx Hn) as (v & V1 & V2); [exists z; auto|assumption|].
        exists v. split; [assumption|].
        apply (proj1 (first_good ci (RSelect l) H2 k Hg acc' F H)). assumption.
      * apply (I2 acc' F H x y Hx Hn); [exists z; auto|assumption].
  - intros H k T Hg HT HF acc F HFs x y Hx Hn (z & Hm & Hy) Hlt.
    injection HFs as <-. apply leaf_in in Hm as (st & -> & Hm); [|auto].
    apply step_fin in Hm as (v & V1 & V2 & _). exists v. split; [assumption|].
    apply first_cls_has; assumption.
  - intros _ k T Hg HT HF acc F HFs x y Hx Hn Hy Hlt. injection HFs as <-. exact (Any _ T x y [] HT Hx Hy Hlt).
  - intros H k T Hg HT HF acc F HFs x y Hx Hn (z & Hm & Hy) Hlt.
    apply leaf_in in Hm as (st & -> & Hm); [|auto]. destruct t as [|c t].
    + destruct Hm as [<-|[]]. apply (HF acc F HFs x y); assumption.
    + cbn [first_re] in HFs. injection HFs as <-. cbn [Spec.enum walk] in Hm.
      apply in_flat_map in Hm as (m0 & M1 & _). apply step_fin in M1 as (v & V1 & V2 & _).
      exists v. split; [assumption|]. rewrite finc_app. apply orb_true_iff. right.
      unfold finc. cbn [existsb hasc cls_has]. rewrite orb_false_r. assumption.
  - intros H k T Hg HT HF. apply (IH H k T Hg HT HF).
  - intros H k T Hg HT HF acc F. rewrite first_seq. apply (IH H k T Hg HT HF).
  - intros _ k T Hg HT HF acc F HFs x y Hx Hn (z & [<-|[]] & Hy) Hlt. apply (HF acc F HFs x y); assumption.
  - intros _ k T Hg HT HF acc F HFs. discriminate.
  - intros H k T Hg HT HF acc F HFs x y Hx Hn (z & Hm & Hy) Hlt.
    destruct (IH H k here Hg mkforth_here (mFk_here k)) as [I1 _].
    rewrite first_rep in HFs. rewrite menum_rep in Hm. cbn [fst snd] in Hm.
    apply in_map_iff in Hm as (z0 & <- & Hm).
    assert (It : forall acc F, first_l l k acc = Some F -> (exists m1, In m1 (mbody l m x) /\ fst x < fst m1) ->
              exists v, nth_error s (fst x) = Some v /\ finc ci F v = true).
    { intros acc0 F0 H0 (m1 & M1 & M2). apply in_map_iff in M1 as (z1 & <- & M1).
      apply (I1 acc0 F0 H0 x (snd z1) Hx Hn); [exists z1; split; [assumption|reflexivity]|assumption]. }
    destruct (is_optional kd a b).
    + destruct (first_l l k acc) as [acc'|] eqn:E; [|discriminate].
      destruct (rep_shape s _ _ _ _ _ _ Hm) as [[_ ->]|HI].
      * apply (HF acc' F HFs x y); assumption.
      * destruct (It _ _ E HI) as (v & V1 & V2). exists v. split; [assumption|].
        apply (proj1 (Hg _ _ HFs)). assumption.
    + destruct (N.eqb_spec a 0) as [Ha|Ha].
      * destruct (k acc) as [acc'|] eqn:E; [|discriminate].
        destruct (rep_shape s _ _ _ _ _ _ Hm) as [[_ ->]|HI].
        -- destruct (HF acc acc' E x y) as (v & V1 & V2); try assumption. exists v. split; [assumption|].
           apply (proj1 (first_l_good ci l H k Hg _ _ HFs)). assumption.
        -- apply (It _ _ HFs HI).
      * destruct (rep_shape s _ _ _ _ _ _ Hm) as [[Ha' _]|HI]; [contradiction|]. apply (It _ _ HFs HI).
  - intros H k T Hg HT HF acc F HFs x y Hx Hn (z & Hm & Hy) Hlt.
    rewrite menum_cap in Hm. apply in_map_iff in Hm as (m0 & <- & Hm). cbn [fst snd] in *.
    destruct (menums_forth _ _ _ _ _ _ Hm Hx) as [Hm0 Hle]. cbn [fst snd] in *.
    pose proof (fun T HT HF => proj1 (IH H k T Hg HT HF)) as I1.
    destruct (Nat.eq_dec (fst (snd m0)) (fst x)) as [He|He].
    + apply (fun HK HF' => I1 (fun a b => In a (menums l (m, x)) /\ b = y /\
               T (fst a, (fst (snd a), (id, (fst x, fst (snd a))) :: snd (snd a))) y)
               HK HF' acc F HFs x y Hx Hn); [| | |assumption].
      * intros a b Ha (A1 & -> & A2). destruct (menums_forth _ _ _ _ _ _ A1 Hx) as [[B1 B2] B3].
        apply (HT (fst a, (fst (snd a), (id, (fst x, fst (snd a))) :: snd (snd a)))); [|assumption].
        split; [exact B1|]. constructor; [exact (conj B3 B1) | exact B2].
      * intros acc0 F0 H0 a b Ha Hna (A1 & -> & A2) Hab.
        destruct (menums_forth _ _ _ _ _ _ A1 Hx) as [[B1 B2] B3].
        apply (HF acc0 F0 H0 (fst a, (id, (fst x, fst a)) :: snd a) y); [|assumption|assumption|assumption].
        split; [exact B1|]. constructor; [exact (conj B3 B1) | exact B2].
      * exists m0. auto.
    + apply (I1 here mkforth_here (mFk_here k) acc F HFs x (snd m0) Hx Hn);
        [exists m0; split; [assumption|reflexivity] | exact (proj2 (Nat.le_neq _ _) (conj Hle (fun e => He (eq_sym e))))].
  - intros H k T Hg HT HF acc F HFs x y Hx Hn (z & Hm & Hy) Hlt.
    rewrite menum_ncap in Hm. apply in_map_iff in Hm as (m0 & <- & Hm). cbn [fst snd] in *.
    destruct (menums_forth _ _ _ _ _ _ Hm Hx) as [Hm0 Hle]. cbn [fst snd] in *.
    pose proof (fun T HT HF => proj1 (IH H k T Hg HT HF)) as I1.
    destruct (Nat.eq_dec (fst (snd m0)) (fst x)) as [He|He].
    + apply (fun HK HF' => I1 (fun a b => In a (menums l (m, x)) /\ b = y /\
               T (fst a, (fst (snd a), (id, (fst x, fst (snd a))) :: snd (snd a))) y)
               HK HF' acc F HFs x y Hx Hn); [| | |assumption].
      * intros a b Ha (A1 & -> & A2). destruct (menums_forth _ _ _ _ _ _ A1 Hx) as [[B1 B2] B3].
        apply (HT (fst a, (fst (snd a), (id, (fst x, fst (snd a))) :: snd (snd a)))); [|assumption].
        split; [exact B1|]. constructor; [exact (conj B3 B1) | exact B2].
      * intros acc0 F0 H0 a b Ha Hna (A1 & -> & A2) Hab.
        destruct (menums_forth _ _ _ _ _ _ A1 Hx) as [[B1 B2] B3].
        apply (HF acc0 F0 H0 (fst a, (id, (fst x, fst a)) :: snd a) y); [|assumption|assumption|assumption].
        split; [exact B1|]. constructor; [exact (conj B3 B1) | exact B2].
      * exists m0. auto.
    + apply (I1 here mkforth_here (mFk_here k) acc F HFs x (snd m0) Hx Hn);
        [exists m0; split; [assumption|reflexivity] | exact (proj2 (Nat.le_neq _ _) (conj Hle (fun e => He (eq_sym e))))].
  - intros _ k T Hg HT HF acc F HFs x y Hx Hn Hy Hlt. injection HFs as <-. exact (Any _ T x y [] HT Hx Hy Hlt).
  - intros _ k T Hg HT HF acc F HFs x y Hx Hn Hy Hlt. injection HFs as <-. exact (Any _ T x y [] HT Hx Hy Hlt).
  - intros _ k T Hg HT HF acc F HFs x y Hx Hn Hy Hlt. injection HFs as <-. exact (Any _ T x y [] HT Hx Hy Hlt).
  - intros _ k T Hg HT HF acc F HFs x y Hx Hn Hy Hlt. injection HFs as <-. exact (Any _ T x y [] HT Hx Hy Hlt).
  - intros H k T Hg HT HF acc F HFs x y Hx Hn (z & Hm & Hy) Hlt.
    rewrite menum_atomic in Hm. cbn [fst snd] in Hm. apply in_map_iff in Hm as (z0 & <- & Hm).
    apply firstn1_in in Hm. unfold progress in Hm. apply filter_In in Hm as [Hm Ha]. apply Nat.ltb_lt in Ha.
    apply in_map_iff in Hm as (z1 & <- & Hm).
    apply (proj1 (IH H k _ Hg mkforth_here (mFk_here k)) acc F HFs x (snd z1) Hx Hn); [exists z1; split; [assumption|reflexivity]|assumption].
  - intros _ k T Hg HT HF acc F HFs x y Hx Hn (z & Hm & Hy) Hlt.
    apply leaf_in in Hm as (st & -> & Hm); [|auto]. cbn [Spec.enum] in Hm.
    destruct (boundary s ci c (fst x)); [|contradiction]. destruct Hm as [<-|[]].
    apply (HF acc F HFs x y); assumption.
  - intros _ k T Hg HT HF acc F HFs. discriminate.
  - intros _ k T Hg HT HF acc F HFs x y Hx Hn (z & Hm & Hy) Hlt.
    apply leaf_in in Hm as (st & -> & Hm); [|auto]. cbn [Spec.enum] in Hm.
    destruct (holds s ml a (fst x)) eqn:Eh; [|contradiction]. destruct Hm as [<-|[]].
    destruct (HT (m, x) _ Hx Hy) as [[Y1 _] _]. cbn [snd] in *.
    destruct a; cbn [first_re] in HFs; try (apply (HF acc F HFs x y); assumption);
      exfalso; apply end_assert in Eh; auto; try lia; (split; [apply Hx | constructor]).
  - intros _ k T Hg HT HF acc F HFs. discriminate.
Qed.

(** ** Stacks *)
Definition mTs (p0 : nat) (stk : list atom) (O : list (nat * nat)) : mkrel :=
  fun x y => Forall (fun e => snd e <= fst (snd x)) O /\ In y (mouts p0 stk x O).

Lemma mstack_props : forall stk, casels stk = true ->
  kgood (first_stack stk) /\ forall p0 O, mkforth (mTs p0 stk O) /\ mFk (first_stack stk) (mTs p0 stk O).
Proof.
  assert (End : forall stk, (stk = [AEnd; AAccept] \/ stk = [AEndCycle] \/ stk = [AEndAhead]) ->
    kgood (first_stack stk) /\ forall p0 O, mkforth (mTs p0 stk O) /\ mFk (first_stack stk) (mTs p0 stk O)).
  { intros stk Hs.
    assert (H1 : forall p0 O x y, In y (mouts p0 stk x O) -> y = snd x).
    { intros p0 O x y H. destruct Hs as [-> | [-> | ->]]; cbn [ModeRefine.mouts] in H.
      - destruct H as [H|[]]. auto.
      - destruct (Nat.ltb p0 (fst (snd x))); [destruct H as [H|[]]; auto | contradiction].
      - destruct H as [H|[]]. auto. }
    split.
    { intros acc F H. destruct Hs as [-> | [-> | ->]]; cbn in H; injection H as <-; auto. }
    intros p0 O. split.
    - intros x y Hx [_ H]. apply H1 in H. subst y. auto.
    - intros acc F _ x y Hx _ [_ H] Hlt. apply H1 in H. subst y. cbn [snd] in Hlt. lia. }
  induction stk as [|a stk IH]; intros H; [discriminate|].
  destruct a as [r| | | | | | |id]; try discriminate H.
  - cbn [OptProofs.casels] in H. apply andb_true_iff in H as [H1 H2]. destruct (IH H2) as (G1 & G2). split.
    + exact (first_good ci r H1 _ G1).
    + intros p0 O. destruct (G2 p0 O) as (K1 & K2).
      assert (Sub : forall x y, st_ok (snd x) -> mTs p0 (AR r :: stk) O x y -> mafter r (mTs p0 stk O) x y).
      { intros x y Hx [A1 A2]. cbn [ModeRefine.mouts] in A2. apply in_flat_map in A2 as (z & M1 & M2).
        destruct (menum_forth _ _ _ _ _ _ M1 Hx) as [_ B]. exists z. split; [assumption|].
        split; [|assumption]. exact (open_later s _ _ _ B A1). }
      split.
      * intros x y Hx Hy. exact (mkforth_after r _ K1 x y Hx (Sub x y Hx Hy)).
      * intros acc F HF x y Hx Hn Hy Hlt.
        exact (mF_re r H1 _ _ G1 K1 K2 acc F HF x y Hx Hn (Sub (m, x) y Hx Hy) Hlt).
  - destruct stk as [|[] [|]]; try discriminate H. apply End. auto.
  - destruct stk as [|]; try discriminate H. apply End. auto.
  - destruct stk as [|]; try discriminate H. apply End. auto.
  - cbn [OptProofs.casels] in H. destruct (IH H) as (G1 & G2). split; [exact G1|]. intros p0 O.
    assert (Sub : forall x y, st_ok (snd x) -> mTs p0 (ANum id :: stk) O x y ->
      exists b O', st_ok (fst (snd x), (id, (b, fst (snd x))) :: snd (snd x)) /\
        mTs p0 stk O' (fst x, (fst (snd x), (id, (b, fst (snd x))) :: snd (snd x))) y).
    { intros x y Hx [A1 A2]. cbn [ModeRefine.mouts] in A2. destruct O as [|[i b] O']; [contradiction|].
      inversion A1 as [|e O1 A3 A4]; subst. exists b, O'.
      split; [exact (open_close s _ id b Hx A3)|]. split; assumption. }
    split.
    + intros x y Hx Hy. destruct (Sub x y Hx Hy) as (b & O' & B2 & B3).
      exact (proj1 (G2 p0 O') (fst x, (fst (snd x), (id, (b, fst (snd x))) :: snd (snd x))) y B2 B3).
    + intros acc F HF x y Hx Hn Hy Hlt. destruct (Sub (m, x) y Hx Hy) as (b & O' & B2 & B3).
      exact (proj2 (G2 p0 O') acc F HF _ y B2 Hn B3 Hlt).
Qed.

(** A stack that consumes. *)
Definition eats (stk : list atom) : bool :=
  existsb (fun a => match a with AR r => consuming r | _ => false end) stk.
Lemma mouts_forth : forall stk p0 O x y, casels stk = true -> st_ok (snd x) ->
  Forall (fun e => snd e <= fst (snd x)) O -> In y (mouts p0 stk x O) -> fst (snd x) <= fst y.
Proof.
  intros stk p0 O x y Hc Hx Ho Hy. destruct (mstack_props stk Hc) as [_ P]. destruct (P p0 O) as [K _].
  exact (proj2 (K x y Hx (conj Ho Hy))).
Qed.
Lemma mouts_eats : forall stk p0 O x y, casels stk = true -> eats stk = true -> st_ok (snd x) ->
  Forall (fun e => snd e <= fst (snd x)) O -> In y (mouts p0 stk x O) -> fst (snd x) < fst y.
Proof.
  induction stk as [|a stk IH]; intros p0 O x y Hc He Hx Ho Hy; [discriminate|].
  destruct a as [r| | | | | | |id]; try discriminate Hc.
  - cbn [OptProofs.casels] in Hc. apply andb_true_iff in Hc as [H1 H2]. cbn [ModeRefine.mouts] in Hy.
    apply in_flat_map in Hy as (z & M1 & M2). destruct (menum_forth _ _ _ _ _ _ M1 Hx) as [Hz Hle].
    assert (Hoz : Forall (fun e => snd e <= fst (snd z)) O) by exact (open_later s _ _ _ Hle Ho).
    unfold eats in He. cbn [existsb] in He. apply orb_true_iff in He as [He|He].
    + pose proof (consuming_menum s names true r He x z Hx M1).
      pose proof (mouts_forth stk p0 O z y H2 Hz Hoz M2). unfold mstate, state in *. lia.
    + pose proof (IH p0 O z y H2 He Hz Hoz M2). unfold mstate, state in *. lia.
  - destruct stk as [|[] [|]]; discriminate.
  - destruct stk as [|]; discriminate.
  - destruct stk as [|]; discriminate.
  - cbn [OptProofs.casels] in Hc. cbn [ModeRefine.mouts] in Hy. destruct O as [|[i b] O']; [contradiction|].
    inversion Ho as [|e O1 A3 A4]; subst.
    exact (IH p0 O' (fst x, (fst (snd x), (id, (b, fst (snd x))) :: snd (snd x))) y Hc He (open_close s _ id b Hx A3) A4 Hy).
Qed.

Notation one l := (ModeRefine.one (mbody l m)).
Notation mg l := (more_greedy true (mbody l m)).

Lemma mopt_loop : forall l tl p0 O F1 F2, forallb casel l = true -> casels tl = true -> eats tl = true ->
  (ml = true -> forallb no_switch l = true /\ nonl_l ci l true = true) ->
  first_l l Some [] = Some F1 -> first_stack tl [] = Some F2 -> collides F1 F2 = Some false ->
  negb ci || apart F1 F2 = true ->
  forall k b i x, st_ok x -> Forall (fun e => snd e <= fst x) O -> len - fst x < k ->
  hd_error (flat_map (fun st' => mouts p0 tl (m, st') O) (mg l k b i x))
  = hd_error (flat_map (fun st' => mouts p0 tl (m, st') O) (firstn 1 (mg l k b i x))).
Proof.
  intros l tl p0 O F1 F2 Hl Ht Hea Hnl E1 E2 Hcol Hap.
  destruct (mstack_props tl Ht) as (G1 & G2). destruct (G2 p0 O) as (K1 & K2).
  assert (Gk : kgood Some) by (intros acc F H; injection H as <-; auto).
  induction k as [|k IH]; intros b i x Hx Ho Hk; [lia|].
  rewrite mg_S. destruct (N.eqb b 0 || N.ltb i b)%bool; [|reflexivity].
  destruct (one_shape (mbody l m) x) as [E|(x' & E & Hlt)]; rewrite E; [reflexivity|].
  cbn [flat_map]. rewrite app_nil_r. destruct (one_ok s (mbody l m) (mbody_forth s names true l m) x x' Hx E) as [Hx' _].
  assert (Hk' : len - fst x' < k) by (destruct Hx'; lia).
  destruct k as [|k]; [lia|].
  assert (Ho' : Forall (fun e => snd e <= fst x') O) by (apply (open_later s O (fst x)); [lia|assumption]).
  rewrite firstn1_app by (apply mg_nonempty). specialize (IH b (N.succ i) x' Hx' Ho' Hk').
  rewrite flat_map_app. destruct (flat_map (fun st' => mouts p0 tl (m, st') O) (mg l (S k) b (N.succ i) x')) as [|w ws] eqn:Ew.
  - rewrite <- IH. cbn [app flat_map]. rewrite app_nil_r.
    destruct (mouts p0 tl (m, x) O) as [|y ys] eqn:Ey; [reflexivity|]. exfalso.
    assert (Hin : In x' (mbody l m x)).
    { assert (In x' (one l x)) by (rewrite E; left; reflexivity). unfold ModeRefine.one in H.
      apply firstn1_in in H. apply filter_In in H. tauto. }
    assert (Hn : nlp (fst x)).
    { intros Hm. destruct (Hnl Hm) as [N1 N2].
      apply (nonl_body s ml ci G Hm l N2 x x' Hx); [|assumption].
      unfold ModeEnum.mbody in Hin. pose proof (menum_plain s names true (RSeq l) N1 m x) as P.
      rewrite menum_seq in P. rewrite P, map_pair_snd in Hin. exact Hin. }
    apply in_map_iff in Hin as (z & <- & Hin).
    destruct (mF_re (RSeq l) Hl Some _ Gk mkforth_here (mFk_here Some) [] F1 E1 x (snd z) Hx Hn
                (ex_intro _ z (conj Hin eq_refl)) Hlt) as (v & V1 & V2).
    assert (Vo : val_ok v = true).
    { rewrite forallb_forall in s_ok. apply s_ok. eapply nth_error_In. exact V1. }
    assert (V3 : finc ci F2 v = false).
    { apply (no_collision_ci ci F1 F2); auto.
      - apply (proj2 (first_l_good ci l Hl Some Gk [] F1 E1)). reflexivity.
      - apply (proj2 (G1 [] F2 E2)). reflexivity. }
    assert (Iy : In y (mouts p0 tl (m, x) O)) by (rewrite Ey; left; reflexivity).
    pose proof (mouts_eats tl p0 O (m, x) y Ht Hea Hx Ho Iy) as Hxy. cbn [snd] in Hxy.
    destruct (K2 [] F2 E2 x y Hx Hn (conj Ho Iy) Hxy) as (v' & V4 & V5). congruence.
  - rewrite <- IH. reflexivity.
Qed.

(** Switch-free stacks. *)
Definition stack_no_switch (stk : list atom) : bool :=
  forallb (fun a => match a with AR r => no_switch r | _ => true end) stk.
Lemma mouts_plain : forall stk p0 O x, stack_no_switch stk = true ->
  mouts p0 stk (m, x) O = outs s ml ci G p0 stk x O.
Proof.
  induction stk as [|a stk IH]; intros p0 O x H; [reflexivity|].
  unfold stack_no_switch in H. cbn [forallb] in H. apply andb_true_iff in H as [H1 H2].
  destruct a as [r| | | | | | |id]; try reflexivity.
  - cbn [ModeRefine.mouts EvalRefine.outs]. rewrite menum_plain by assumption.
    rewrite (flat_map_pair state (fun y => mouts p0 stk y O)). apply flat_map_ext. intros st. apply IH. exact H2.
  - cbn [ModeRefine.mouts EvalRefine.outs]. apply IH. exact H2.
  - cbn [ModeRefine.mouts EvalRefine.outs]. destruct O as [|[i b] O']; [reflexivity|]. apply IH. exact H2.
Qed.
End MFirst.

(** A sufficient condition at one repetition, in every mode of [M]. *)
Definition eats_ok (m : modes) (l : list re) (tl : list atom) : bool :=
  forallb (casel (snd m)) l && casels (snd m) tl && eats tl &&
  (negb (fst m) || forallb no_switch l && nonl_l (snd m) l true) &&
  (negb (snd m) || match first_l l Some [], first_stack tl [] with
                   | Some F1, Some F2 => apart F1 F2
                   | _, _ => true
                   end).
Definition mpair_ok (opt : bool) (M : list modes) (l : list re) (tl : list atom) : bool :=
  match becomes_possessive opt l tl with
  | Some true => forallb (fun m =>
      eats_ok m l tl || forallb no_switch l && stack_no_switch tl && pair_ok (fst m) (snd m) opt l tl) M
  | _ => true
  end.

Lemma mpair_ok_sound : forall opt s M G a b l tl, forallb val_ok s = true -> mpair_ok opt M l tl = true ->
  mopt_pair opt s M G a b l tl.
Proof.
  intros opt s M G a b l tl s_ok H Hb p0 m st O Hm Hs Ho. unfold mpair_ok in H. rewrite Hb in H.
  rewrite forallb_forall in H. specialize (H m Hm). apply orb_true_iff in H as [H|H].
  - unfold eats_ok in H. apply andb_true_iff in H as [H Hap]. apply andb_true_iff in H as [H Hn].
    apply andb_true_iff in H as [H He]. apply andb_true_iff in H as [Hl Ht].
    unfold becomes_possessive in Hb. destruct opt; [|discriminate].
    unfold calculate_first in Hb. rewrite first_stack_map in Hb.
    destruct (first_l l Some []) as [F1|] eqn:E1; [|discriminate].
    destruct (first_stack tl []) as [F2|] eqn:E2; [|discriminate].
    destruct (collides F1 F2) as [[]|] eqn:E3; try discriminate.
    cbn [mouts]. rewrite !menum_rep. cbn [fst snd].
    rewrite !(flat_map_pair state (fun y => mouts s G p0 tl y O)).
    destruct (negb (N.eqb b 0) && N.ltb b a)%bool eqn:Eb; [unfold iterate; rewrite Eb; reflexivity|].
    pose proof (mbody_forth s (name_number G) true l m) as BF.
    set (bd := mbody s (name_number G) true l m) in *.
    rewrite !iterate_pv by assumption. unfold pv. rewrite N.sub_0_r, N.max_0_r.
    assert (Hma : mandatory true bd (N.to_nat a) st = [] \/
                 exists x, mandatory true bd (N.to_nat a) st = [x] /\ st_ok s x /\ fst st <= fst x).
    { clear - Hs BF. revert st Hs. induction (N.to_nat a) as [|k IH]; intros st Hs.
      - right. exists st. auto.
      - rewrite mand_S. destruct (one_shape bd st) as [E|(x' & E & Hlt)]; rewrite E; [left; reflexivity|].
        destruct (one_ok s bd BF st x' Hs E) as [Hx' _]. cbn [flat_map]. rewrite app_nil_r.
        destruct (IH x' Hx') as [I|(x & I1 & I2 & I3)]; [left; assumption|]. right. exists x.
        split; [assumption|]. split; [assumption|lia]. }
    destruct Hma as [->|(x & -> & Hx & Hle)]; [reflexivity|]. rewrite !flat_map_one.
    apply (mopt_loop s m G s_ok l tl p0 O F1 F2); auto.
    + intros Hml. rewrite Hml in Hn. cbn [negb orb] in Hn. apply andb_true_iff in Hn. exact Hn.
    + apply (open_later s O (fst st)); assumption.
  - apply andb_true_iff in H as [H Hp]. apply andb_true_iff in H as [Hl Ht].
    assert (W : forall k, stack_no_switch (AR (RRep k a b l) :: tl) = true).
    { intros k. unfold stack_no_switch in *. cbn [forallb no_switch]. rewrite Hl, Ht. reflexivity. }
    rewrite !mouts_plain by apply W.
    exact (pair_ok_sound s (fst m) (snd m) G s_ok opt a b l tl Hp Hb p0 st O Hs Ho).
Qed.

Section MowCheck.
Variables (opt : bool) (M : list modes).
Fixpoint mow_check (r : re) (tl : list atom) : bool :=
  let oseq := fix oseq (l : list re) (tl : list atom) : bool :=
    match l with
    | [] => true
    | [x] => mow_check x tl
    | x :: xs => mow_check x (AR (RSeq xs) :: tl) && oseq xs tl
    end in
  let ocyc := fix ocyc (l : list re) : bool :=
    match l with
    | [] => true
    | x :: xs => mow_check x (map AR xs ++ [AEndCycle]) && ocyc xs
    end in
  match r with
  | RSelect l => forallb (fun x => mow_check x tl) l
  | RSeq l => oseq l tl
  | RRep k a b l => ocyc l && match k with Greedy => mpair_ok opt M l tl | _ => true end
  | RCap id l | RNCap id _ l => oseq l (ANum id :: tl)
  | RAhead _ l => oseq l [AEndAhead]
  | RAtomic l => ocyc l
  | _ => true
  end.
Fixpoint mow_check_seq (l : list re) (tl : list atom) : bool :=
  match l with
  | [] => true
  | [x] => mow_check x tl
  | x :: xs => mow_check x (AR (RSeq xs) :: tl) && mow_check_seq xs tl
  end.
Fixpoint mow_check_cyc (l : list re) : bool :=
  match l with
  | [] => true
  | x :: xs => mow_check x (map AR xs ++ [AEndCycle]) && mow_check_cyc xs
  end.

Lemma mow_check_sound : forall s G, forallb val_ok s = true -> forall r tl, mow_check r tl = true ->
  mow opt s M G r tl.
Proof.
  intros s G Hs.
  apply (re_ind2 (fun r => forall tl, mow_check r tl = true -> mow opt s M G r tl)
    (fun l => (forall tl, mow_check_seq l tl = true -> oseq opt s M G l tl) /\
              (mow_check_cyc l = true -> ocyc opt s M G l) /\
              forall tl, forallb (fun x => mow_check x tl) l = true -> mow opt s M G (RSelect l) tl));
    try (intros; exact I).
  - split; [|split]; intros; exact I.
  - intros r l Hr (H1 & H2 & H3). split; [|split].
    + intros tl H. cbn [oseq mow_check_seq] in *. destruct l as [|y l]; [apply Hr; assumption|].
      apply andb_true_iff in H as [A B]. split; [apply Hr | apply H1]; assumption.
    + cbn [ocyc mow_check_cyc]. intros H. apply andb_true_iff in H as [A B]. split; auto.
    + intros tl H. rewrite ow_select. cbn [forallb] in H. apply andb_true_iff in H as [A B]. split; auto.
  - intros l (_ & _ & H) tl Hc. apply H. exact Hc.
  - intros l (H & _ & _) tl Hc. apply H. exact Hc.
  - intros k a b l (_ & H & _) tl Hc. rewrite ow_rep. cbn [mow_check] in Hc. fold mow_check_cyc in Hc.
    apply andb_true_iff in Hc as [A B]. split; [auto|]. intros ->. apply mpair_ok_sound; assumption.
  - intros i l (H & _ & _) tl Hc. apply H. exact Hc.
  - intros i nm l (H & _ & _) tl Hc. apply H. exact Hc.
  - intros n l (H & _ & _) tl Hc. apply H. exact Hc.
  - intros l (_ & H & _) tl Hc. apply H. exact Hc.
Qed.
End MowCheck.
