(** When the discipline of the library (committed, consuming iterations) agrees with the usual
    backtracking semantics, and when the latter agrees with the declarative reading. *)
From Coq Require Import List ZArith NArith Bool Lia Arith.
From Verif Require Import Chars Syntax Spec EvalSem SpecProps.
Import ListNotations.

Section Cut.
Variables (s : list Z) (ml ci : bool) (names : list Z -> option nat).
Notation enumT := (enum s ml ci names true).
Notation enumF := (enum s ml ci names false).
Notation enumsT := (enums s ml ci names true).
Notation enumsF := (enums s ml ci names false).
Notation len := (length s).
Notation st_ok := (st_ok s).

(** * Committed iterations *)

(** From every position the body consumes something whenever it matches. *)
Definition consumes (l : list re) : Prop :=
  forall st st', st_ok st -> In st' (enumsF l st) -> fst st < fst st'.
(** From every position the body can consume something in at most one way. *)
Definition one_way (l : list re) : Prop :=
  forall st, st_ok st -> length (filter (advances st) (enumsF l st)) <= 1.

(** The condition on the bodies of the repetitions and atomic groups of a pattern. *)
Fixpoint tame (r : re) : Prop :=
  let all := fix all (l : list re) : Prop :=
    match l with [] => True | x :: xs => tame x /\ all xs end in
  match r with
  | RSelect l | RSeq l | RCap _ l | RNCap _ _ l | RAhead _ l => all l
  | RRep k a b l =>
      all l /\ (a <> 0%N -> consumes l) /\ ((k = Possessive /\ (a <= 1)%N) \/ one_way l)
  | RAtomic l => all l /\ consumes l
  | _ => True
  end.
Fixpoint tames (l : list re) : Prop :=
  match l with [] => True | x :: xs => tame x /\ tames xs end.

Lemma flat_map_ext_in : forall A B (g h : A -> list B) l, (forall x, In x l -> g x = h x) ->
  flat_map g l = flat_map h l.
Proof.
  intros A B g h l H. induction l as [|x l IH]; cbn; [reflexivity|].
  rewrite H by (left; reflexivity). rewrite IH by (intros; apply H; right; assumption). reflexivity.
Qed.

Lemma firstn1_small : forall A (l : list A), length l <= 1 -> firstn 1 l = l.
Proof. intros A [|x [|y l]] H; cbn in *; [reflexivity|reflexivity|lia]. Qed.
Lemma filter_all : forall A (P : A -> bool) l, (forall x, In x l -> P x = true) -> filter P l = l.
Proof.
  intros A P l H. induction l as [|x l IH]; cbn; [reflexivity|].
  rewrite H by (left; reflexivity). rewrite IH by (intros; apply H; right; assumption). reflexivity.
Qed.

Section Body.
  Variables bT bF : state -> list state.
  Hypothesis same : forall st, st_ok st -> bT st = bF st.
  Hypothesis bforth : forall st st', In st' (bF st) -> forth s st st'.

  Lemma body_ok_in : forall st st', st_ok st -> In st' (bF st) -> st_ok st'.
  Proof. intros st st' Hs H. apply (bforth _ _ H Hs). Qed.

  Lemma mandatory_cut : (forall st, st_ok st -> length (filter (advances st) (bF st)) <= 1) ->
    forall k, (k <> 0 -> forall st st', st_ok st -> In st' (bF st) -> fst st < fst st') ->
    forall st, st_ok st ->
    mandatory true bT k st = mandatory false bF k st.
  Proof.
    intros Hone. induction k as [|k IH]; intros Hc st Hs; [reflexivity|].
    cbn [mandatory]. unfold keep, progress.
    assert (Hf : filter (advances st) (bT st) = bF st).
    { rewrite same by assumption. apply filter_all. intros x Hx. apply Nat.ltb_lt.
      apply (Hc ltac:(lia)); assumption. }
    rewrite Hf, firstn1_small.
    - apply flat_map_ext_in. intros x Hx. apply IH; [|eapply body_ok_in; eassumption].
      intros _. apply Hc. lia.
    - rewrite <- Hf, same by assumption. apply Hone. assumption.
  Qed.
  Lemma greedy_cut : (forall st, st_ok st -> length (filter (advances st) (bF st)) <= 1) ->
    forall k b i st, st_ok st -> more_greedy true bT k b i st = more_greedy false bF k b i st.
  Proof.
    intros Hone. induction k as [|k IH]; intros b i st Hs; [reflexivity|].
    cbn [more_greedy]. unfold keep. f_equal.
    destruct (N.eqb b 0 || N.ltb i b)%bool; [|reflexivity].
    rewrite same by assumption. rewrite firstn1_small by (apply Hone; assumption).
    apply flat_map_ext_in. intros x Hx. apply IH. apply filter_In in Hx as [Hx _].
    eapply body_ok_in; eassumption.
  Qed.
  Lemma lazy_cut : (forall st, st_ok st -> length (filter (advances st) (bF st)) <= 1) ->
    forall k b i st, st_ok st -> more_lazy true bT k b i st = more_lazy false bF k b i st.
  Proof.
    intros Hone. induction k as [|k IH]; intros b i st Hs; [reflexivity|].
    cbn [more_lazy]. unfold keep. f_equal.
    destruct (N.eqb b 0 || N.ltb i b)%bool; [|reflexivity].
    rewrite same by assumption. rewrite firstn1_small by (apply Hone; assumption).
    apply flat_map_ext_in. intros x Hx. apply IH. apply filter_In in Hx as [Hx _].
    eapply body_ok_in; eassumption.
  Qed.

  Lemma mg_not_nil : forall cut body k b i st, more_greedy cut body (S k) b i st <> [].
  Proof. intros. cbn. intros H. apply app_eq_nil in H as [_ H]. discriminate. Qed.
  Lemma firstn1_app' : forall A (l1 l2 : list A), l1 <> [] -> firstn 1 (l1 ++ l2) = firstn 1 l1.
  Proof. intros A [|x l1] l2 H; [congruence|reflexivity]. Qed.

  (** The preferred outcome of a greedy loop needs no second outcome of an iteration. *)
  Lemma greedy_head : forall k b i st, st_ok st -> len - fst st < k ->
    firstn 1 (more_greedy true bT k b i st) = firstn 1 (more_greedy false bF k b i st).
  Proof.
    induction k as [|k IH]; intros b i st Hs Hk; [lia|].
    cbn [more_greedy]. unfold keep. destruct (N.eqb b 0 || N.ltb i b)%bool; [|reflexivity].
    rewrite same by assumption.
    destruct (filter (advances st) (bF st)) as [|x xs] eqn:E; [reflexivity|].
    assert (Hx : In x (filter (advances st) (bF st))) by (rewrite E; left; reflexivity).
    apply filter_In in Hx as [Hx Ha]. apply Nat.ltb_lt in Ha.
    pose proof (body_ok_in _ _ Hs Hx) as Hok. destruct Hok as [Hle Hl].
    assert (Hk' : len - fst x < k) by lia.
    destruct k as [|k]; [lia|].
    change (firstn 1 (x :: xs)) with [x]. cbn [flat_map]. rewrite app_nil_r.
    rewrite firstn1_app' by apply mg_not_nil.
    rewrite <- app_assoc, firstn1_app' by apply mg_not_nil.
    apply IH; [split; assumption | assumption].
  Qed.
End Body.

Lemma enumsF_forth : forall l st st', In st' (enumsF l st) -> forth s st st'.
Proof. intros l. apply enums_forth. Qed.

Theorem cut_agrees : forall r, tame r -> forall st, st_ok st -> enumT r st = enumF r st.
Proof.
  induction r as
    [ | r l IHr IHl | c | | t | l IH | l IH | | | k a b l IH | id l IH | id nm l IH | id | nm
    | neg l IH | neg l IH | l IH | c | c | a | m ]
    using re_ind2 with (Q := fun l => tames l ->
      (forall st, st_ok st -> enumsT l st = enumsF l st) /\
      (forall st, st_ok st -> enumT (RSelect l) st = enumF (RSelect l) st));
    try (intros; reflexivity).
  - intros _. split; reflexivity.
  - intros [T1 T2]. destruct (IHl T2) as [I1 I2]. split; intros st Hs.
    + rewrite !enums_cons, (IHr T1 st Hs). apply flat_map_ext_in. intros x Hx. apply I1.
      apply (enum_forth _ _ _ _ _ _ _ _ Hx Hs).
    + rewrite !enum_select_cons, (IHr T1 st Hs), I2 by assumption. reflexivity.
  - intros T. apply (IH T).
  - intros T st. rewrite !enum_seq. apply (IH T).
  - intros (T & Tc & Tk) st Hs. rewrite !enum_rep. destruct (IH T) as [I1 _].
    unfold iterate. destruct (negb (N.eqb b 0) && N.ltb b a)%bool; [reflexivity|].
    destruct Tk as [[-> Ha]|Hone].
    + destruct (N.eq_dec a 0) as [->|Ha0].
      * cbn [N.to_nat mandatory flat_map]. rewrite !app_nil_r.
        apply (greedy_head _ _ I1 (enumsF_forth l)); [assumption|lia].
      * assert (a = 1%N) by lia. subst a. change (N.to_nat 1) with 1.
        cbn [mandatory]. unfold keep, progress. rewrite I1 by assumption.
        rewrite filter_all by (intros x Hx; apply Nat.ltb_lt; apply Tc; auto).
        rewrite !flat_map_single.
        destruct (enumsF l st) as [|x xs] eqn:E; [reflexivity|].
        change (firstn 1 (x :: xs)) with [x]. cbn [flat_map].
        assert (Hx : In x (enumsF l st)) by (rewrite E; left; reflexivity).
        destruct (enumsF_forth _ _ _ Hx Hs) as [Hok _].
        rewrite !firstn1_app' by apply mg_not_nil.
        apply (greedy_head _ _ I1 (enumsF_forth l)); [assumption|lia].
    + assert (Hm : mandatory true (enumsT l) (N.to_nat a) st = mandatory false (enumsF l) (N.to_nat a) st).
      { apply mandatory_cut; auto.
        - apply enumsF_forth.
        - intros Hk. apply Tc. lia. }
      assert (Hin : forall x, In x (mandatory false (enumsF l) (N.to_nat a) st) -> st_ok x).
      { intros x Hx. apply (mandatory_R s names false (forth s) (forth_refl s) (forth_trans s names)
          (enumsF l) (enumsF_forth l) _ _ _ Hx Hs). }
      destruct k; rewrite Hm.
      * apply flat_map_ext_in. intros x Hx. apply greedy_cut; auto. apply enumsF_forth.
      * apply flat_map_ext_in. intros x Hx. apply lazy_cut; auto. apply enumsF_forth.
      * f_equal. apply flat_map_ext_in. intros x Hx. apply greedy_cut; auto. apply enumsF_forth.
  - intros T st Hs. rewrite !enum_cap. destruct (IH T) as [I1 _]. rewrite I1 by assumption. reflexivity.
  - intros T st Hs. rewrite !enum_ncap. destruct (IH T) as [I1 _]. rewrite I1 by assumption. reflexivity.
  - intros T st Hs. rewrite !enum_ahead. destruct (IH T) as [I1 _]. rewrite I1 by assumption. reflexivity.
  - intros [T Tc] st Hs. rewrite !enum_atomic. destruct (IH T) as [I1 _]. rewrite I1 by assumption.
    unfold progress. rewrite filter_all by (intros x Hx; apply Nat.ltb_lt; apply Tc; auto). reflexivity.
Qed.

(** * The declarative reading *)
Notation sem := (sem s ml ci names).
Notation sems := (sems s ml ci names).

(** No group is recorded inside [r]. *)
Fixpoint no_groups (r : re) : bool :=
  match r with
  | RSelect l | RSeq l | RRep _ _ _ l | RAtomic l => forallb no_groups l
  | RAhead neg l => neg || forallb no_groups l
  | RCap _ _ | RNCap _ _ _ => false
  | _ => true
  end.

(** Patterns whose outcomes are exactly the declarative ones: nothing possessive or atomic, repeated
    bodies consume, lookaheads record no group. *)
Fixpoint plain (r : re) : Prop :=
  let all := fix all (l : list re) : Prop :=
    match l with [] => True | x :: xs => plain x /\ all xs end in
  match r with
  | RSelect l | RSeq l | RCap _ l | RNCap _ _ l => all l
  | RAhead _ l => all l /\ forallb no_groups l = true
  | RRep k a b l => k <> Possessive /\ all l /\
      (forall st st', st_ok st -> sems l st st' -> fst st < fst st')
  | RAtomic l => False
  | _ => True
  end.
Fixpoint plains (l : list re) : Prop :=
  match l with [] => True | x :: xs => plain x /\ plains xs end.

(** Contents of negative lookaheads are plain. *)
Fixpoint neg_plain (r : re) : Prop :=
  let all := fix all (l : list re) : Prop :=
    match l with [] => True | x :: xs => neg_plain x /\ all xs end in
  match r with
  | RSelect l | RSeq l | RCap _ l | RNCap _ _ l | RRep _ _ _ l | RAtomic l | RAhead false l => all l
  | RAhead true l => plains l
  | _ => True
  end.
Fixpoint neg_plains (l : list re) : Prop :=
  match l with [] => True | x :: xs => neg_plain x /\ neg_plains xs end.

Lemma iter_add : forall R j k st st', iter R (j + k) st st' <->
  exists m, iter R j st m /\ iter R k m st'.
Proof.
  intros R. induction j as [|j IH]; cbn; intros k st st'.
  - split; [eauto|]. intros (m & -> & H). exact H.
  - split.
    + intros (m & H1 & H2). apply IH in H2 as (m' & H2 & H3). eauto 6.
    + intros (m' & (m & H1 & H2) & H3). exists m. split; [assumption|]. apply IH. eauto.
Qed.

Section Loops.
  Variable cut : bool.
  Variable body : state -> list state.
  Variable R : state -> state -> Prop.
  Section Sound.
    Hypothesis Hb : forall st st', st_ok st -> In st' (body st) -> R st st' /\ st_ok st'.
    Lemma mandatory_iter : forall k st st', st_ok st -> In st' (mandatory cut body k st) ->
      iter R k st st' /\ st_ok st'.
    Proof.
      induction k as [|k IH]; cbn; intros st st' Hs H.
      - destruct H as [<-|[]]. auto.
      - apply in_flat_map in H as (m & H1 & H2). apply keep_in, (progress_in s names) in H1.
        destruct (Hb _ _ Hs H1) as [H3 H4]. destruct (IH _ _ H4 H2). eauto.
    Qed.
    Lemma greedy_iter : forall k b i st st', st_ok st -> (b = 0 \/ i <= b)%N ->
      In st' (more_greedy cut body k b i st) ->
      exists j, (b = 0 \/ i + N.of_nat j <= b)%N /\ iter R j st st'.
    Proof.
      induction k as [|k IH]; cbn [more_greedy]; intros b i st st' Hs Hi H; [contradiction|].
      apply in_app_iff in H as [H|H].
      - destruct (N.eqb b 0 || N.ltb i b)%bool eqn:El; [|contradiction].
        apply in_flat_map in H as (m & H1 & H2). apply keep_in, filter_In in H1 as [H1 _].
        destruct (Hb _ _ Hs H1) as [H3 H4].
        destruct (IH b (N.succ i) m st' H4) as (j & J1 & J2); [|assumption|].
        { apply orb_true_iff in El as [El|El]; [left; apply N.eqb_eq; assumption|right].
          apply N.ltb_lt in El. lia. }
        exists (S j). split; [lia|]. exists m. auto.
      - destruct H as [<-|[]]. exists 0. split; [lia|reflexivity].
    Qed.
    Lemma lazy_iter : forall k b i st st', st_ok st -> (b = 0 \/ i <= b)%N ->
      In st' (more_lazy cut body k b i st) ->
      exists j, (b = 0 \/ i + N.of_nat j <= b)%N /\ iter R j st st'.
    Proof.
      induction k as [|k IH]; cbn [more_lazy]; intros b i st st' Hs Hi H; [contradiction|].
      destruct H as [<-|H].
      - exists 0. split; [lia|reflexivity].
      - destruct (N.eqb b 0 || N.ltb i b)%bool eqn:El; [|contradiction].
        apply in_flat_map in H as (m & H1 & H2). apply keep_in, filter_In in H1 as [H1 _].
        destruct (Hb _ _ Hs H1) as [H3 H4].
        destruct (IH b (N.succ i) m st' H4) as (j & J1 & J2); [|assumption|].
        { apply orb_true_iff in El as [El|El]; [left; apply N.eqb_eq; assumption|right].
          apply N.ltb_lt in El. lia. }
        exists (S j). split; [lia|]. exists m. auto.
    Qed.
    Lemma iterate_iter : forall k a b st st', st_ok st -> In st' (iterate s cut body k a b st) ->
      exists j : nat, (a <= N.of_nat j)%N /\ (b = 0%N \/ (N.of_nat j <= b)%N) /\ iter R j st st'.
    Proof.
      intros k a b st st' Hs H. unfold iterate in H.
      destruct (negb (N.eqb b 0) && N.ltb b a)%bool eqn:E; [contradiction|].
      assert (Hab : (b = 0 \/ a <= b)%N).
      { apply andb_false_iff in E as [E|E]; [left|right].
        - apply negb_false_iff, N.eqb_eq in E. assumption.
        - apply N.ltb_ge in E. assumption. }
      assert (X : forall x j, iter R (N.to_nat a) st x -> (b = 0 \/ a + N.of_nat j <= b)%N ->
                iter R j x st' ->
                exists j : nat, (a <= N.of_nat j)%N /\ (b = 0%N \/ (N.of_nat j <= b)%N) /\ iter R j st st').
      { intros x j H1 H2 H3. exists (N.to_nat a + j). split; [lia|]. split; [lia|].
        apply iter_add. eauto. }
      destruct k; [| |apply firstn1_in in H]; apply in_flat_map in H as (x & H1 & H2);
        destruct (mandatory_iter _ _ _ Hs H1) as [H3 H4].
      - destruct (greedy_iter _ _ _ _ _ H4 Hab H2) as (j & J1 & J2). eauto.
      - destruct (lazy_iter _ _ _ _ _ H4 Hab H2) as (j & J1 & J2). eauto.
      - destruct (greedy_iter _ _ _ _ _ H4 Hab H2) as (j & J1 & J2). eauto.
    Qed.
  End Sound.

  Section Complete.
    Hypothesis nocut : cut = false.
    Hypothesis Hb : forall st st', st_ok st -> R st st' -> In st' (body st) /\ st_ok st' /\ fst st < fst st'.
    Lemma iter_mandatory : forall k st st', st_ok st -> iter R k st st' ->
      In st' (mandatory cut body k st) /\ st_ok st'.
    Proof.
      induction k as [|k IH]; cbn; intros st st' Hs H.
      - subst. auto.
      - destruct H as (m & H1 & H2). destruct (Hb _ _ Hs H1) as (H3 & H4 & _).
        destruct (IH _ _ H4 H2). split; [|assumption]. apply in_flat_map. exists m.
        replace (keep cut (progress cut st (body st))) with (body st)
          by (unfold keep, progress; rewrite nocut; reflexivity). auto.
    Qed.
    Lemma iter_greedy : forall k b i j st st', st_ok st -> len - fst st < k ->
      (b = 0 \/ i + N.of_nat j <= b)%N -> iter R j st st' ->
      In st' (more_greedy cut body k b i st).
    Proof.
      induction k as [|k IH]; cbn [more_greedy]; intros b i j st st' Hs Hk Hj H; [lia|].
      apply in_app_iff. destruct j as [|j]; [right; left; symmetry; exact H|left].
      replace (N.eqb b 0 || N.ltb i b)%bool with true
        by (symmetry; apply orb_true_iff; rewrite N.eqb_eq, N.ltb_lt; lia).
      destruct H as (m & H1 & H2). destruct (Hb _ _ Hs H1) as (H3 & [H4 H4'] & H5).
      apply in_flat_map. exists m. split.
      - unfold keep. rewrite nocut. apply filter_In. split; [assumption|]. apply Nat.ltb_lt. assumption.
      - apply (IH b (N.succ i) j); [split; assumption | lia | lia | assumption].
    Qed.
    Lemma iter_lazy : forall k b i j st st', st_ok st -> len - fst st < k ->
      (b = 0 \/ i + N.of_nat j <= b)%N -> iter R j st st' ->
      In st' (more_lazy cut body k b i st).
    Proof.
      induction k as [|k IH]; cbn [more_lazy]; intros b i j st st' Hs Hk Hj H; [lia|].
      destruct j as [|j]; [left; symmetry; exact H|right].
      replace (N.eqb b 0 || N.ltb i b)%bool with true
        by (symmetry; apply orb_true_iff; rewrite N.eqb_eq, N.ltb_lt; lia).
      destruct H as (m & H1 & H2). destruct (Hb _ _ Hs H1) as (H3 & [H4 H4'] & H5).
      apply in_flat_map. exists m. split.
      - unfold keep. rewrite nocut. apply filter_In. split; [assumption|]. apply Nat.ltb_lt. assumption.
      - apply (IH b (N.succ i) j); [split; assumption | lia | lia | assumption].
    Qed.
    Lemma iter_iterate : forall k a b j st st', k <> Possessive -> st_ok st ->
      (a <= N.of_nat j)%N -> (b = 0%N \/ (N.of_nat j <= b)%N) -> iter R j st st' ->
      In st' (iterate s cut body k a b st).
    Proof.
      intros k a b j st st' Hk Hs Ha Hb' H. unfold iterate.
      replace (negb (N.eqb b 0) && N.ltb b a)%bool with false
        by (symmetry; apply andb_false_iff; rewrite negb_false_iff, N.eqb_eq, N.ltb_ge; lia).
      replace j with (N.to_nat a + (j - N.to_nat a)) in H by lia.
      apply iter_add in H as (m & H1 & H2). destruct (iter_mandatory _ _ _ Hs H1) as [H3 H4].
      destruct k; [| |congruence]; apply in_flat_map; exists m; (split; [assumption|]).
      - eapply iter_greedy; [assumption | lia | | eassumption]. lia.
      - eapply iter_lazy; [assumption | lia | | eassumption]. lia.
    Qed.
  End Complete.
End Loops.

Lemma step_iff : forall P st st', In st' (step s P st) <->
  exists v, nth_error s (fst st) = Some v /\ P v = true /\ st' = (S (fst st), snd st).
Proof.
  intros P st st'. unfold step. destruct (nth_error s (fst st)) as [x|]; [destruct (P x) eqn:E|].
  - split; [intros [<-|[]]; eauto | intros (v & H1 & H2 & ->); left; reflexivity].
  - split; [intros [] | intros (v & H1 & H2 & _)]. congruence.
  - split; [intros [] | intros (v & H1 & _)]. discriminate.
Qed.

Lemma walk_iff : forall t st st', In st' (walk s ci t st) <->
  (st' = (fst st + length t, snd st)
   /\ forall i c, nth_error t i = Some c ->
      exists v, nth_error s (fst st + i) = Some v /\ lit_has ci c v = true).
Proof.
  induction t as [|c t IH]; intros [p L] st'; cbn [walk length fst snd].
  - rewrite Nat.add_0_r. split.
    + intros [<-|[]]. split; [reflexivity|]. intros i c H. destruct i; discriminate.
    + intros [-> _]. left. reflexivity.
  - rewrite in_flat_map. split.
    + intros (m & H1 & H2). apply step_iff in H1 as (v & H1 & H3 & ->). cbn [fst snd] in *.
      apply IH in H2 as [-> H2]. cbn [fst snd] in *. split; [f_equal; lia|].
      intros [|i] c' Hc; cbn in Hc.
      * injection Hc as <-. rewrite Nat.add_0_r. eauto.
      * destruct (H2 i c' Hc) as (v' & H4 & H5). exists v'.
        replace (p + S i) with (S p + i) by lia. auto.
    + intros [-> H]. destruct (H 0 c eq_refl) as (v & H1 & H2). rewrite Nat.add_0_r in H1.
      exists (S p, L). split; [apply step_iff; cbn; eauto|].
      apply IH. cbn [fst snd]. split; [f_equal; lia|]. intros i c' Hc.
      destruct (H (S i) c' Hc) as (v' & H4 & H5). exists v'.
      replace (S p + i) with (p + S i) by lia. auto.
Qed.

Lemma prefix_at_iff : forall t p, p <= len -> prefix_at s t p = true <->
  (p + length t <= len /\ text s p (p + length t) = t).
Proof.
  unfold text. induction t as [|c t IH]; cbn [prefix_at length]; intros p Hp.
  - rewrite Nat.add_0_r, Nat.sub_diag. cbn. split; auto.
  - replace (p + S (length t) - p) with (S (length t)) by lia.
    destruct (nth_error s p) as [x|] eqn:E.
    + assert (Hlt : p < len) by (apply nth_error_Some; congruence).
      assert (Esk : skipn p s = x :: skipn (S p) s).
      { apply nth_error_split in E as (l1 & l2 & Es & El). rewrite Es.
        rewrite <- El. rewrite !skipn_app, skipn_all, Nat.sub_diag.
        rewrite (skipn_all2 l1) by lia. replace (S (length l1) - length l1) with 1 by lia. reflexivity. }
      rewrite Esk. cbn [firstn]. rewrite andb_true_iff, (IH (S p)) by lia.
      replace (S p + length t - S p) with (length t) by lia. rewrite Z.eqb_eq.
      split.
      * intros [-> [H1 H2]]. split; [lia|]. rewrite H2. reflexivity.
      * intros [H1 H2]. injection H2 as -> H2. split; [reflexivity|]. split; [lia|assumption].
    + apply nth_error_None in E. split; [discriminate|]. lia.
Qed.

Lemma back_iff : forall id st st', st_ok st ->
  (In st' match lookup id (snd st) with
         | Some (b, e) => if prefix_at s (text s b e) (fst st) then [(fst st + (e - b), snd st)] else []
         | None => [] end
   <-> back_sem s id st st').
Proof.
  intros id st st' [Hp HL]. unfold back_sem. destruct (lookup id (snd st)) as [[b e]|] eqn:E.
  - assert (Hbe : b <= e <= len).
    { rewrite Forall_forall in HL. apply (HL _ (lookup_in _ _ _ E)). }
    pose proof (prefix_at_iff (text s b e) (fst st) Hp) as P. rewrite (text_length s) in P by assumption.
    destruct (prefix_at s (text s b e) (fst st)).
    + destruct P as [P _]. destruct (P eq_refl) as [P1 P2]. split.
      * intros [<-|[]]. exists b, e. auto.
      * intros (b' & e' & H & _ & _ & ->). injection H as <- <-. left. reflexivity.
    + split; [intros []|]. intros (b' & e' & H & H1 & H2 & _). injection H as <- <-.
      destruct P as [_ P]. discriminate P. auto.
  - split; [intros [] | intros (b' & e' & H & _)]. discriminate.
Qed.

Lemma no_groups_log : forall cut r, no_groups r = true -> forall st st',
  In st' (enum s ml ci names cut r st) -> snd st' = snd st.
Proof.
  intros cut.
  induction r as
    [ | r l IHr IHl | c | | t | l IH | l IH | | | k a b l IH | id l IH | id nm l IH | id | nm
    | neg l IH | neg l IH | l IH | c | c | a | m ]
    using re_ind2 with (Q := fun l => forallb no_groups l = true ->
      (forall st st', In st' (enums s ml ci names cut l st) -> snd st' = snd st) /\
      (forall st st', In st' (enum s ml ci names cut (RSelect l) st) -> snd st' = snd st));
    cbn [no_groups forallb].
  - intros _. split; intros st st' H; [|contradiction]. destruct H as [<-|[]]. reflexivity.
  - intros H. apply andb_true_iff in H as [H1 H2]. destruct (IHl H2) as [I1 I2]. split; intros st st' H.
    + rewrite enums_cons in H. apply in_flat_map in H as (m & H3 & H4).
      rewrite (I1 _ _ H4). apply (IHr H1 _ _ H3).
    + rewrite enum_select_cons in H. apply in_app_iff in H as [H|H]; [apply (IHr H1 _ _ H)|auto].
  - intros _ st st' H. apply step_iff in H as (v & _ & _ & ->). reflexivity.
  - intros _ st st' H. apply step_iff in H as (v & _ & _ & ->). reflexivity.
  - intros _ st st' H. apply walk_iff in H as [-> _]. reflexivity.
  - intros H. apply (IH H).
  - intros H st st'. rewrite enum_seq. apply (IH H).
  - intros _ st st' [<-|[]]. reflexivity.
  - intros _ st st' [].
  - intros H st st'. rewrite enum_rep. apply (iterate_R s names cut (fun x y => snd y = snd x)).
    + reflexivity.
    + intros. congruence.
    + apply (IH H).
  - discriminate.
  - discriminate.
  - intros _ st st' H. cbn in H. destruct (lookup id (snd st)) as [[b e]|]; [|contradiction].
    destruct (prefix_at s (text s b e) (fst st)); [|contradiction]. destruct H as [<-|[]]. reflexivity.
  - intros _ st st' H. cbn in H. destruct (names nm) as [id|]; [|contradiction].
    destruct (lookup id (snd st)) as [[b e]|]; [|contradiction].
    destruct (prefix_at s (text s b e) (fst st)); [|contradiction]. destruct H as [<-|[]]. reflexivity.
  - intros H st st'. rewrite enum_ahead. destruct neg.
    + destruct (enums s ml ci names cut l st); [|contradiction]. intros [<-|[]]. reflexivity.
    + destruct (enums s ml ci names cut l st) as [|x xs] eqn:E; [contradiction|]. intros [<-|[]].
      cbn. apply (proj1 (IH H) st x). rewrite E. left. reflexivity.
  - intros _ st st'. rewrite enum_behind.
    destruct neg, (bseq s ml ci l (fst st)); try contradiction; intros [<-|[]]; reflexivity.
  - intros H st st'. rewrite enum_atomic. intros Hin. apply firstn1_in, (progress_in s names) in Hin.
    exact (proj1 (IH H) _ _ Hin).
  - intros _ st st'. cbn. destruct (boundary s ci c (fst st)); [|contradiction]. intros [<-|[]]. reflexivity.
  - intros _ st st'. cbn. destruct (boundary s ci c (fst st)); [contradiction|]. intros [<-|[]]. reflexivity.
  - intros _ st st'. cbn. destruct (holds s ml a (fst st)); [|contradiction]. intros [<-|[]]. reflexivity.
  - intros _ st st' [].
Qed.

Lemma sem_seq : forall l st st', sem (RSeq l) st st' = sems l st st'.
Proof. reflexivity. Qed.
Lemma sem_rep : forall k a b l st st', sem (RRep k a b l) st st' =
  (exists j : nat, (a <= N.of_nat j)%N /\ (b = 0%N \/ (N.of_nat j <= b)%N) /\ iter (sems l) j st st').
Proof. reflexivity. Qed.
Lemma sem_cap : forall id l st st', sem (RCap id l) st st' =
  (exists m, sems l st m /\ st' = (fst m, (id, (fst st, fst m)) :: snd m)).
Proof. reflexivity. Qed.
Lemma sem_ncap : forall id nm l st st', sem (RNCap id nm l) st st' =
  (exists m, sems l st m /\ st' = (fst m, (id, (fst st, fst m)) :: snd m)).
Proof. reflexivity. Qed.
Lemma sem_ahead : forall (neg : bool) l st st', sem (RAhead neg l) st st' =
  (if neg then st' = st /\ forall m, ~ sems l st m
   else exists m, sems l st m /\ st' = (fst st, snd m)).
Proof. intros [] l st st'; reflexivity. Qed.
Lemma sem_atomic : forall l st st', sem (RAtomic l) st st' = sems l st st'.
Proof. reflexivity. Qed.
Lemma sem_select_cons : forall x xs st st', sem (RSelect (x :: xs)) st st' =
  (sem x st st' \/ sem (RSelect xs) st st').
Proof. reflexivity. Qed.

Theorem enum_sem : forall r,
  (plain r -> neg_plain r) /\
  (neg_plain r -> forall st st', st_ok st -> In st' (enumF r st) -> sem r st st') /\
  (plain r -> forall st st', st_ok st -> sem r st st' -> In st' (enumF r st)).
Proof.
  induction r as
    [ | r l IHr IHl | c | | t | l IH | l IH | | | k a b l IH | id l IH | id nm l IH | id | nm
    | neg l IH | neg l IH | l IH | c | c | a | m ]
    using re_ind2 with (Q := fun l =>
      ((plains l -> neg_plains l) /\
       (neg_plains l -> forall st st', st_ok st -> In st' (enumsF l st) -> sems l st st') /\
       (plains l -> forall st st', st_ok st -> sems l st st' -> In st' (enumsF l st))) /\
      (neg_plains l -> forall st st', st_ok st -> In st' (enumF (RSelect l) st) -> sem (RSelect l) st st') /\
      (plains l -> forall st st', st_ok st -> sem (RSelect l) st st' -> In st' (enumF (RSelect l) st)));
    try (split; [intros; exact I|]).
  - split; [split; [intros; exact I|]; split|split].
    + intros _ st st' _ [<-|[]]. reflexivity.
    + intros _ st st' _ H. left. symmetry. exact H.
    + intros _ st st' _ [].
    + intros _ st st' _ [].
  - destruct IHr as (R0 & R1 & R2), IHl as ((L0 & L1 & L2) & L3 & L4).
    split; [split; [|split]|split].
    + intros [H1 H2]. split; auto.
    + intros [N1 N2] st st' Hs H. rewrite enums_cons in H. apply in_flat_map in H as (m & H1 & H2).
      exists m. split; [apply R1; assumption|]. apply L1; auto. apply (enum_forth _ _ _ _ _ _ _ _ H1 Hs).
    + intros [P1 P2] st st' Hs (m & H1 & H2). rewrite enums_cons. apply in_flat_map. exists m.
      assert (Hm : In m (enumF r st)) by auto. split; [assumption|].
      apply L2; auto. apply (enum_forth _ _ _ _ _ _ _ _ Hm Hs).
    + intros [N1 N2] st st' Hs H. rewrite enum_select_cons in H. rewrite sem_select_cons.
      apply in_app_iff in H as [H|H]; auto.
    + intros [P1 P2] st st' Hs H. rewrite enum_select_cons. rewrite sem_select_cons in H.
      apply in_app_iff. destruct H; auto.
  - split; intros _ st st' _ H; apply step_iff; exact H.
  - assert (D : forall v, dot ml v = true <-> ~ (ml = true /\ v = 10%Z)).
    { intros v. unfold dot. rewrite negb_true_iff, andb_false_iff, Z.eqb_neq.
      destruct ml; intuition congruence. }
    split; intros _ st st' _ H.
    + apply step_iff in H as (v & H1 & H2 & H3). apply D in H2. exists v. auto.
    + destruct H as (v & H1 & H2 & H3). apply D in H2. apply step_iff. exists v. auto.
  - split; intros _ st st' _ H; apply walk_iff; exact H.
  - destruct IH as ((L0 & L1 & L2) & L3 & L4). split; [exact L0|]. split; assumption.
  - destruct IH as ((L0 & L1 & L2) & L3 & L4). split; [exact L0|]. split; [exact L1 | exact L2].
  - split; intros _ st st' _ H; [destruct H as [<-|[]]; reflexivity | left; symmetry; exact H].
  - split; intros _ st st' _ [].
  - destruct IH as ((L0 & L1 & L2) & L3 & L4). split; [intros (_ & H & _); exact (L0 H)|]. split.
    + intros Hn st st' Hs H. rewrite enum_rep in H. rewrite sem_rep.
      eapply iterate_iter; [|eassumption|eassumption].
      intros x y Hx Hy. split; [apply L1; assumption|]. apply (enumsF_forth _ _ _ Hy Hx).
    + intros (Hk & Hp & Hc) st st' Hs H. rewrite enum_rep. rewrite sem_rep in H.
      destruct H as (j & J1 & J2 & J3). eapply iter_iterate; eauto.
      intros x y Hx Hy. pose proof (L2 Hp x y Hx Hy) as Hin. split; [assumption|].
      split; [apply (enumsF_forth _ _ _ Hin Hx) | apply Hc; assumption].
  - destruct IH as ((L0 & L1 & L2) & L3 & L4). split; [exact L0|]. split.
    + intros Hn st st' Hs H. rewrite enum_cap in H. apply in_map_iff in H as (m & <- & H).
      rewrite sem_cap. exists m. split; [apply L1; assumption|reflexivity].
    + intros Hp st st' Hs H. rewrite sem_cap in H. destruct H as (m & H & ->).
      rewrite enum_cap. apply in_map_iff. exists m. split; [reflexivity|]. apply L2; assumption.
  - destruct IH as ((L0 & L1 & L2) & L3 & L4). split; [exact L0|]. split.
    + intros Hn st st' Hs H. rewrite enum_ncap in H. apply in_map_iff in H as (m & <- & H).
      rewrite sem_ncap. exists m. split; [apply L1; assumption|reflexivity].
    + intros Hp st st' Hs H. rewrite sem_ncap in H. destruct H as (m & H & ->).
      rewrite enum_ncap. apply in_map_iff. exists m. split; [reflexivity|]. apply L2; assumption.
  - split; intros _ st st' Hs H; apply (back_iff id st st' Hs); exact H.
  - split; intros _ st st' Hs H; cbn in *; destruct (names nm) as [id|].
    + exists id. split; [reflexivity|]. apply back_iff; assumption.
    + contradiction.
    + destruct H as (id' & E & H). injection E as <-. apply (back_iff id st st' Hs). assumption.
    + destruct H as (id' & E & _). discriminate.
  - destruct IH as ((L0 & L1 & L2) & L3 & L4). split; [|split].
    + destruct neg; intros [Hp _]; [exact Hp | exact (L0 Hp)].
    + intros Hn st st' Hs H. rewrite enum_ahead in H. rewrite sem_ahead. destruct neg.
      * destruct (enumsF l st) as [|x xs] eqn:E; [|contradiction]. destruct H as [<-|[]].
        split; [reflexivity|]. intros m Hm. apply (L2 Hn) in Hm; [|assumption]. rewrite E in Hm. exact Hm.
      * destruct (enumsF l st) as [|x xs] eqn:E; [contradiction|]. destruct H as [<-|[]].
        exists x. split; [|reflexivity]. apply L1; auto. rewrite E. left. reflexivity.
    + intros [Hp Hg] st st' Hs H. rewrite enum_ahead. rewrite sem_ahead in H. destruct neg.
      * destruct H as [-> H]. destruct (enumsF l st) as [|x xs] eqn:E; [left; reflexivity|].
        exfalso. apply (H x). apply L1; auto. rewrite E. left. reflexivity.
      * destruct H as (m & H & ->). apply (L2 Hp) in H; [|assumption].
        destruct (enumsF l st) as [|x xs] eqn:E; [contradiction|]. left.
        assert (G : forall y, In y (enumsF l st) -> snd y = snd st).
        { intros y Hy. apply (no_groups_log false (RSeq l)); [exact Hg | exact Hy]. }
        rewrite E in G. rewrite (G x) by (left; reflexivity). rewrite (G m) by assumption.
        reflexivity.
  - split; intros _ st st' _ H; cbn in *; destruct neg.
    + destruct (bseq s ml ci l (fst st)); [|contradiction]. destruct H as [<-|[]]. auto.
    + destruct (bseq s ml ci l (fst st)); [contradiction|]. destruct H as [<-|[]]. split; congruence.
    + destruct H as [-> H]. rewrite H. left. reflexivity.
    + destruct H as [-> H]. destruct (bseq s ml ci l (fst st)); [congruence|]. left. reflexivity.
  - destruct IH as ((L0 & L1 & L2) & L3 & L4). split; [intros []|]. split; [|intros []].
    intros Hn st st' Hs H. rewrite enum_atomic in H. rewrite sem_atomic.
    apply firstn1_in in H. apply L1; assumption.
  - split; intros _ st st' _ H; cbn in *; destruct (boundary s ci c (fst st)).
    + destruct H as [<-|[]]. auto.
    + contradiction.
    + destruct H as [-> _]. left. reflexivity.
    + destruct H as [_ H]. discriminate.
  - split; intros _ st st' _ H; cbn in *; destruct (boundary s ci c (fst st)).
    + contradiction.
    + destruct H as [<-|[]]. auto.
    + destruct H as [_ H]. discriminate.
    + destruct H as [-> _]. left. reflexivity.
  - split; intros _ st st' _ H; cbn in *; destruct (holds s ml a (fst st)).
    + destruct H as [<-|[]]. auto.
    + contradiction.
    + destruct H as [-> _]. left. reflexivity.
    + destruct H as [_ H]. discriminate.
  - split; intros _ st st' _ [].
Qed.
End Cut.
