(** Facts about the specification alone. *)
From Coq Require Import List ZArith NArith Bool Lia Arith.
From Verif Require Import Chars Syntax Spec EvalSem.
Import ListNotations.

Lemma firstn1_in : forall A (x : A) l, In x (firstn 1 l) -> In x l.
Proof. intros A x [|y l]; cbn; [tauto|]. intros [H|[]]. left. assumption. Qed.

Section Props.
Variables (s : list Z) (ml ci : bool) (names : list Z -> option nat) (cut : bool).
Notation enum := (enum s ml ci names cut).
Notation enums := (enums s ml ci names cut).
Notation len := (length s).

Lemma keep_in : forall A (x : A) l, In x (keep cut l) -> In x l.
Proof. intros A x l. unfold keep. destruct cut; [apply firstn1_in | auto]. Qed.
Lemma progress_in : forall st x l, In x (progress cut st l) -> In x l.
Proof. intros st x l. unfold progress. destruct cut; [|auto]. intros H. apply filter_In in H. tauto. Qed.

(** A reflexive and transitive relation kept by a body is kept by its iterations. *)
Section Closure.
  Variable R : state -> state -> Prop.
  Hypothesis Rrefl : forall st, R st st.
  Hypothesis Rtrans : forall x y z, R x y -> R y z -> R x z.
  Variable body : state -> list state.
  Hypothesis Hbody : forall st st', In st' (body st) -> R st st'.

  Lemma mandatory_R : forall k st st', In st' (mandatory cut body k st) -> R st st'.
  Proof.
    induction k as [|k IH]; cbn; intros st st' H.
    - destruct H as [<-|[]]. apply Rrefl.
    - apply in_flat_map in H as (m & H1 & H2). eapply Rtrans; [|apply IH; eassumption].
      apply Hbody. eapply progress_in, keep_in. eassumption.
  Qed.
  Lemma greedy_R : forall k b i st st', In st' (more_greedy cut body k b i st) -> R st st'.
  Proof.
    induction k as [|k IH]; cbn; intros b i st st' H; [contradiction|].
    apply in_app_iff in H as [H|H].
    - destruct (N.eqb b 0 || N.ltb i b)%bool; [|contradiction].
      apply in_flat_map in H as (m & H1 & H2). eapply Rtrans; [|eapply IH; eassumption].
      apply Hbody. apply keep_in in H1. apply filter_In in H1. tauto.
    - destruct H as [<-|[]]. apply Rrefl.
  Qed.
  Lemma lazy_R : forall k b i st st', In st' (more_lazy cut body k b i st) -> R st st'.
  Proof.
    induction k as [|k IH]; cbn; intros b i st st' H; [contradiction|].
    destruct H as [<-|H]; [apply Rrefl|].
    destruct (N.eqb b 0 || N.ltb i b)%bool; [|contradiction].
    apply in_flat_map in H as (m & H1 & H2). eapply Rtrans; [|eapply IH; eassumption].
    apply Hbody. apply keep_in in H1. apply filter_In in H1. tauto.
  Qed.
  Lemma iterate_R : forall k a b st st', In st' (iterate s cut body k a b st) -> R st st'.
  Proof.
    intros k a b st st' H. unfold iterate in H.
    destruct (negb (N.eqb b 0) && N.ltb b a)%bool; [contradiction|].
    destruct k; [| |apply firstn1_in in H];
      apply in_flat_map in H as (m & H1 & H2); (eapply Rtrans; [eapply mandatory_R; eassumption|]).
    - eapply greedy_R; eassumption.
    - eapply lazy_R; eassumption.
    - eapply greedy_R; eassumption.
  Qed.
End Closure.

(** Positions stay inside the subject, do not move back, and logged spans are ordered. *)
Definition st_ok (st : state) : Prop :=
  fst st <= len /\ Forall (fun e => fst (snd e) <= snd (snd e) <= len) (snd st).
Definition forth (st st' : state) : Prop := st_ok st -> st_ok st' /\ fst st <= fst st'.

Lemma forth_refl : forall st, forth st st.
Proof. intros st H. auto. Qed.
Lemma forth_trans : forall x y z, forth x y -> forth y z -> forth x z.
Proof. intros x y z H1 H2 Hx. destruct (H1 Hx) as [Hy ?]. destruct (H2 Hy). split; [assumption|lia]. Qed.

Lemma step_forth : forall P st st', In st' (step s P st) -> forth st st' /\ fst st' = S (fst st).
Proof.
  intros P [p L] st' H. unfold step in H. cbn [fst snd] in H.
  destruct (nth_error s p) as [x|] eqn:E; [|contradiction].
  destruct (P x); [|contradiction]. destruct H as [<-|[]]. split; [|reflexivity].
  intros [H1 H2]. cbn [fst snd] in *. assert (p < len) by (apply nth_error_Some; congruence).
  repeat split; cbn; try lia; auto.
Qed.

Lemma walk_forth : forall t st st', In st' (walk s ci t st) ->
  forth st st' /\ fst st' = fst st + length t.
Proof.
  induction t as [|c t IH]; cbn [walk length]; intros st st' H.
  - destruct H as [<-|[]]. split; [apply forth_refl|lia].
  - apply in_flat_map in H as (m & H1 & H2). apply step_forth in H1 as [H1 H1'].
    apply IH in H2 as [H2 H2']. split; [eapply forth_trans; eassumption|lia].
Qed.

Lemma lookup_in : forall id L sp, lookup id L = Some sp -> In (id, sp) L.
Proof.
  induction L as [|[i sp'] L IH]; cbn; intros sp H; [discriminate|].
  destruct (Nat.eqb_spec i id); [left; congruence | right; auto].
Qed.

Lemma prefix_at_len : forall t p, p <= len -> prefix_at s t p = true -> p + length t <= len.
Proof.
  induction t as [|c t IH]; cbn; intros p Hp H; [lia|].
  destruct (nth_error s p) as [x|] eqn:E; [|discriminate].
  assert (p < len) by (apply nth_error_Some; congruence).
  apply andb_true_iff in H as [_ H]. apply IH in H; lia.
Qed.

Lemma text_length : forall b e, b <= e <= len -> length (text s b e) = e - b.
Proof. intros b e H. unfold text. rewrite firstn_length, skipn_length. lia. Qed.

Lemma back_forth : forall b e st, In (b, e) (map snd (snd st)) ->
  prefix_at s (text s b e) (fst st) = true -> forth st (fst st + (e - b), snd st).
Proof.
  intros b e [p L] Hin Hp [H1 H2]. cbn [fst snd] in *.
  apply in_map_iff in Hin as ([i sp] & E & Hin). cbn in E. subst sp.
  rewrite Forall_forall in H2. pose proof (H2 _ Hin) as Hb. cbn in Hb.
  apply prefix_at_len in Hp; [|assumption]. rewrite text_length in Hp by assumption.
  repeat split; cbn; try lia. rewrite Forall_forall. assumption.
Qed.

Lemma enum_forth : forall r st st', In st' (enum r st) -> forth st st'.
Proof.
  induction r as
    [ | r l IHr IHl | c | | t | l IH | l IH | | | k a b l IH | id l IH | id nm l IH | id | nm
    | neg l IH | neg l IH | l IH | c | c | a | m ]
    using re_ind2 with (Q := fun l => (forall st st', In st' (enums l st) -> forth st st') /\
                                      (forall st st', In st' (enum (RSelect l) st) -> forth st st')).
  - split; intros st st' H; [|contradiction]. destruct H as [<-|[]]. apply forth_refl.
  - destruct IHl as [I1 I2]. split; intros st st' H.
    + rewrite enums_cons in H. apply in_flat_map in H as (m & H1 & H2).
      eapply forth_trans; [apply IHr; eassumption | apply I1; assumption].
    + rewrite enum_select_cons in H. apply in_app_iff in H as [H|H]; auto.
  - intros st st' H. apply (step_forth _ _ _ H).
  - intros st st' H. apply (step_forth _ _ _ H).
  - intros st st' H. apply (walk_forth _ _ _ H).
  - apply IH.
  - intros st st'. rewrite enum_seq. apply IH.
  - intros st st' [<-|[]]. apply forth_refl.
  - intros st st' [].
  - intros st st'. rewrite enum_rep. apply iterate_R; [apply forth_refl | apply forth_trans | apply IH].
  - intros st st'. rewrite enum_cap. intros H. apply in_map_iff in H as (m & <- & H).
    apply IH in H. intros Hs. destruct (H Hs) as [[H1 H2] H3]. cbn.
    destruct Hs. unfold st_ok. cbn [fst snd]. repeat split; try assumption.
    constructor; [cbn; split; assumption | assumption].
  - intros st st'. rewrite enum_ncap. intros H. apply in_map_iff in H as (m & <- & H).
    apply IH in H. intros Hs. destruct (H Hs) as [[H1 H2] H3]. cbn.
    destruct Hs. unfold st_ok. cbn [fst snd]. repeat split; try assumption.
    constructor; [cbn; split; assumption | assumption].
  - intros st st' H. cbn in H. destruct (lookup id (snd st)) as [[b e]|] eqn:E; [|contradiction].
    destruct (prefix_at s (text s b e) (fst st)) eqn:Ep; [|contradiction].
    destruct H as [<-|[]]. apply back_forth; [|assumption].
    apply lookup_in in E. apply in_map_iff. exists (id, (b, e)). auto.
  - intros st st' H. cbn in H. destruct (names nm) as [id|]; [|contradiction].
    destruct (lookup id (snd st)) as [[b e]|] eqn:E; [|contradiction].
    destruct (prefix_at s (text s b e) (fst st)) eqn:Ep; [|contradiction].
    destruct H as [<-|[]]. apply back_forth; [|assumption].
    apply lookup_in in E. apply in_map_iff. exists (id, (b, e)). auto.
  - intros st st'. rewrite enum_ahead. destruct neg.
    + destruct (enums l st); [|contradiction]. intros [<-|[]]. apply forth_refl.
    + destruct (enums l st) as [|x xs] eqn:E; [contradiction|]. intros [<-|[]] Hs.
      destruct IH as [IH _]. destruct (IH st x ltac:(rewrite E; left; reflexivity) Hs) as [[_ H] _].
      destruct Hs. repeat split; cbn; auto.
  - intros st st'. rewrite enum_behind.
    destruct neg, (bseq s ml ci l (fst st)); try contradiction; intros [<-|[]]; apply forth_refl.
  - intros st st'. rewrite enum_atomic. intros H. apply firstn1_in, progress_in in H.
    exact (proj1 IH _ _ H).
  - intros st st'. cbn. destruct (boundary s ci c (fst st)); [|contradiction].
    intros [<-|[]]. apply forth_refl.
  - intros st st'. cbn. destruct (boundary s ci c (fst st)); [contradiction|].
    intros [<-|[]]. apply forth_refl.
  - intros st st'. cbn. destruct (holds s ml a (fst st)); [|contradiction].
    intros [<-|[]]. apply forth_refl.
  - intros st st' [].
Qed.

Lemma enums_forth : forall l st st', In st' (enums l st) -> forth st st'.
Proof. intros l st st' H. apply (enum_forth (RSeq l)). rewrite enum_seq. assumption. Qed.

(** Under the discipline [nonnull] is right: every outcome consumes something. *)
Definition strict (st st' : state) : Prop := st_ok st -> fst st < fst st'.

Lemma mandatory_strict : forall body k st st', cut = true ->
  (forall st st', In st' (body st) -> forth st st') ->
  In st' (mandatory cut body (S k) st) -> strict st st'.
Proof.
  intros body k st st' Hc Hb H Hs. cbn in H. apply in_flat_map in H as (m & H1 & H2).
  apply keep_in in H1. unfold progress in H1. rewrite Hc in H1. apply filter_In in H1 as [H1 H3].
  apply Nat.ltb_lt in H3. destruct (Hb _ _ H1 Hs) as [Hm _].
  pose proof (mandatory_R forth forth_refl forth_trans body Hb k m st' H2 Hm). lia.
Qed.

Lemma enum_strict : cut = true -> forall r st st', nonnull r = true ->
  In st' (enum r st) -> strict st st'.
Proof.
  intros Hc.
  induction r as
    [ | r l IHr IHl | c | | t | l IH | l IH | | | k a b l IH | id l IH | id nm l IH | id | nm
    | neg l IH | neg l IH | l IH | c | c | a | m ]
    using re_ind2 with (Q := fun l =>
      (forall st st', existsb nonnull l = true -> In st' (enums l st) -> strict st st') /\
      (forall st st', forallb nonnull l = true -> In st' (enum (RSelect l) st) -> strict st st'));
    try (cbn [nonnull]; discriminate).
  - split; [discriminate|]. intros st st' _ [].
  - destruct IHl as [I1 I2]. split; intros st st'.
    + cbn [existsb]. intros Hn H Hs. rewrite enums_cons in H. apply in_flat_map in H as (m & H1 & H2).
      destruct (enum_forth _ _ _ H1 Hs) as [Hm H3]. destruct (enums_forth _ _ _ H2 Hm) as [_ H4].
      apply orb_true_iff in Hn as [Hn|Hn].
      * pose proof (IHr _ _ Hn H1 Hs). lia.
      * pose proof (I1 _ _ Hn H2 Hm). lia.
    + cbn [forallb]. intros Hn H. apply andb_true_iff in Hn as [N1 N2].
      rewrite enum_select_cons in H. apply in_app_iff in H as [H|H]; [apply IHr | apply I2]; assumption.
  - intros st st' _ H _. apply step_forth in H as [_ H]. lia.
  - intros st st' _ H _. apply step_forth in H as [_ H]. lia.
  - intros st st' Hn H _. apply walk_forth in H as [_ H]. cbn in Hn.
    destruct (length t); [discriminate|lia].
  - exact (proj2 IH).
  - intros st st'. rewrite enum_seq. exact (proj1 IH st st').
  - intros st st' _ [].
  - intros st st' Hn H Hs. rewrite enum_rep in H. unfold iterate in H. cbn in Hn.
    destruct (negb (N.eqb b 0) && N.ltb b a)%bool; [contradiction|].
    destruct (N.to_nat a) as [|k'] eqn:Ek; [apply negb_true_iff, N.eqb_neq in Hn; lia|].
    assert (X : forall st', In st' (flat_map (fun x => more_greedy cut (enums l) (S (len - fst x)) b a x)
              (mandatory cut (enums l) (S k') st)) -> fst st < fst st').
    { clear H st'. intros st' H. apply in_flat_map in H as (m & H1 & H2).
      pose proof (mandatory_strict _ _ _ _ Hc (enums_forth l) H1 Hs) as H3.
      pose proof (mandatory_R forth forth_refl forth_trans _ (enums_forth l) _ _ _ H1 Hs) as [H4 _].
      pose proof (greedy_R forth forth_refl forth_trans _ (enums_forth l) _ _ _ _ _ H2 H4). lia. }
    destruct k; [apply X; assumption | | apply X, firstn1_in; assumption].
    apply in_flat_map in H as (m & H1 & H2).
    pose proof (mandatory_strict _ _ _ _ Hc (enums_forth l) H1 Hs) as H3.
    pose proof (mandatory_R forth forth_refl forth_trans _ (enums_forth l) _ _ _ H1 Hs) as [H4 _].
    pose proof (lazy_R forth forth_refl forth_trans _ (enums_forth l) _ _ _ _ _ H2 H4). lia.
  - intros st st' Hn H. rewrite enum_cap in H. apply in_map_iff in H as (m & <- & H).
    exact (proj1 IH _ _ Hn H).
  - intros st st' Hn H. rewrite enum_ncap in H. apply in_map_iff in H as (m & <- & H).
    exact (proj1 IH _ _ Hn H).
  - intros st st' _ H Hs. rewrite enum_atomic in H. apply firstn1_in in H. unfold progress in H.
    rewrite Hc in H. apply filter_In in H as [_ H]. apply Nat.ltb_lt in H. assumption.
Qed.

(** The fuel of the loops does not matter. *)
Lemma greedy_fuel : forall body b, (forall st st', In st' (body st) -> forth st st') ->
  forall k k' i st, st_ok st -> len - fst st < k -> len - fst st < k' ->
  more_greedy cut body k b i st = more_greedy cut body k' b i st.
Proof.
  intros body b Hb. induction k as [|k IH]; intros k' i st Hs Hk Hk'; [lia|].
  destruct k' as [|k']; [lia|]. cbn [more_greedy]. f_equal.
  destruct (N.eqb b 0 || N.ltb i b)%bool; [|reflexivity].
  assert (X : forall m, In m (keep cut (filter (advances st) (body st))) ->
            st_ok m /\ fst st < fst m).
  { intros m Hm. apply keep_in in Hm. apply filter_In in Hm as [Hm Ha].
    apply Nat.ltb_lt in Ha. destruct (Hb _ _ Hm Hs). auto. }
  induction (keep cut (filter (advances st) (body st))) as [|m ms IHm]; [reflexivity|].
  cbn [flat_map]. rewrite IHm by (intros; apply X; right; assumption). f_equal.
  destruct (X m ltac:(left; reflexivity)) as [[X1 X2] X3]. apply IH; [split; assumption | lia | lia].
Qed.
Lemma lazy_fuel : forall body b, (forall st st', In st' (body st) -> forth st st') ->
  forall k k' i st, st_ok st -> len - fst st < k -> len - fst st < k' ->
  more_lazy cut body k b i st = more_lazy cut body k' b i st.
Proof.
  intros body b Hb. induction k as [|k IH]; intros k' i st Hs Hk Hk'; [lia|].
  destruct k' as [|k']; [lia|]. cbn [more_lazy]. f_equal.
  destruct (N.eqb b 0 || N.ltb i b)%bool; [|reflexivity].
  assert (X : forall m, In m (keep cut (filter (advances st) (body st))) ->
            st_ok m /\ fst st < fst m).
  { intros m Hm. apply keep_in in Hm. apply filter_In in Hm as [Hm Ha].
    apply Nat.ltb_lt in Ha. destruct (Hb _ _ Hm Hs). auto. }
  induction (keep cut (filter (advances st) (body st))) as [|m ms IHm]; [reflexivity|].
  cbn [flat_map]. rewrite IHm by (intros; apply X; right; assumption). f_equal.
  destruct (X m ltac:(left; reflexivity)) as [[X1 X2] X3]. apply IH; [split; assumption | lia | lia].
Qed.
End Props.
