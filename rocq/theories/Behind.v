(** Lookbehind: the content is reversed by the parser and evaluated on the reversed subject; together this
    is the forward meaning of the pattern that was written, read up to the current position. *)
From Coq Require Import List ZArith NArith Bool Lia Arith ZifyBool ZifyNat ZifyN.
From Verif Require Import Chars Syntax First View Eval Api Spec CharProofs EvalMono EvalInv EvalSem SpecProps SpecCut
  ApiProofs Term Actions.
Import ListNotations.

Section Rotation.
Variables (s : list Z) (ml ci : bool) (names : list Z -> option nat).
Notation sem := (sem s ml ci names).
Notation sems := (sems s ml ci names).
Notation benum := (benum s ml ci).
Notation bseq := (bseq s ml ci).

Lemma bseq_app : forall a b p q, In q (bseq (a ++ b) p) <-> exists m, In m (bseq a p) /\ In q (bseq b m).
Proof.
  induction a as [|x a IH]; intros b p q; cbn [app Spec.bseq].
  - split; [intros H; exists p; cbn; auto|]. intros (m & [<-|[]] & H). assumption.
  - rewrite in_flat_map. split.
    + intros (m & H1 & H2). apply IH in H2 as (m' & H2 & H3). exists m'. split; [|assumption].
      apply in_flat_map. eauto.
    + intros (m & H1 & H2). apply in_flat_map in H1 as (m' & H1 & H3). exists m'. split; [assumption|].
      apply IH. eauto.
Qed.
Lemma bwalk_app : forall a b p q, In q (bwalk s ci (a ++ b) p) <-> exists m, In m (bwalk s ci a p) /\ In q (bwalk s ci b m).
Proof.
  induction a as [|x a IH]; intros b p q; cbn [app Spec.bwalk].
  - split; [intros H; exists p; cbn; auto|]. intros (m & [<-|[]] & H). assumption.
  - rewrite in_flat_map. split.
    + intros (m & H1 & H2). apply IH in H2 as (m' & H2 & H3). exists m'. split; [|assumption].
      apply in_flat_map. eauto.
    + intros (m & H1 & H2). apply in_flat_map in H1 as (m' & H1 & H3). exists m'. split; [assumption|].
      apply IH. eauto.
Qed.
Lemma bstep_iff : forall P p q, In q (bstep s P p) <-> p = S q /\ exists x, nth_error s q = Some x /\ P x = true.
Proof.
  intros P p q. unfold bstep. destruct p as [|p]; [split; [intros []|intros [H _]; discriminate]|].
  destruct (nth_error s p) as [x|] eqn:E.
  - destruct (P x) eqn:EP; split.
    + intros [<-|[]]. split; [reflexivity|]. eauto.
    + intros [H _]. injection H as ->. left. reflexivity.
    + intros [].
    + intros [H (y & H1 & H2)]. injection H as ->. congruence.
  - split; [intros []|]. intros [H (y & H1 & H2)]. injection H as ->. congruence.
Qed.

Lemma bwalk_rev : forall t p q, In q (bwalk s ci (rev t) p) <->
  p = q + length t /\ forall i c, nth_error t i = Some c -> exists x, nth_error s (q + i) = Some x /\ lit_has ci c x = true.
Proof.
  induction t as [|a t IH]; intros p q.
  - cbn. rewrite Nat.add_0_r. split.
    + intros [->|[]]. split; [reflexivity|]. intros [|i] c H; discriminate.
    + intros [-> _]. auto.
  - cbn [rev]. rewrite bwalk_app. split.
    + intros (m & H1 & H2). apply IH in H1 as [-> H1]. cbn [bwalk] in H2. apply in_flat_map in H2 as (q' & H2 & [<-|[]]).
      apply bstep_iff in H2 as [-> (x & H2 & H3)]. cbn [length]. split; [lia|]. intros [|i] c Hc.
      * injection Hc as <-. rewrite Nat.add_0_r. eauto.
      * destruct (H1 i c Hc) as (y & H4 & H5). exists y. replace (q' + S i) with (S q' + i) by lia. auto.
    + intros [-> H]. exists (S q). split.
      * apply IH. cbn [length]. split; [lia|]. intros i c Hc. destruct (H (S i) c Hc) as (y & H4 & H5).
        exists y. replace (S q + i) with (q + S i) by lia. auto.
      * cbn [bwalk]. apply in_flat_map. exists q. split; [|left; reflexivity]. apply bstep_iff. split; [reflexivity|].
        destruct (H 0 a eq_refl) as (x & H4 & H5). rewrite Nat.add_0_r in H4. eauto.
Qed.

(** What a lookbehind may contain: characters, classes, strings, boundaries, sequences, alternatives. *)
Fixpoint simple (r : re) : bool :=
  match r with
  | RCls _ | RBound _ | RNotBound _ | RStr _ | RAny | REmpty => true
  | RSelect l => forallb simple l
  | RSeq l => forallb simple l
  | _ => false
  end.

Lemma rotated : forall r, simple r = true -> forall r', rotate r = Some r' ->
  (forall p q L, In q (benum r' p) <-> sem r (q, L) (p, L)) /\ (forall st st', sem r st st' -> snd st' = snd st).
Proof.
  intros r. induction r as
    [ | r l IHr IHl | c | | t | l IH | l IH | | | k a b l IH | id l IH | id nm l IH | id | nm
    | neg l IH | neg l IH | l IH | c | c | a | m ]
    using re_ind2 with (Q := fun l => forallb simple l = true -> forall l', opt_map rotate l = Some l' ->
      (forall p q L, In q (bseq (rev l') p) <-> sems l (q, L) (p, L)) /\ (forall st st', sems l st st' -> snd st' = snd st) /\
      (forall p q L, In q (benum (RSelect l') p) <-> sem (RSelect l) (q, L) (p, L)) /\
      (forall st st', sem (RSelect l) st st' -> snd st' = snd st)).
  - intros _ l' H. injection H as <-. cbn. repeat split; intros; try contradiction.
    + destruct H as [->|[]]. reflexivity.
    + left. congruence.
    + congruence.
  - intros Hs l' H. cbn [forallb] in Hs. apply andb_true_iff in Hs as [Hr Hl]. cbn [opt_map] in H.
    destruct (rotate r) as [y|] eqn:E1; [|discriminate]. destruct (opt_map rotate l) as [ys|] eqn:E2; [|discriminate].
    injection H as <-. destruct (IHr Hr y eq_refl) as [R1 R2]. destruct (IHl Hl ys eq_refl) as (L1 & L2 & L3 & L4).
    split; [|split; [|split]].
    + intros p q L. cbn [rev Spec.sems]. rewrite bseq_app. split.
      * intros (m & H1 & H2). cbn [Spec.bseq] in H2. apply in_flat_map in H2 as (q' & H2 & [<-|[]]).
        exists (m, L). split; [apply R1; assumption|]. apply L1. assumption.
      * intros ([m L'] & H1 & H2). assert (L' = L) as -> by (apply (R2 _ _ H1)).
        exists m. split; [apply (L1 p m L); assumption|]. cbn [Spec.bseq]. apply in_flat_map. exists q.
        split; [apply (R1 m q L); assumption|left; reflexivity].
    + intros st st' (m & H1 & H2). rewrite (L2 _ _ H2). apply (R2 _ _ H1).
    + intros p q L. rewrite benum_select_cons, in_app_iff. rewrite (R1 p q L), (L3 p q L). reflexivity.
    + intros st st' [H|H]; [apply (R2 _ _ H)|apply (L4 _ _ H)].
  - intros _ r' H. injection H as <-. cbn [Spec.benum Spec.sem fst snd]. split.
    + intros p q L. rewrite bstep_iff. split.
      * intros [-> (x & H1 & H2)]. exists x. auto.
      * intros (x & H1 & H2 & H3). injection H3 as ->. split; [reflexivity|]. eauto.
    + intros st st' (x & _ & _ & ->). reflexivity.
  - intros _ r' H. injection H as <-. cbn [Spec.benum Spec.sem fst snd]. split.
    + intros p q L. rewrite bstep_iff. unfold dot. split.
      * intros [-> (x & H1 & H2)]. exists x. split; [assumption|]. split; [|reflexivity].
        intros [-> ->]. discriminate.
      * intros (x & H1 & H2 & H3). injection H3 as ->. split; [reflexivity|]. exists x. split; [assumption|].
        destruct ml; [|reflexivity]. destruct (Z.eqb_spec x 10); [|reflexivity]. exfalso. auto.
    + intros st st' (x & _ & _ & ->). reflexivity.
  - intros _ r' H. injection H as <-. cbn [Spec.benum Spec.sem fst snd]. split.
    + intros p q L. rewrite bwalk_rev. split; intros [H1 H2]; (split; [congruence|assumption]).
    + intros st st' [-> _]. reflexivity.
  - intros Hs r' H. cbn [rotate] in H. destruct (opt_map rotate l) as [ys|] eqn:E; [|discriminate]. injection H as <-.
    destruct (IH Hs ys eq_refl) as (_ & _ & A & B). auto.
  - intros Hs r' H. cbn [rotate] in H. destruct (opt_map rotate l) as [ys|] eqn:E; [|discriminate]. injection H as <-.
    destruct (IH Hs ys eq_refl) as (A & B & _). split.
    + intros p q L. rewrite benum_seq, sem_seq. apply A.
    + intros st st'. rewrite sem_seq. apply B.
  - intros _ r' H. injection H as <-. cbn. split; [|intros st st' ->; reflexivity]. intros p q L. split.
    + intros [->|[]]. reflexivity.
    + intros H. left. congruence.
  - discriminate.
  - discriminate.
  - discriminate.
  - discriminate.
  - discriminate.
  - discriminate.
  - discriminate.
  - discriminate.
  - discriminate.
  - intros _ r' H. injection H as <-. cbn [Spec.benum Spec.sem fst snd]. split; [|intros st st' [-> _]; reflexivity].
    intros p q L. destruct (boundary s ci c p) eqn:E; split.
    + intros [->|[]]. auto.
    + intros [H _]. left. congruence.
    + intros [].
    + intros [H H1]. injection H as ->. congruence.
  - intros _ r' H. injection H as <-. cbn [Spec.benum Spec.sem fst snd]. split; [|intros st st' [-> _]; reflexivity].
    intros p q L. destruct (boundary s ci c p) eqn:E; split.
    + intros [].
    + intros [H H1]. injection H as ->. congruence.
    + intros [->|[]]. auto.
    + intros [H _]. left. congruence.
  - discriminate.
  - discriminate.
Qed.

Lemma rotated_all : forall l, forallb simple l = true -> forall l', opt_map rotate l = Some l' ->
  forall p q L, In q (bseq (rev l') p) <-> sems l (q, L) (p, L).
Proof.
  induction l as [|r l IHl]; intros Hs l' H p q L.
  - injection H as <-. cbn. split; [intros [->|[]]; reflexivity|]. intros H. left. congruence.
  - cbn [forallb] in Hs. apply andb_true_iff in Hs as [Hr Hl]. cbn [opt_map] in H.
    destruct (rotate r) as [y|] eqn:E1; [|discriminate]. destruct (opt_map rotate l) as [ys|] eqn:E2; [|discriminate].
    injection H as <-. destruct (rotated r Hr y E1) as [R1 R2]. cbn [rev Spec.sems]. rewrite bseq_app. split.
    + intros (m & H1 & H2). cbn [Spec.bseq] in H2. apply in_flat_map in H2 as (q' & H2 & [<-|[]]).
      exists (m, L). split; [apply R1; assumption|]. apply (IHl Hl ys eq_refl). assumption.
    + intros ([m L'] & H1 & H2). assert (L' = L) as -> by (apply (R2 _ _ H1)).
      exists m. split; [apply (IHl Hl ys eq_refl p m L); assumption|]. cbn [Spec.bseq]. apply in_flat_map. exists q.
      split; [apply (R1 m q L); assumption|left; reflexivity].
Qed.

(** The content of the lookbehind made from [r] holds before [p] when some text that ends in [p] is in the
    language of [r]. *)
Lemma behind_language : forall r l, simple r = true -> behind_content r = Some l ->
  forall p q L, In q (bseq l p) <-> sem r (q, L) (p, L).
Proof.
  intros r l Hs H p q L.
  assert (G : forall r', rotate r = Some r' -> In q (bseq [r'] p) <-> sem r (q, L) (p, L)).
  { intros r' Hr. rewrite <- (proj1 (rotated r Hs r' Hr) p q L). cbn [Spec.bseq]. rewrite in_flat_map. split.
    - intros (m & H1 & [->|[]]). assumption.
    - intros H1. exists q. split; [assumption|left; reflexivity]. }
  destruct r as [ k | | t | ys | xs | | | k a b xs | id xs | id nm xs | id | nm | neg xs | neg xs | xs | k | k | a | m ];
    try discriminate; unfold behind_content in H;
    try (match type of H with map_some _ (rotate ?x) = _ => destruct (rotate x) as [r'|] eqn:E end; [|discriminate H]; injection H as <-; apply G; reflexivity).
  destruct (opt_map rotate xs) as [ys|] eqn:E; [|discriminate]. injection H as <-.
  rewrite sem_seq. apply rotated_all; assumption.
Qed.

(** Well-formedness survives the reversal, and the reversal is defined. *)
Lemma rotate_wf : forall r, bwf ci r = true -> exists r', rotate r = Some r' /\ bwf ci r' = true.
Proof.
  intros r. induction r as
    [ | r l IHr IHl | c | | t | l IH | l IH | | | k a b l IH | id l IH | id nm l IH | id | nm
    | neg l IH | neg l IH | l IH | c | c | a | m ]
    using re_ind2 with (Q := fun l => forallb (bwf ci) l = true ->
      exists l', opt_map rotate l = Some l' /\ forallb (bwf ci) l' = true /\ length l' = length l);
    intros H; try discriminate; try (eexists; split; [reflexivity|]; exact H).
  - exists []. auto.
  - cbn [forallb] in H. apply andb_true_iff in H as [H1 H2]. destruct (IHr H1) as (y & E1 & B1).
    destruct (IHl H2) as (ys & E2 & B2 & B3). exists (y :: ys). cbn [opt_map forallb length]. rewrite E1, E2, B1, B2, B3. auto.
  - exists (RStr (rev t)). split; [reflexivity|]. cbn [bwf] in *. apply forallb_forall. intros x Hx.
    apply in_rev in Hx. rewrite forallb_forall in H. auto.
  - cbn [bwf] in H. destruct (IH H) as (ys & E & B & _). exists (RSelect ys). cbn [rotate]. rewrite E. auto.
  - cbn [bwf] in H. apply andb_true_iff in H as [H1 H2]. destruct (IH H2) as (ys & E & B & B3). exists (RSeq (rev ys)).
    cbn [rotate]. rewrite E. split; [reflexivity|]. cbn [bwf]. apply andb_true_iff. split.
    + destruct l as [|x l]; [discriminate|]. destruct ys as [|y ys]; [discriminate|]. cbn [rev].
      destruct (rev ys); reflexivity.
    + apply forallb_forall. intros x Hx. apply in_rev in Hx. rewrite forallb_forall in B. auto.
Qed.
Lemma rotate_wf_all : forall l, forallb (bwf ci) l = true ->
  exists l', opt_map rotate l = Some l' /\ forallb (bwf ci) l' = true /\ length l' = length l.
Proof.
  induction l as [|r l IHl]; intros H; [exists []; auto|].
  cbn [forallb] in H. apply andb_true_iff in H as [H1 H2]. destruct (rotate_wf r H1) as (y & E1 & B1).
  destruct (IHl H2) as (ys & E2 & B2 & B3). exists (y :: ys). cbn [opt_map forallb length]. rewrite E1, E2, B1, B2, B3. auto.
Qed.
Lemma content_wf : forall r, bwf ci r = true -> exists l, behind_content r = Some l /\ forallb (bwf ci) l = true /\ l <> [].
Proof.
  intros r H.
  assert (G : exists l, map_some (fun x => [x]) (rotate r) = Some l /\ forallb (bwf ci) l = true /\ l <> []).
  { destruct (rotate_wf r H) as (r' & -> & B). exists [r']. cbn. rewrite B. split; [reflexivity|]. split; [reflexivity|discriminate]. }
  destruct r; try exact G. cbn [bwf] in H. apply andb_true_iff in H as [H1 H2].
  destruct (rotate_wf_all l H2) as (ys & E & B & B3). exists (rev ys). unfold behind_content. rewrite E.
  split; [reflexivity|]. split.
  - apply forallb_forall. intros x Hx. apply in_rev in Hx. rewrite forallb_forall in B. auto.
  - intros E'. apply (f_equal (@length re)) in E'. rewrite rev_length, B3 in E'. destruct l; discriminate.
Qed.
Lemma bwf_simple : forall r, bwf ci r = true -> simple r = true.
Proof.
  intros r. induction r using re_ind2 with (Q := fun l => forallb (bwf ci) l = true -> forallb simple l = true);
    cbn; auto; intros H; try discriminate.
  - apply andb_true_iff in H as [H1 H2]. rewrite IHr, IHr0; auto.
  - apply andb_true_iff in H as [_ H]. auto.
Qed.
End Rotation.

(** * Evaluation *)
Section BehindEval.
Variables (opt : bool) (s : list Z).
Notation v := (arr_view s).
Hypothesis s_ok : forallb val_ok s = true.

(** Enough fuel: the content is never stuck. *)
Lemma string_rev_total : forall ci t p, p <= length s ->
  match match_string (rev_view v) ci t p with Ok q => q <= length s | No => True | _ => False end.
Proof.
  intros ci. induction t as [|a t IH]; cbn [match_string]; intros p Hp; [assumption|].
  cbn [rev_view arr_view vend vget vnext vprev vbeg or_ub].
  destruct p as [|q]; [exact I|]. cbn [Nat.eqb].
  destruct (nth_error s q) as [x|] eqn:Ex; [|exfalso; apply nth_error_None in Ex; lia].
  cbn [or_ub]. destruct (match_lit ci a x); [|exact I]. apply (IH q). lia.
Qed.

Lemma behind_total : forall n w p f c l, forallb (bwf (f_ci f)) l = true -> p <= length s -> ssize (map AR l) < n ->
  match eval opt n (rev_view v) w p f c (map AR l ++ [AEndBehind]) with Ok _ | No => True | _ => False end.
Proof.
  induction n as [|n IH]; intros w p f c l Hl Hp Hn; [lia|].
  destruct l as [|r l]; [exact I|].
  cbn [map app forallb ssize fold_right asize] in *. apply andb_true_iff in Hl as [Hr Hl].
  assert (Hfl : forall q b, q <= length s -> ssize (map AR l) < n ->
    match eval opt n (rev_view v) w q (consumed_something f b) c (map AR l ++ [AEndBehind]) with Ok _ | No => True | _ => False end).
  { intros q b Hq. apply IH; auto. destruct b; auto. }
  fold (ssize (map AR l)) in *.
  destruct r; cbn [bwf] in Hr; try discriminate; cbn [eval]; try (cbn [size] in Hn).
  - cbn [rev_view arr_view vend vget vnext vprev vbeg or_ub].
    destruct p as [|q]; [exact I|]. cbn [Nat.eqb].
    destruct (nth_error s q) as [x|] eqn:Ex; [|exfalso; apply nth_error_None in Ex; lia].
    cbn [or_ub]. destruct (match_cls (f_ci f) c0 x); [|exact I]. apply Hfl; lia.
  - cbn [rev_view arr_view vend vget vnext vprev vbeg or_ub].
    destruct p as [|q]; [exact I|]. cbn [Nat.eqb].
    destruct (nth_error s q) as [x|] eqn:Ex; [|exfalso; apply nth_error_None in Ex; lia].
    cbn [or_ub]. destruct (f_ml f); cbn [option_map or_ub].
    + destruct (Z.eqb x 10); [exact I|]. apply Hfl; lia.
    + apply Hfl; lia.
  - pose proof (string_rev_total (f_ci f) l0 p Hp) as M.
    destruct (match_string (rev_view v) (f_ci f) l0 p); auto. apply Hfl; lia.
  - destruct l0 as [|x xs]; [exact I|]. rewrite (sizes_fix xs) in Hn.
    cbn [forallb] in Hr. apply andb_true_iff in Hr as [Hx Hxs].
    pose proof (IH w p f c (x :: l)) as I1. cbn [forallb map ssize fold_right asize] in I1. rewrite Hx, Hl in I1.
    specialize (I1 eq_refl Hp). fold (ssize (map AR l)) in I1. specialize (I1 ltac:(lia)). cbn [map app] in I1.
    destruct (eval opt n (rev_view v) w p f c (AR x :: map AR l ++ [AEndBehind])); auto.
    pose proof (IH w p f c (RSelect xs :: l)) as I2. cbn [forallb bwf map ssize fold_right asize] in I2.
    fold (ssize (map AR l)) in I2. rewrite size_select in I2.
    rewrite Hxs, Hl in I2. specialize (I2 eq_refl Hp ltac:(lia)). exact I2.
  - destruct l0 as [|x xs]; [discriminate|]. cbn [nonempty andb forallb] in Hr. rewrite (sizes_fix xs) in Hn.
    apply andb_true_iff in Hr as [Hx Hxs].
    destruct xs as [|y ys].
    + pose proof (IH w p f c (x :: l)) as I1. cbn [forallb map ssize fold_right asize] in I1. rewrite Hx, Hl in I1.
      specialize (I1 eq_refl Hp). fold (ssize (map AR l)) in I1. specialize (I1 ltac:(lia)). exact I1.
    + pose proof (IH w p f c (x :: RSeq (y :: ys) :: l)) as I1.
      cbn [forallb] in I1. rewrite Hx, Hl in I1. cbn [bwf nonempty] in I1. rewrite Hxs in I1.
      specialize (I1 eq_refl Hp). cbn [map ssize fold_right asize] in I1. fold (ssize (map AR l)) in I1.
      rewrite size_seq in I1. specialize (I1 ltac:(lia)). exact I1.
  - apply (IH w p f c l); auto; lia.
  - rewrite (around_boundary_rev s (f_ci f) s_ok) by auto.
    destruct (char_after s (cls_has (f_ci f) c0) p), (char_before s (cls_has (f_ci f) c0) p);
      cbn [Bool.eqb]; auto; apply IH; auto; lia.
  - rewrite (around_boundary_rev s (f_ci f) s_ok) by auto.
    destruct (char_after s (cls_has (f_ci f) c0) p), (char_before s (cls_has (f_ci f) c0) p);
      cbn [Bool.eqb]; auto; apply IH; auto; lia.
Qed.

(** Some text that ends in [p] is in the language of [r]. *)
Definition preceded (f : flags) (r : re) (p : nat) : Prop :=
  exists q, sem s (f_ml f) (f_ci f) (fun _ => None) r (q, []) (p, []).

Lemma behind_step : forall n p f c neg r l tl, bwf (f_ci f) r = true -> behind_content r = Some l -> p <= length s ->
  size (RSeq l) + 1 < n ->
  (preceded f r p -> eval opt (S n) v v p f c (AR (RBehind neg l) :: tl) =
     if neg then No else eval opt n v v p f (unmatch (set_matched c)) tl) /\
  (~ preceded f r p -> eval opt (S n) v v p f c (AR (RBehind neg l) :: tl) =
     if neg then eval opt n v v p f c tl else No).
Proof.
  intros n p f c neg r l tl Hr Hl Hp Hn.
  assert (W : forallb (bwf (f_ci f)) [RSeq l] = true).
  { destruct (content_wf (f_ci f) r Hr) as (l' & H1 & H2 & H3). assert (l' = l) as -> by congruence.
    cbn [forallb bwf]. rewrite H2. destruct l; [contradiction|reflexivity]. }
  pose proof (behind_total n v p f c [RSeq l] W Hp) as T. cbn [map ssize fold_right asize] in T.
  specialize (T ltac:(lia)). cbn [app] in T.
  pose proof (behind_spec s (f_ml f) (f_ci f) s_ok opt n v p f c [RSeq l] eq_refl eq_refl W Hp) as B.
  cbn [map app] in B.
  assert (P : preceded f r p <-> bseq s (f_ml f) (f_ci f) [RSeq l] p <> []).
  { assert (E : forall q, In q (bseq s (f_ml f) (f_ci f) [RSeq l] p) <-> In q (bseq s (f_ml f) (f_ci f) l p)).
    { intros q. rewrite bseq_cons, benum_seq. rewrite in_flat_map. split.
      - intros (m & H1 & [->|[]]). assumption.
      - intros H1. exists q. split; [assumption|left; reflexivity]. }
    unfold preceded. split.
    - intros [q H]. apply (behind_language _ _ _ _ r l (bwf_simple _ r Hr) Hl) in H. apply E in H.
      intros E'. rewrite E' in H. contradiction.
    - intros H. destruct (bseq s (f_ml f) (f_ci f) [RSeq l] p) as [|q qs]; [contradiction|]. exists q.
      apply (behind_language _ _ _ _ r l (bwf_simple _ r Hr) Hl). apply E. left. reflexivity. }
  cbn [eval]. destruct neg; destruct (eval opt n (rev_view v) v p f c [AR (RSeq l); AEndBehind]); try contradiction.
  - destruct B as [-> B]. split; intros H; [reflexivity|]. exfalso. tauto.
  - split; intros H; [|reflexivity]. apply P in H. congruence.
  - destruct B as [-> B]. split; intros H; [reflexivity|]. exfalso. tauto.
  - split; intros H; [|reflexivity]. apply P in H. congruence.
Qed.
End BehindEval.
