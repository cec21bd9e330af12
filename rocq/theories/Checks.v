(** Decidable sufficient conditions for the side conditions of the main theorems. *)
From Coq Require Import List ZArith NArith Bool Lia Arith ZifyBool ZifyN ZifyNat.
From Verif Require Import Chars Syntax First View Eval Api Spec CharProofs EvalInv EvalSem SpecProps EvalRefine
  SpecCut ApiProofs EvalTop OptProofs.
Import ListNotations.

(** * The greedy optimisation *)
Section OptCheck.
Variables (opt ml ci : bool).

Fixpoint ow_check (r : re) (tl : list atom) : bool :=
  let oseq := fix oseq (l : list re) (tl : list atom) : bool :=
    match l with
    | [] => true
    | [x] => ow_check x tl
    | x :: xs => ow_check x (AR (RSeq xs) :: tl) && oseq xs tl
    end in
  let ocyc := fix ocyc (l : list re) : bool :=
    match l with
    | [] => true
    | x :: xs => ow_check x (map AR xs ++ [AEndCycle]) && ocyc xs
    end in
  match r with
  | RSelect l => forallb (fun x => ow_check x tl) l
  | RSeq l => oseq l tl
  | RRep k a b l => ocyc l && match k with Greedy => pair_ok ml ci opt l tl | _ => true end
  | RCap id l | RNCap id _ l => oseq l (ANum id :: tl)
  | RAhead _ l => oseq l [AEndAhead]
  | RAtomic l => ocyc l
  | _ => true
  end.
Fixpoint ow_check_seq (l : list re) (tl : list atom) : bool :=
  match l with
  | [] => true
  | [x] => ow_check x tl
  | x :: xs => ow_check x (AR (RSeq xs) :: tl) && ow_check_seq xs tl
  end.
Fixpoint ow_check_cyc (l : list re) : bool :=
  match l with
  | [] => true
  | x :: xs => ow_check x (map AR xs ++ [AEndCycle]) && ow_check_cyc xs
  end.

Lemma ow_check_sound : forall s G, forallb val_ok s = true -> forall r tl, ow_check r tl = true ->
  ow opt s ml ci G r tl.
Proof.
  intros s G Hs.
  apply (re_ind2 (fun r => forall tl, ow_check r tl = true -> ow opt s ml ci G r tl)
    (fun l => (forall tl, ow_check_seq l tl = true -> oseq opt s ml ci G l tl) /\
              (ow_check_cyc l = true -> ocyc opt s ml ci G l) /\
              forall tl, forallb (fun x => ow_check x tl) l = true -> ow opt s ml ci G (RSelect l) tl));
    try (intros; exact I).
  - split; [|split]; intros; exact I.
  - intros r l Hr (H1 & H2 & H3). split; [|split].
    + intros tl H. cbn [oseq ow_check_seq] in *. destruct l as [|y l]; [apply Hr; assumption|].
      apply andb_true_iff in H as [A B]. split; [apply Hr | apply H1]; assumption.
    + cbn [ocyc ow_check_cyc]. intros H. apply andb_true_iff in H as [A B]. split; auto.
    + intros tl H. rewrite ow_select. cbn [forallb] in H. apply andb_true_iff in H as [A B]. split; auto.
  - intros l (_ & _ & H) tl Hc. apply H. exact Hc.
  - intros l (H & _ & _) tl Hc. apply H. exact Hc.
  - intros k a b l (_ & H & _) tl Hc. rewrite ow_rep. cbn [ow_check] in Hc. fold ow_check_cyc in Hc.
    apply andb_true_iff in Hc as [A B]. split; [auto|]. intros ->. apply pair_ok_sound; assumption.
  - intros i l (H & _ & _) tl Hc. apply H. exact Hc.
  - intros i nm l (H & _ & _) tl Hc. apply H. exact Hc.
  - intros n l (H & _ & _) tl Hc. apply H. exact Hc.
  - intros l (_ & H & _) tl Hc. apply H. exact Hc.
Qed.
End OptCheck.

(** * Consuming bodies *)

(** Every match consumes something, also in the usual backtracking semantics. *)
Fixpoint consuming (r : re) : bool :=
  match r with
  | RCls _ | RAny | RReject => true
  | RStr t => negb (Nat.eqb (length t) 0)
  | RSelect l => forallb consuming l
  | RSeq l | RCap _ l | RNCap _ _ l | RAtomic l => existsb consuming l
  | RRep _ a _ l => negb (N.eqb a 0) && existsb consuming l
  | _ => false
  end.

Section Body.
Variables (s : list Z) (ml ci : bool) (names : list Z -> option nat).
Notation enumF := (enum s ml ci names false).
Notation enumsF := (enums s ml ci names false).
Notation sem := (sem s ml ci names).
Notation sems := (sems s ml ci names).
Notation len := (length s).
Notation st_ok := (st_ok s).

Lemma forthF : forall r st m, st_ok st -> In m (enumF r st) -> st_ok m /\ fst st <= fst m.
Proof. intros r st m Hs H. exact (enum_forth _ _ _ _ _ _ _ _ H Hs). Qed.

Lemma consuming_enum : forall r, consuming r = true -> forall st m, st_ok st -> In m (enumF r st) ->
  fst st < fst m.
Proof.
  induction r as
    [ | r l IHr IHl | c | | t | l IH | l IH | | | kd a b l IH | id l IH | id nm l IH | id | nm
    | neg l IH | neg l IH | l IH | c | c | a | md ]
    using re_ind2 with (Q := fun l =>
      (existsb consuming l = true -> forall st m, st_ok st -> In m (enumsF l st) -> fst st < fst m) /\
      (forallb consuming l = true -> forall st m, st_ok st -> In m (enumF (RSelect l) st) -> fst st < fst m));
    try (intros; discriminate).
  - split; [discriminate|]. intros _ st m _ [].
  - destruct IHl as [I1 I2]. split.
    + cbn [existsb]. intros H st m Hs Hm. rewrite enums_cons in Hm. apply in_flat_map in Hm as (x & X1 & X2).
      destruct (forthF _ _ _ Hs X1) as [Hx Hle].
      destruct (forthF (RSeq l) _ _ Hx X2) as [_ Hle2].
      apply orb_true_iff in H as [H|H].
      * pose proof (IHr H _ _ Hs X1). lia.
      * pose proof (I1 H _ _ Hx X2). lia.
    + cbn [forallb]. intros H st m Hs Hm. apply andb_true_iff in H as [H1 H2].
      rewrite enum_select_cons in Hm. apply in_app_iff in Hm as [Hm|Hm]; eauto.
  - intros _ st m _ H. apply step_fin in H as (v & _ & _ & H). lia.
  - intros _ st m _ H. apply step_fin in H as (v & _ & _ & H). lia.
  - intros H st m _ Hm. apply (walk_forth s ci names) in Hm as [_ Hm]. cbn in H.
    destruct (length t); [discriminate|lia].
  - intros H. apply (proj2 IH H).
  - intros H. apply (proj1 IH H).
  - intros _ st m _ [].
  - cbn [consuming]. intros H st m Hs Hm. apply andb_true_iff in H as [Ha Hb]. destruct IH as [I1 _].
    rewrite enum_rep in Hm. unfold iterate in Hm. destruct (negb (N.eqb b 0) && N.ltb b a)%bool; [contradiction|].
    assert (M : forall x, In x (mandatory false (enumsF l) (N.to_nat a) st) -> st_ok x /\ fst st < fst x).
    { intros x Hx. destruct (N.to_nat a) as [|k] eqn:E; [apply negb_true_iff, N.eqb_neq in Ha; lia|].
      cbn [mandatory] in Hx. apply in_flat_map in Hx as (y & Y1 & Y2). unfold keep, progress in Y1.
      destruct (forthF (RSeq l) _ _ Hs Y1) as [Hy _]. pose proof (I1 Hb _ _ Hs Y1).
      destruct (mandatory_R s names false (forth s) (forth_refl s) (forth_trans s names)
        (enumsF l) (enums_forth s ml ci names false l) _ _ _ Y2 Hy). split; [assumption|lia]. }
    destruct kd; [| |apply firstn1_in in Hm]; apply in_flat_map in Hm as (x & X1 & X2); destruct (M x X1) as [Hx Hlt].
    + destruct (greedy_R s names false (forth s) (forth_refl s) (forth_trans s names)
        (enumsF l) (enums_forth s ml ci names false l) _ _ _ _ _ X2 Hx). lia.
    + destruct (lazy_R s names false (forth s) (forth_refl s) (forth_trans s names)
        (enumsF l) (enums_forth s ml ci names false l) _ _ _ _ _ X2 Hx). lia.
    + destruct (greedy_R s names false (forth s) (forth_refl s) (forth_trans s names)
        (enumsF l) (enums_forth s ml ci names false l) _ _ _ _ _ X2 Hx). lia.
  - intros H st m Hs Hm. rewrite enum_cap in Hm. apply in_map_iff in Hm as (x & <- & Hx).
    exact (proj1 IH H st x Hs Hx).
  - intros H st m Hs Hm. rewrite enum_ncap in Hm. apply in_map_iff in Hm as (x & <- & Hx).
    exact (proj1 IH H st x Hs Hx).
  - intros H st m Hs Hm. rewrite enum_atomic in Hm. apply firstn1_in in Hm.
    exact (proj1 IH H st m Hs Hm).
Qed.

Lemma sem_forward : forall r st m, sem r st m -> fst st <= fst m.
Proof.
  induction r as
    [ | r l IHr IHl | c | | t | l IH | l IH | | | kd a b l IH | id l IH | id nm l IH | id | nm
    | neg l IH | neg l IH | l IH | c | c | a | md ]
    using re_ind2 with (Q := fun l =>
      (forall st m, sems l st m -> fst st <= fst m) /\
      (forall st m, sem (RSelect l) st m -> fst st <= fst m)).
  - split; [intros st m ->; lia | intros st m []].
  - destruct IHl as [I1 I2]. split.
    + intros st m (x & X1 & X2). apply IHr in X1. apply I1 in X2. lia.
    + intros st m [H|H]; auto.
  - intros st m (v & _ & _ & ->). cbn. lia.
  - intros st m (v & _ & _ & ->). cbn. lia.
  - intros st m (-> & _). cbn. lia.
  - apply IH.
  - apply IH.
  - intros st m ->. lia.
  - intros st m [].
  - intros st m (k & _ & _ & H). revert st H. induction k as [|k IHk]; intros st H; [rewrite H; lia|].
    destruct H as (x & X1 & X2). apply IHk in X2. apply (proj1 IH) in X1. lia.
  - intros st m (x & X1 & ->). apply (proj1 IH) in X1. exact X1.
  - intros st m (x & X1 & ->). apply (proj1 IH) in X1. exact X1.
  - intros st m (b & e & _ & _ & _ & ->). cbn. lia.
  - intros st m (id & _ & b & e & _ & _ & _ & ->). cbn. lia.
  - destruct neg; [intros st m [-> _] | intros st m (x & _ & ->)]; cbn; lia.
  - destruct neg; intros st m [-> _]; lia.
  - apply IH.
  - intros st m [-> _]; lia.
  - intros st m [-> _]; lia.
  - intros st m [-> _]; lia.
  - intros st m [].
Qed.

Lemma consuming_sem : forall r, consuming r = true -> forall st m, sem r st m -> fst st < fst m.
Proof.
  induction r as
    [ | r l IHr IHl | c | | t | l IH | l IH | | | kd a b l IH | id l IH | id nm l IH | id | nm
    | neg l IH | neg l IH | l IH | c | c | a | md ]
    using re_ind2 with (Q := fun l =>
      (existsb consuming l = true -> forall st m, sems l st m -> fst st < fst m) /\
      (forallb consuming l = true -> forall st m, sem (RSelect l) st m -> fst st < fst m));
    try (intros; discriminate).
  - split; [discriminate|]. intros _ st m [].
  - destruct IHl as [I1 I2]. split.
    + cbn [existsb]. intros H st m (x & X1 & X2).
      pose proof (sem_forward _ _ _ X1). pose proof (sem_forward (RSeq l) _ _ X2).
      apply orb_true_iff in H as [H|H].
      * pose proof (IHr H _ _ X1). lia.
      * pose proof (I1 H _ _ X2). lia.
    + cbn [forallb]. intros H st m Hm. apply andb_true_iff in H as [H1 H2]. destruct Hm as [Hm|Hm]; eauto.
  - intros _ st m (v & _ & _ & ->). cbn. lia.
  - intros _ st m (v & _ & _ & ->). cbn. lia.
  - intros H st m (-> & _). cbn in *. destruct (length t); [discriminate|lia].
  - intros H. apply (proj2 IH H).
  - intros H. apply (proj1 IH H).
  - intros _ st m [].
  - cbn [consuming]. intros H st m (k & K1 & _ & K2). apply andb_true_iff in H as [Ha Hb].
    apply negb_true_iff, N.eqb_neq in Ha. destruct k as [|k]; [lia|].
    destruct K2 as (x & X1 & X2). apply (proj1 IH Hb) in X1.
    assert (fst x <= fst m); [|lia]. clear X1 K1. revert x X2. induction k as [|k IHk]; intros x X2; [rewrite X2; lia|].
    destruct X2 as (y & Y1 & Y2). apply IHk in Y2. apply (sem_forward (RSeq l)) in Y1. lia.
  - intros H st m (x & X1 & ->). exact (proj1 IH H _ _ X1).
  - intros H st m (x & X1 & ->). exact (proj1 IH H _ _ X1).
  - intros H. apply (proj1 IH H).
Qed.

(** * Bodies with at most one outcome *)

(** Items covering the first character of a class. *)
Definition hitems (c : cls) : list fitem :=
  if caseless ci c then [FCls c]
  else match c with
       | CChar l => [FCls (CChar l); FCls (CChar (swap_case l))]
       | _ => [FAny]
       end.
Lemma hitems_has : forall c v, cls_has ci c v = true -> fin (hitems c) v = true.
Proof.
  intros c v H. unfold hitems. destruct (caseless ci c) eqn:E.
  - rewrite caseless_has in H by assumption. unfold fin. cbn [existsb has]. rewrite H. reflexivity.
  - destruct c; try reflexivity. cbn [cls_has] in H. unfold lit_has, fold_test in H.
    unfold fin. cbn [existsb has cls_has]. unfold lit_has, fold_test. cbn [andb].
    rewrite !orb_false_r. apply orb_true_iff in H as [H|H]; [rewrite H; reflexivity|].
    apply andb_true_iff in H as [_ H]. apply Z.eqb_eq in H. subst v0. rewrite swap_swap.
    rewrite (Z.eqb_refl v). apply orb_true_r.
Qed.

Definition app_items (a b : option (list fitem)) : option (list fitem) :=
  match a, b with Some x, Some y => Some (x ++ y) | _, _ => None end.

(** Items covering the first character of every match of [r] and the rest ([k]: of the rest). *)
Fixpoint heads (r : re) (k : option (list fitem)) : option (list fitem) :=
  let heads_l := fix heads_l (l : list re) (k : option (list fitem)) : option (list fitem) :=
    match l with [] => k | x :: xs => heads x (heads_l xs k) end in
  match r with
  | RCls c => Some (hitems c)
  | RAny => Some [FAny]
  | RStr (c :: _) => Some (hitems (CChar c))
  | RSelect l => fold_right (fun x acc => app_items (heads x k) acc) (Some []) l
  | RSeq l | RCap _ l | RNCap _ _ l | RAtomic l => heads_l l k
  | RReject => Some []
  | RRep _ a _ l => if N.eqb a 0 then app_items (heads_l l None) k else heads_l l None
  | RStr [] | REmpty | RAhead _ _ | RBehind _ _ | RBound _ | RNotBound _ | RAssert _ => k
  | RBack _ | RNBack _ | RMode _ => None
  end.
Fixpoint heads_l (l : list re) (k : option (list fitem)) : option (list fitem) :=
  match l with [] => k | x :: xs => heads x (heads_l xs k) end.

Definition at_head (h : list fitem) (p : nat) : Prop := exists v, nth_error s p = Some v /\ fin h v = true.
Definition Hk (k : option (list fitem)) (T : state -> Prop) : Prop :=
  forall h, k = Some h -> forall x, T x -> at_head h (fst x).
Lemma Hk_none : forall T, Hk None T.
Proof. intros T h H. discriminate. Qed.
Lemma at_head_l : forall a b p, at_head a p -> at_head (a ++ b) p.
Proof. intros a b p (v & V1 & V2). exists v. rewrite fin_app, V2. auto. Qed.
Lemma at_head_r : forall a b p, at_head b p -> at_head (a ++ b) p.
Proof. intros a b p (v & V1 & V2). exists v. rewrite fin_app, V2. split; [assumption | apply orb_true_r]. Qed.

Lemma rep_shapeF : forall body kd a b st m, In m (iterate s false body kd a b st) ->
  (a = 0%N /\ m = st) \/ exists m1, In m1 (body st).
Proof.
  intros body kd a b st m H. unfold iterate in H.
  destruct (negb (N.eqb b 0) && N.ltb b a)%bool; [contradiction|].
  assert (M : forall x, In x (mandatory false body (N.to_nat a) st) ->
            (a = 0%N /\ x = st) \/ exists m1, In m1 (body st)).
  { intros x Hx. destruct (N.to_nat a) as [|k] eqn:E.
    - destruct Hx as [<-|[]]. left. split; [lia|reflexivity].
    - cbn [mandatory] in Hx. apply in_flat_map in Hx as (m1 & H1 & _). right. eauto. }
  assert (Gr : forall n, In m (more_greedy false body (S n) b a st) -> m = st \/ exists m1, In m1 (body st)).
  { intros n Hm. cbn [more_greedy] in Hm. apply in_app_iff in Hm as [Hm|[Hm|[]]]; [|auto].
    destruct (N.eqb b 0 || N.ltb a b)%bool; [|contradiction].
    apply in_flat_map in Hm as (m1 & H1 & _). apply (keep_in false), filter_In in H1. right. exists m1. tauto. }
  assert (Lz : forall n, In m (more_lazy false body (S n) b a st) -> m = st \/ exists m1, In m1 (body st)).
  { intros n Hm. cbn [more_lazy] in Hm. destruct Hm as [Hm|Hm]; [auto|].
    destruct (N.eqb b 0 || N.ltb a b)%bool; [|contradiction].
    apply in_flat_map in Hm as (m1 & H1 & _). apply (keep_in false), filter_In in H1. right. exists m1. tauto. }
  destruct kd; [| |apply firstn1_in in H]; apply in_flat_map in H as (x & H1 & H2);
    (destruct (M x H1) as [[Ha ->]|HM]; [|right; assumption]).
  - destruct (Gr _ H2); auto.
  - destruct (Lz _ H2); auto.
  - destruct (Gr _ H2); auto.
Qed.

Lemma heads_sound : forall r k T, Hk k T -> Hk (heads r k) (fun x => exists m, In m (enumF r x) /\ T m).
Proof.
  induction r as
    [ | r l IHr IHl | c | | t | l IH | l IH | | | kd a b l IH | id l IH | id nm l IH | id | nm
    | neg l IH | neg l IH | l IH | c | c | a | md ]
    using re_ind2 with (Q := fun l => forall k T, Hk k T ->
      Hk (heads_l l k) (fun x => exists m, In m (enumsF l x) /\ T m) /\
      Hk (heads (RSelect l) k) (fun x => exists m, In m (enumF (RSelect l) x) /\ T m)).
  - intros k T HT. split.
    + intros h H x (m & [<-|[]] & Hm). exact (HT h H x Hm).
    + intros h _ x (m & [] & _).
  - intros k T HT. destruct (IHl k T HT) as [I1 I2]. split.
    + intros h H x (m & Hm & Ht). cbn [heads_l] in H. rewrite enums_cons in Hm.
      apply in_flat_map in Hm as (y & Y1 & Y2). apply (IHr _ _ I1 h H x). eauto.
    + intros h H x (m & Hm & Ht). cbn [heads fold_right] in H.
      change (fold_right (fun x acc => app_items (heads x k) acc) (Some []) l) with (heads (RSelect l) k) in H.
      destruct (heads r k) as [h1|] eqn:E1; [|discriminate].
      destruct (heads (RSelect l) k) as [h2|] eqn:E2; [|discriminate]. injection H as <-.
      rewrite enum_select_cons in Hm. apply in_app_iff in Hm as [Hm|Hm].
      * apply at_head_l. apply (IHr k T HT h1 E1 x). eauto.
      * apply at_head_r. apply (I2 h2 eq_refl x). eauto.
  - intros k T HT h H x (m & Hm & Ht). injection H as <-. apply step_fin in Hm as (v & V1 & V2 & _).
    exists v. split; [assumption | apply hitems_has; assumption].
  - intros k T HT h H x (m & Hm & Ht). injection H as <-. apply step_fin in Hm as (v & V1 & V2 & _).
    exists v. auto.
  - intros k T HT h H x (m & Hm & Ht). destruct t as [|c t].
    + destruct Hm as [<-|[]]. exact (HT h H x Ht).
    + injection H as <-. cbn [enum walk] in Hm. apply in_flat_map in Hm as (y & Y1 & _).
      apply step_fin in Y1 as (v & V1 & V2 & _). exists v. split; [assumption|].
      apply (hitems_has (CChar c)). assumption.
  - intros k T HT. apply (IH k T HT).
  - intros k T HT. apply (IH k T HT).
  - intros k T HT h H x (m & [<-|[]] & Ht). exact (HT h H x Ht).
  - intros k T HT h H x (m & [] & Ht).
  - intros k T HT h H x (m & Hm & Ht). cbn [heads] in H. fold heads_l in H. rewrite enum_rep in Hm.
    destruct (IH None (fun _ => True) (Hk_none _)) as [I1 _].
    destruct (N.eqb_spec a 0) as [Ha|Ha].
    + destruct (heads_l l None) as [h1|] eqn:E1; [|discriminate]. destruct k as [h2|]; [|discriminate].
      injection H as <-. destruct (rep_shapeF _ _ _ _ _ _ Hm) as [[_ ->]|(m1 & M1)].
      * apply at_head_r. apply (HT h2 eq_refl x Ht).
      * apply at_head_l. apply (I1 h1 eq_refl x). eauto.
    + destruct (rep_shapeF _ _ _ _ _ _ Hm) as [[? _]|(m1 & M1)]; [contradiction|]. apply (I1 h H x). eauto.
  - intros k T HT h H x (m & Hm & Ht). rewrite enum_cap in Hm. apply in_map_iff in Hm as (y & <- & Hy).
    apply (fun K => proj1 (IH k (fun z => T (fst z, (id, (fst x, fst z)) :: snd z)) K) h H x).
    + intros h0 H0 z Hz. exact (HT h0 H0 _ Hz).
    + eauto.
  - intros k T HT h H x (m & Hm & Ht). rewrite enum_ncap in Hm. apply in_map_iff in Hm as (y & <- & Hy).
    apply (fun K => proj1 (IH k (fun z => T (fst z, (id, (fst x, fst z)) :: snd z)) K) h H x).
    + intros h0 H0 z Hz. exact (HT h0 H0 _ Hz).
    + eauto.
  - intros k T HT h H. discriminate.
  - intros k T HT h H. discriminate.
  - intros k T HT h H x (m & Hm & Ht). rewrite enum_ahead in Hm.
    replace (fst x) with (fst m); [exact (HT h H m Ht)|].
    destruct neg, (enumsF l x); try contradiction; destruct Hm as [<-|[]]; reflexivity.
  - intros k T HT h H x (m & Hm & Ht).
    assert (m = x).
    { destruct neg; cbn [enum] in Hm; destruct (bseq s ml ci l (fst x)); try contradiction;
        destruct Hm as [<-|[]]; reflexivity. }
    subst m. exact (HT h H x Ht).
  - intros k T HT h H x (m & Hm & Ht). rewrite enum_atomic in Hm. apply firstn1_in in Hm.
    apply (proj1 (IH k T HT) h H x). eauto.
  - intros k T HT h H x (m & Hm & Ht). cbn [enum] in Hm.
    destruct (boundary s ci c (fst x)); [|contradiction]. destruct Hm as [<-|[]]. exact (HT h H x Ht).
  - intros k T HT h H x (m & Hm & Ht). cbn [enum] in Hm.
    destruct (boundary s ci c (fst x)); [contradiction|]. destruct Hm as [<-|[]]. exact (HT h H x Ht).
  - intros k T HT h H x (m & Hm & Ht). cbn [enum] in Hm.
    destruct (holds s ml a (fst x)); [|contradiction]. destruct Hm as [<-|[]]. exact (HT h H x Ht).
  - intros k T HT h H. discriminate.
Qed.

(** Alternatives that start with different characters. *)
Fixpoint exclusive (l : list re) : bool :=
  match l with
  | [] => true
  | x :: xs =>
      exclusive xs &&
      match heads x None, heads (RSelect xs) None with
      | Some h1, Some h2 =>
          forallb item_ok h1 && forallb item_ok h2 &&
          match collides h1 h2 with Some false => true | _ => false end
      | _, _ => match xs with [] => true | _ => false end
      end
  end.

Fixpoint single (r : re) : bool :=
  match r with
  | RSelect l => forallb single l && exclusive l
  | RSeq l | RCap _ l | RNCap _ _ l => forallb single l
  | RRep k a b l =>
      match k with Possessive => true | _ => N.eqb a b && negb (N.eqb a 0) && forallb single l end
  | _ => true
  end.

Hypothesis s_ok : forallb val_ok s = true.

Lemma step_single : forall P st, length (step s P st) <= 1.
Proof. intros P st. unfold step. destruct (nth_error s (fst st)); [|cbn; lia]. destruct (P z); cbn; lia. Qed.
Lemma walk_single : forall t st, length (walk s ci t st) <= 1.
Proof.
  induction t as [|c t IH]; intros st; [cbn; lia|]. cbn [walk].
  pose proof (step_single (lit_has ci c) st) as H.
  destruct (step s (lit_has ci c) st) as [|x [|y l]]; cbn in *; try lia. rewrite app_nil_r. apply IH.
Qed.
Lemma flat_single : forall A B (g : A -> list B) l, length l <= 1 -> (forall x, length (g x) <= 1) ->
  length (flat_map g l) <= 1.
Proof.
  intros A B g l H Hg. destruct l as [|x [|y l]]; cbn in *; try lia. rewrite app_nil_r. apply Hg.
Qed.
Lemma mandatory_single : forall body k st, (forall st, length (body st) <= 1) ->
  length (mandatory false body k st) <= 1.
Proof.
  intros body k st Hb. revert st. induction k as [|k IH]; intros st; [cbn; lia|].
  cbn [mandatory]. apply flat_single; [|exact IH]. apply Hb.
Qed.

Lemma single_sound : forall r, single r = true -> forall st, length (enumF r st) <= 1.
Proof.
  induction r as
    [ | r l IHr IHl | c | | t | l IH | l IH | | | kd a b l IH | id l IH | id nm l IH | id | nm
    | neg l IH | neg l IH | l IH | c | c | a | md ]
    using re_ind2 with (Q := fun l => forallb single l = true ->
      (forall st, length (enumsF l st) <= 1) /\
      (exclusive l = true -> forall st, length (enumF (RSelect l) st) <= 1)).
  - intros _. split; intros; cbn; lia.
  - cbn [forallb]. intros H. apply andb_true_iff in H as [H1 H2]. destruct (IHl H2) as [I1 I2]. split.
    + intros st. rewrite enums_cons. apply flat_single; auto.
    + intros He st. rewrite enum_select_cons. cbn [exclusive] in He. apply andb_true_iff in He as [He1 He2].
      specialize (I2 He1 st). specialize (IHr H1 st). rewrite app_length.
      destruct (enumF r st) as [|x xs] eqn:Ex; [exact I2|].
      destruct (enumF (RSelect l) st) as [|y ys] eqn:Ey; [cbn in *; lia|]. exfalso.
      destruct (heads r None) as [h1|] eqn:E1.
      2:{ destruct l; [|discriminate]. discriminate. }
      destruct (heads (RSelect l) None) as [h2|] eqn:E2.
      2:{ destruct l; [|discriminate]. discriminate. }
      apply andb_true_iff in He2 as [He2 Hcol]. apply andb_true_iff in He2 as [O1 O2].
      destruct (collides h1 h2) as [[]|] eqn:E3; try discriminate.
      destruct (heads_sound r None (fun _ => True) (Hk_none _) h1 E1 st) as (v1 & V1 & V2).
      { exists x. rewrite Ex. split; [left; reflexivity | exact I]. }
      destruct (heads_sound (RSelect l) None (fun _ => True) (Hk_none _) h2 E2 st) as (v2 & V3 & V4).
      { exists y. rewrite Ey. split; [left; reflexivity | exact I]. }
      assert (v2 = v1) by congruence. subst v2.
      rewrite (no_collision h1 h2 v1) in V4; auto; [discriminate|].
      rewrite forallb_forall in s_ok. apply s_ok. eapply nth_error_In. exact V1.
  - intros _ st. apply step_single.
  - intros _ st. apply step_single.
  - intros _ st. apply walk_single.
  - cbn [single]. intros H. apply andb_true_iff in H as [H1 H2]. apply (IH H1). exact H2.
  - intros H. apply (IH H).
  - intros _ st. cbn. lia.
  - intros _ st. cbn. lia.
  - cbn [single]. intros H st. rewrite enum_rep. unfold iterate.
    destruct (negb (N.eqb b 0) && N.ltb b a)%bool; [cbn; lia|].
    assert (X : kd <> Possessive -> N.eqb a b = true /\ N.eqb a 0 = false /\ forallb single l = true).
    { intros Hk. destruct kd; try congruence; apply andb_true_iff in H as [H H3]; apply andb_true_iff in H as [H H2];
        apply negb_true_iff in H2; auto. }
    destruct kd.
    + destruct (X ltac:(discriminate)) as (X1 & X2 & X3). apply N.eqb_eq in X1. subst b.
      apply flat_single; [apply mandatory_single; apply (IH X3)|]. intros x. cbn [more_greedy].
      rewrite X2, N.ltb_irrefl. cbn. lia.
    + destruct (X ltac:(discriminate)) as (X1 & X2 & X3). apply N.eqb_eq in X1. subst b.
      apply flat_single; [apply mandatory_single; apply (IH X3)|]. intros x. cbn [more_lazy].
      rewrite X2, N.ltb_irrefl. cbn. lia.
    + rewrite firstn_length. apply Nat.le_min_l.
  - intros H st. rewrite enum_cap, map_length. apply (IH H).
  - intros H st. rewrite enum_ncap, map_length. apply (IH H).
  - intros _ st. cbn [enum]. destruct (lookup id (snd st)) as [[b e]|]; [|cbn; lia].
    destruct (prefix_at s (text s b e) (fst st)); cbn; lia.
  - intros _ st. cbn [enum]. destruct (names nm) as [id|]; [|cbn; lia].
    destruct (lookup id (snd st)) as [[b e]|]; [|cbn; lia].
    destruct (prefix_at s (text s b e) (fst st)); cbn; lia.
  - intros _ st. rewrite enum_ahead. destruct neg, (enumsF l st); cbn; lia.
  - intros _ st. cbn [enum]. destruct neg, (bseq s ml ci l (fst st)); cbn; lia.
  - intros _ st. rewrite enum_atomic, firstn_length. apply Nat.le_min_l.
  - intros _ st. cbn [enum]. destruct (boundary s ci c (fst st)); cbn; lia.
  - intros _ st. cbn [enum]. destruct (boundary s ci c (fst st)); cbn; lia.
  - intros _ st. cbn [enum]. destruct (holds s ml a (fst st)); cbn; lia.
  - intros _ st. cbn. lia.
Qed.

(** * The checks *)
Fixpoint tame_check (r : re) : bool :=
  match r with
  | RSelect l | RSeq l | RCap _ l | RNCap _ _ l | RAhead _ l => forallb tame_check l
  | RRep k a b l =>
      forallb tame_check l && (N.eqb a 0 || existsb consuming l) &&
      (match k with Possessive => N.leb a 1 | _ => false end || forallb single l)
  | RAtomic l => forallb tame_check l && existsb consuming l
  | _ => true
  end.
Fixpoint plain_check (r : re) : bool :=
  match r with
  | RSelect l | RSeq l | RCap _ l | RNCap _ _ l => forallb plain_check l
  | RAhead _ l => forallb plain_check l && forallb no_groups l
  | RRep k a b l =>
      match k with Possessive => false | _ => forallb plain_check l && existsb consuming l end
  | RAtomic l => false
  | _ => true
  end.
Fixpoint neg_plain_check (r : re) : bool :=
  match r with
  | RSelect l | RSeq l | RCap _ l | RNCap _ _ l | RRep _ _ _ l | RAtomic l | RAhead false l =>
      forallb neg_plain_check l
  | RAhead true l => forallb plain_check l
  | _ => true
  end.

Lemma consumes_check : forall l, existsb consuming l = true -> consumes s ml ci names l.
Proof. intros l H st m Hs Hm. exact (consuming_enum (RSeq l) H st m Hs Hm). Qed.
Lemma one_way_check : forall l, forallb single l = true -> one_way s ml ci names l.
Proof.
  intros l H st _. pose proof (single_sound (RSeq l) H st) as L. rewrite enum_seq in L.
  destruct (enumsF l st) as [|x [|y xs]]; cbn [filter length] in *; [lia| |lia]. destruct (advances st x); cbn [length]; lia.
Qed.

Lemma tame_check_sound : forall r, tame_check r = true -> tame s ml ci names r.
Proof.
  induction r as
    [ | r l IHr IHl | c | | t | l IH | l IH | | | kd a b l IH | id l IH | id nm l IH | id | nm
    | neg l IH | neg l IH | l IH | c | c | a | md ]
    using re_ind2 with (Q := fun l => forallb tame_check l = true -> tames s ml ci names l);
    try (intros; exact I); try exact IH.
  - cbn [forallb]. intros H. apply andb_true_iff in H as [H1 H2]. split; auto.
  - cbn [tame_check]. intros H. apply andb_true_iff in H as [H H3]. apply andb_true_iff in H as [H1 H2].
    split; [exact (IH H1)|]. split.
    + intros Ha. apply orb_true_iff in H2 as [H2|H2]; [apply N.eqb_eq in H2; contradiction|].
      apply consumes_check. assumption.
    + apply orb_true_iff in H3 as [H3|H3]; [left | right; apply one_way_check; assumption].
      destruct kd; try discriminate. split; [reflexivity | apply N.leb_le; assumption].
  - cbn [tame_check]. intros H. apply andb_true_iff in H as [H1 H2]. split; [exact (IH H1)|].
    apply consumes_check. assumption.
Qed.

Lemma plain_check_sound : forall r, plain_check r = true -> plain s ml ci names r.
Proof.
  induction r as
    [ | r l IHr IHl | c | | t | l IH | l IH | | | kd a b l IH | id l IH | id nm l IH | id | nm
    | neg l IH | neg l IH | l IH | c | c | a | md ]
    using re_ind2 with (Q := fun l => forallb plain_check l = true -> plains s ml ci names l);
    try (intros; exact I); try exact IH.
  - cbn [forallb]. intros H. apply andb_true_iff in H as [H1 H2]. split; auto.
  - cbn [plain_check]. intros H.
    assert (X : kd <> Possessive /\ forallb plain_check l = true /\ existsb consuming l = true).
    { destruct kd; try discriminate; apply andb_true_iff in H as [H1 H2]; (split; [discriminate|auto]). }
    destruct X as (X1 & X2 & X3). split; [assumption|]. split; [exact (IH X2)|].
    intros st st' _ Hm. exact (consuming_sem (RSeq l) X3 st st' Hm).
  - cbn [plain_check]. intros H. apply andb_true_iff in H as [H1 H2]. split; [exact (IH H1)|assumption].
  - discriminate.
Qed.
Lemma neg_plain_check_sound : forall r, neg_plain_check r = true -> neg_plain s ml ci names r.
Proof.
  induction r as
    [ | r l IHr IHl | c | | t | l IH | l IH | | | kd a b l IH | id l IH | id nm l IH | id | nm
    | neg l IH | neg l IH | l IH | c | c | a | md ]
    using re_ind2 with (Q := fun l => forallb neg_plain_check l = true -> neg_plains s ml ci names l);
    try (intros; exact I); try exact IH.
  - cbn [forallb]. intros H. apply andb_true_iff in H as [H1 H2]. split; auto.
  - destruct neg; [|exact IH]. cbn [neg_plain_check]. intros H. exact (plain_check_sound (RSeq l) H).
Qed.
End Body.
