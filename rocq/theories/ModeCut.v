(** Patterns with switches: when the discipline of the library agrees with the usual backtracking order,
    and when the outcomes are exactly the derivations. Mode-threading versions of SpecCut.v and
    Checks.v, with decidable conditions. *)
From Coq Require Import List ZArith NArith Bool Lia Arith ZifyBool ZifyN ZifyNat.
From Verif Require Import Chars Syntax First View Eval Api Spec CharProofs EvalMono EvalInv EvalSem SpecProps
  EvalRefine SpecCut ApiProofs EvalTop OptProofs Checks EvalSound Match Mode ModeSem ModeSound ModeEnum ModeRefine.
Import ListNotations.

(** At most one outcome: a pattern without switches that has at most one in every mode, or a sequence of
    such patterns and switches. *)
Fixpoint msingle (M : list modes) (r : re) : bool :=
  no_switch r && forallb (fun m => single (snd m) r) M ||
  match r with
  | RSeq l | RCap _ l | RNCap _ _ l => forallb (msingle M) l
  | RAhead _ _ | RMode _ | RAtomic _ => true
  | _ => false
  end.
Fixpoint mtame_check (M : list modes) (r : re) : bool :=
  match r with
  | RSelect l | RSeq l | RCap _ l | RNCap _ _ l | RAhead _ l => forallb (mtame_check M) l
  | RRep k a b l =>
      forallb (mtame_check M) l && (N.eqb a 0 || existsb consuming l) &&
      (match k with Possessive => N.leb a 1 | _ => false end || forallb (msingle M) l)
  | RAtomic l => forallb (mtame_check M) l && existsb consuming l
  | _ => true
  end.

Section MCut.
Variables (s : list Z) (M : list modes) (names : list Z -> option nat).
Hypothesis s_ok : forallb val_ok s = true.
Notation menumT := (menum s names true).
Notation menumF := (menum s names false).
Notation menumsT := (menums s names true).
Notation menumsF := (menums s names false).
Notation bT := (mbody s names true).
Notation bF := (mbody s names false).
Notation msem := (msem s names).
Notation msems := (msems s names).
Notation len := (length s).
Notation st_ok := (st_ok s).
Notation closed := (closed M).
Notation closeds := (closeds M).
Notation pos x := (fst (@snd modes state x)).

(** * Consuming patterns *)
Lemma consuming_menum : forall cut r, consuming r = true -> forall x y, st_ok (snd x) -> In y (menum s names cut r x) ->
  pos x < pos y.
Proof.
  intros cut.
  assert (L : forall (r : re) (x y : mstate),
    enum s (fst (fst x)) (snd (fst x)) names cut r (snd x) = enum s (fst (fst x)) (snd (fst x)) names false r (snd x) ->
    consuming r = true -> st_ok (snd x) ->
    In y (map (pair (fst x)) (enum s (fst (fst x)) (snd (fst x)) names cut r (snd x))) -> pos x < pos y).
  { intros r x y He Hc Hs H. rewrite He in H. apply in_map_iff in H as (st & <- & H). cbn [snd].
    exact (consuming_enum s (fst (fst x)) (snd (fst x)) names r Hc _ _ Hs H). }
  induction r as
    [ | r l IHr IHl | c | | t | l IH | l IH | | | kd a b l IH | id l IH | id nm l IH | id | nm
    | neg l IH | neg l IH | l IH | c | c | a | md ]
    using re_ind2 with (Q := fun l =>
      (existsb consuming l = true -> forall x y, st_ok (snd x) -> In y (menums s names cut l x) -> pos x < pos y) /\
      (forallb consuming l = true -> forall x y, st_ok (snd x) -> In y (menum s names cut (RSelect l) x) -> pos x < pos y));
    try (intros; discriminate); try (intros Hc x y; apply L; [reflexivity|exact Hc]).
  - split; [discriminate|]. intros _ x y _ [].
  - destruct IHl as [I1 I2]. split.
    + cbn [existsb]. intros H x y Hs Hm. rewrite menums_cons in Hm. apply in_flat_map in Hm as (z & X1 & X2).
      destruct (menum_forth s names cut _ _ _ X1 Hs) as [Hx Hle].
      destruct (menums_forth s names cut _ _ _ X2 Hx) as [_ Hle2].
      apply orb_true_iff in H as [H|H].
      * pose proof (IHr H _ _ Hs X1). unfold mstate, state in *. lia.
      * pose proof (I1 H _ _ Hx X2). unfold mstate, state in *. lia.
    + cbn [forallb]. intros H x y Hs Hm. apply andb_true_iff in H as [H1 H2].
      rewrite menum_select_cons in Hm. apply in_app_iff in Hm as [Hm|Hm]; eauto.
  - intros H. apply (proj2 IH H).
  - intros H. apply (proj1 IH H).
  - cbn [consuming]. intros H x y Hs Hm. apply andb_true_iff in H as [Ha Hb]. destruct IH as [I1 _].
    rewrite menum_rep in Hm. apply in_map_iff in Hm as (st & <- & Hm). cbn [snd].
    assert (Bc : forall z w, st_ok z -> In w (mbody s names cut l (fst x) z) -> fst z < fst w).
    { intros z w Hz Hw. apply in_map_iff in Hw as (u & <- & Hu). exact (I1 Hb (fst x, z) u Hz Hu). }
    unfold iterate in Hm. destruct (negb (N.eqb b 0) && N.ltb b a)%bool; [contradiction|].
    assert (X : forall z, In z (mandatory cut (mbody s names cut l (fst x)) (N.to_nat a) (snd x)) -> st_ok z /\ pos x < fst z).
    { intros z Hx. destruct (N.to_nat a) as [|k] eqn:E; [apply negb_true_iff, N.eqb_neq in Ha; lia|].
      cbn [mandatory] in Hx. apply in_flat_map in Hx as (w & Y1 & Y2). apply (keep_in cut), (progress_in s names) in Y1.
      destruct (mbody_forth s names cut _ _ _ _ Y1 Hs) as [Hy _]. pose proof (Bc _ _ Hs Y1).
      destruct (mandatory_R s names cut (forth s) (forth_refl s) (forth_trans s names)
        _ (mbody_forth s names cut l (fst x)) _ _ _ Y2 Hy). split; [assumption|lia]. }
    destruct kd; [| |apply firstn1_in in Hm]; apply in_flat_map in Hm as (z & X1 & X2); destruct (X z X1) as [Hx Hlt].
    + destruct (greedy_R s names cut (forth s) (forth_refl s) (forth_trans s names)
        _ (mbody_forth s names cut l (fst x)) _ _ _ _ _ X2 Hx). lia.
    + destruct (lazy_R s names cut (forth s) (forth_refl s) (forth_trans s names)
        _ (mbody_forth s names cut l (fst x)) _ _ _ _ _ X2 Hx). lia.
    + destruct (greedy_R s names cut (forth s) (forth_refl s) (forth_trans s names)
        _ (mbody_forth s names cut l (fst x)) _ _ _ _ _ X2 Hx). lia.
  - intros H x y Hs Hm. rewrite menum_cap in Hm. apply in_map_iff in Hm as (z & <- & Hx).
    exact (proj1 IH H x z Hs Hx).
  - intros H x y Hs Hm. rewrite menum_ncap in Hm. apply in_map_iff in Hm as (z & <- & Hx).
    exact (proj1 IH H x z Hs Hx).
  - intros H x y Hs Hm. rewrite menum_atomic in Hm. apply in_map_iff in Hm as (st & <- & Hm).
    apply firstn1_in, (progress_in s names) in Hm. apply in_map_iff in Hm as (z & <- & Hz). destruct x as [m st].
    exact (proj1 IH H (m, st) z Hs Hz).
Qed.
Lemma consuming_body : forall l m, existsb consuming l = true -> forall st st', st_ok st -> In st' (bF l m st) ->
  fst st < fst st'.
Proof.
  intros l m H st st' Hs Hi. apply in_map_iff in Hi as (y & <- & Hi).
  exact (consuming_menum false (RSeq l) H (m, st) y Hs Hi).
Qed.

Lemma msem_forward : forall r x y, msem r x y -> pos x <= pos y.
Proof.
  induction r as
    [ | r l IHr IHl | c | | t | l IH | l IH | | | kd a b l IH | id l IH | id nm l IH | id | nm
    | neg l IH | neg l IH | l IH | c | c | a | md ]
    using re_ind2 with (Q := fun l =>
      (forall x y, msems l x y -> pos x <= pos y) /\
      (forall x y, msem (RSelect l) x y -> pos x <= pos y));
    try (intros x y [_ H]; exact (sem_forward s _ _ names _ _ _ H)).
  - split; [intros x y ->; reflexivity | intros x y []].
  - destruct IHl as [I1 I2]. split.
    + intros x y (z & X1 & X2). apply IHr in X1. apply I1 in X2. unfold mstate, state in *. lia.
    + intros x y [H|H]; auto.
  - apply IH.
  - apply IH.
  - intros x y H. rewrite msem_rep in H. destruct H as (k & _ & _ & _ & H). destruct x as [m st], y as [m' st'].
    cbn [fst snd] in *. revert st H. induction k as [|k IHk]; intros st H; [rewrite H; reflexivity|].
    destruct H as (z & (m1 & X1) & X2). apply IHk in X2. apply (proj1 IH) in X1. cbn [fst snd] in X1.
    unfold mstate, state in *. lia.
  - intros x y H. rewrite msem_cap in H. destruct H as (m & p & lg & X1 & ->). apply (proj1 IH) in X1. exact X1.
  - intros x y H. rewrite msem_ncap in H. destruct H as (m & p & lg & X1 & ->). apply (proj1 IH) in X1. exact X1.
  - intros x y H. rewrite msem_ahead in H. destruct neg; [destruct H as [-> _] | destruct H as (m & p & lg & _ & ->)];
      reflexivity.
  - intros [m st] y H. rewrite msem_atomic in H. destruct H as [_ (m' & H)]. exact (proj1 IH _ _ H).
  - intros x y ->. reflexivity.
Qed.
Lemma consuming_msem : forall r, consuming r = true -> forall x y, msem r x y -> pos x < pos y.
Proof.
  induction r as
    [ | r l IHr IHl | c | | t | l IH | l IH | | | kd a b l IH | id l IH | id nm l IH | id | nm
    | neg l IH | neg l IH | l IH | c | c | a | md ]
    using re_ind2 with (Q := fun l =>
      (existsb consuming l = true -> forall x y, msems l x y -> pos x < pos y) /\
      (forallb consuming l = true -> forall x y, msem (RSelect l) x y -> pos x < pos y));
    try (intros; discriminate); try (intros Hc x y [_ H]; exact (consuming_sem s _ _ names _ Hc _ _ H)).
  - split; [discriminate|]. intros _ x y [].
  - destruct IHl as [I1 I2]. split.
    + cbn [existsb]. intros H x y (z & X1 & X2). pose proof (msem_forward _ _ _ X1) as F1.
      pose proof (msem_forward (RSeq l) _ _ X2) as F2.
      apply orb_true_iff in H as [H|H].
      * pose proof (IHr H _ _ X1). unfold mstate, state in *. lia.
      * pose proof (I1 H _ _ X2). unfold mstate, state in *. lia.
    + cbn [forallb]. intros H x y Hm. apply andb_true_iff in H as [H1 H2]. destruct Hm as [Hm|Hm]; eauto.
  - intros H. apply (proj2 IH H).
  - intros H. apply (proj1 IH H).
  - cbn [consuming]. intros H x y Hm. apply andb_true_iff in H as [Ha Hb]. destruct IH as [I1 _].
    rewrite msem_rep in Hm. destruct Hm as (k & K1 & _ & _ & K2).
    destruct k as [|k]; [apply negb_true_iff, N.eqb_neq in Ha; lia|].
    destruct K2 as (z & (m1 & Z1) & Z2). apply (I1 Hb) in Z1. cbn [fst snd] in Z1.
    assert (Z3 : fst z <= pos y).
    { clear - Z2. destruct x as [m st], y as [m' st']. cbn [fst snd] in *. revert z Z2.
      induction k as [|k IHk]; intros z H; [rewrite H; reflexivity|].
      destruct H as (w & (m1 & X1) & X2). apply IHk in X2. apply (msem_forward (RSeq l)) in X1. cbn [fst snd] in X1.
      unfold mstate, state in *. lia. }
    unfold mstate, state in *. lia.
  - intros H x y Hm. rewrite msem_cap in Hm. destruct Hm as (m & p & lg & X1 & ->). exact (proj1 IH H _ _ X1).
  - intros H x y Hm. rewrite msem_ncap in Hm. destruct Hm as (m & p & lg & X1 & ->). exact (proj1 IH H _ _ X1).
  - intros H [m st] y Hm. rewrite msem_atomic in Hm. destruct Hm as [_ (m' & X1)]. exact (proj1 IH H _ _ X1).
Qed.

(** * At most one outcome *)
Lemma msingle_sound : forall r, closed r -> msingle M r = true -> forall x, In (fst x) M ->
  length (menumF r x) <= 1.
Proof.
  assert (Pl : forall r, no_switch r && forallb (fun m => single (snd m) r) M = true -> forall x, In (fst x) M ->
    length (menumF r x) <= 1).
  { intros r H [m st] Hm. apply andb_true_iff in H as [H1 H2]. rewrite forallb_forall in H2.
    rewrite menum_plain by assumption. rewrite map_length.
    exact (single_sound s (fst m) (snd m) names s_ok r (H2 m Hm) st). }
  induction r as
    [ | r l IHr IHl | c | | t | l IH | l IH | | | kd a b l IH | id l IH | id nm l IH | id | nm
    | neg l IH | neg l IH | l IH | c | c | a | md ]
    using re_ind2 with (Q := fun l => closeds l -> forallb (msingle M) l = true -> forall x, In (fst x) M ->
      length (menumsF l x) <= 1);
    try (intros _ H; cbn [msingle] in H; rewrite orb_false_r in H; exact (Pl _ H)).
  - intros _ _ x _. cbn. lia.
  - intros [C1 C2] H x Hx. cbn [forallb] in H. apply andb_true_iff in H as [H1 H2]. rewrite menums_cons.
    specialize (IHr C1 H1 x Hx).
    assert (Hm : forall y, In y (menumF r x) -> In (fst y) M) by (intros y; apply menum_modes; assumption).
    destruct (menumF r x) as [|y [|z zs]]; cbn in IHr |- *; try lia. rewrite app_nil_r.
    apply IHl; auto. apply Hm. left. reflexivity.
  - intros C H. cbn [msingle] in H. apply orb_true_iff in H as [H|H]; [exact (Pl _ H)|]. exact (IH C H).
  - intros C H x Hx. cbn [msingle] in H. apply orb_true_iff in H as [H|H]; [exact (Pl _ H x Hx)|].
    rewrite menum_cap, map_length. exact (IH C H x Hx).
  - intros C H x Hx. cbn [msingle] in H. apply orb_true_iff in H as [H|H]; [exact (Pl _ H x Hx)|].
    rewrite menum_ncap, map_length. exact (IH C H x Hx).
  - intros _ _ x _. rewrite menum_ahead. destruct neg, (menumsF l x); cbn; lia.
  - intros _ _ x _. rewrite menum_atomic, map_length. apply firstn_le_length.
  - intros _ _ x _. cbn. lia.
Qed.
Lemma mone_way : forall l, closeds l -> forallb (msingle M) l = true -> forall m st, In m M ->
  length (filter (advances st) (bF l m st)) <= 1.
Proof.
  intros l C H m st Hm. assert (L : length (bF l m st) <= 1).
  { unfold mbody. rewrite map_length. apply (msingle_sound (RSeq l)); auto. cbn [msingle]. rewrite H. apply orb_true_r. }
  destruct (bF l m st) as [|x [|y xs]]; cbn [filter length] in *; [lia| |lia]. destruct (advances st x); cbn [length]; lia.
Qed.

(** * The discipline does not matter *)
Theorem mcut_agrees : forall r, closed r -> mtame_check M r = true -> forall x, In (fst x) M -> st_ok (snd x) ->
  menumT r x = menumF r x.
Proof.
  induction r as
    [ | r l IHr IHl | c | | t | l IH | l IH | | | k a b l IH | id l IH | id nm l IH | id | nm
    | neg l IH | neg l IH | l IH | c | c | a | md ]
    using re_ind2 with (Q := fun l => closeds l -> forallb (mtame_check M) l = true ->
      (forall x, In (fst x) M -> st_ok (snd x) -> menumsT l x = menumsF l x) /\
      (forall x, In (fst x) M -> st_ok (snd x) -> menumT (RSelect l) x = menumF (RSelect l) x));
    try (intros; reflexivity).
  - intros _ _. split; reflexivity.
  - intros [C1 C2] H. cbn [forallb] in H. apply andb_true_iff in H as [T1 T2].
    destruct (IHl C2 T2) as [I1 I2]. split; intros x Hm Hs.
    + rewrite !menums_cons, (IHr C1 T1 x Hm Hs). apply flat_map_ext_in. intros y Hy. apply I1.
      * exact (menum_modes s names false M r C1 x y Hm Hy).
      * apply (menum_forth _ _ _ _ _ _ Hy Hs).
    + rewrite !menum_select_cons, (IHr C1 T1 x Hm Hs), I2 by assumption. reflexivity.
  - intros C T. apply (IH C T).
  - intros C T. apply (IH C T).
  - intros C H [m st] Hm Hs. cbn [fst snd] in *. cbn [mtame_check] in H. apply andb_true_iff in H as [H Tk].
    apply andb_true_iff in H as [T Tc]. destruct (IH C T) as [I1 _].
    assert (Same : forall z, st_ok z -> bT l m z = bF l m z) by (intros z Hz; unfold mbody; rewrite I1; auto).
    rewrite !menum_rep. cbn [fst snd]. f_equal.
    unfold iterate. destruct (negb (N.eqb b 0) && N.ltb b a)%bool; [reflexivity|].
    assert (Cons : a <> 0%N -> forall z w, st_ok z -> In w (bF l m z) -> fst z < fst w).
    { intros Ha z w Hz Hw. apply orb_true_iff in Tc as [Tc|Tc]; [lia|]. exact (consuming_body l m Tc z w Hz Hw). }
    assert (Tk' : (k = Possessive /\ (a <= 1)%N) \/ forallb (msingle M) l = true).
    { apply orb_true_iff in Tk as [Tk|Tk]; [left|auto]. destruct k; try discriminate. split; [reflexivity|lia]. }
    destruct Tk' as [[-> Ha]|Hone].
    + destruct (N.eq_dec a 0) as [->|Ha0].
      * cbn [N.to_nat mandatory flat_map]. rewrite !app_nil_r.
        apply (greedy_head s names _ _ Same (mbody_forth s names false l m)); [assumption|lia].
      * assert (a = 1%N) by lia. subst a. change (N.to_nat 1) with 1.
        cbn [mandatory]. unfold keep, progress. rewrite Same by assumption.
        rewrite filter_all by (intros z Hz; apply Nat.ltb_lt; apply Cons; auto).
        rewrite !flat_map_single.
        destruct (bF l m st) as [|z zs] eqn:E; [reflexivity|].
        change (firstn 1 (z :: zs)) with [z]. cbn [flat_map].
        assert (Hz : In z (bF l m st)) by (rewrite E; left; reflexivity).
        destruct (mbody_forth s names false _ _ _ _ Hz Hs) as [Hok _].
        rewrite !firstn1_app' by apply mg_not_nil.
        apply (greedy_head s names _ _ Same (mbody_forth s names false l m)); [assumption|lia].
    + pose proof (fun z => fun _ : st_ok z => mone_way l C Hone m z Hm) as One.
      assert (Hma : mandatory true (bT l m) (N.to_nat a) st = mandatory false (bF l m) (N.to_nat a) st).
      { apply (mandatory_cut s names); auto.
        - exact (mbody_forth s names false l m).
        - intros Hk. apply Cons. lia. }
      assert (Hin : forall z, In z (mandatory false (bF l m) (N.to_nat a) st) -> st_ok z).
      { intros z Hz. apply (mandatory_R s names false (forth s) (forth_refl s) (forth_trans s names)
          _ (mbody_forth s names false l m) _ _ _ Hz Hs). }
      destruct k; rewrite Hma.
      * apply flat_map_ext_in. intros z Hz. apply (greedy_cut s names); auto. exact (mbody_forth s names false l m).
      * apply flat_map_ext_in. intros z Hz. apply (lazy_cut s names); auto. exact (mbody_forth s names false l m).
      * f_equal. apply flat_map_ext_in. intros z Hz. apply (greedy_cut s names); auto. exact (mbody_forth s names false l m).
  - intros C T x Hm Hs. rewrite !menum_cap. destruct (IH C T) as [I1 _]. rewrite I1 by assumption. reflexivity.
  - intros C T x Hm Hs. rewrite !menum_ncap. destruct (IH C T) as [I1 _]. rewrite I1 by assumption. reflexivity.
  - intros C T x Hm Hs. rewrite !menum_ahead. destruct (IH C T) as [I1 _]. rewrite I1 by assumption. reflexivity.
  - intros C H [m st] Hm Hs. cbn [fst snd] in *. cbn [mtame_check] in H. apply andb_true_iff in H as [T Tc].
    rewrite !menum_atomic. destruct (IH C T) as [I1 _]. cbn [fst snd]. f_equal. f_equal.
    replace (bT l m st) with (bF l m st) by (unfold mbody; rewrite I1; auto).
    unfold progress. apply filter_all. intros z Hz. apply Nat.ltb_lt. exact (consuming_body l m Tc st z Hs Hz).
Qed.

(** * The outcomes are the derivations *)
Lemma mno_groups_log : forall cut r, no_groups r = true -> forall x y, In y (menum s names cut r x) ->
  snd (snd y) = snd (snd x).
Proof.
  intros cut.
  induction r as
    [ | r l IHr IHl | c | | t | l IH | l IH | | | k a b l IH | id l IH | id nm l IH | id | nm
    | neg l IH | neg l IH | l IH | c | c | a | md ]
    using re_ind2 with (Q := fun l => forallb no_groups l = true ->
      (forall x y, In y (menums s names cut l x) -> snd (snd y) = snd (snd x)) /\
      (forall x y, In y (menum s names cut (RSelect l) x) -> snd (snd y) = snd (snd x)));
    try (intros Hn x y H; apply in_map_iff in H as (st & <- & H);
         exact (no_groups_log s (fst (fst x)) (snd (fst x)) names cut _ Hn _ _ H)).
  - intros _. split; intros x y H; [|contradiction]. destruct H as [<-|[]]. reflexivity.
  - cbn [forallb]. intros H. apply andb_true_iff in H as [H1 H2]. destruct (IHl H2) as [I1 I2]. split; intros x y H.
    + rewrite menums_cons in H. apply in_flat_map in H as (z & H3 & H4).
      rewrite (I1 _ _ H4). apply (IHr H1 _ _ H3).
    + rewrite menum_select_cons in H. apply in_app_iff in H as [H|H]; [apply (IHr H1 _ _ H)|auto].
  - intros H. apply (IH H).
  - intros H. apply (IH H).
  - intros H x y Hy. rewrite menum_rep in Hy. apply in_map_iff in Hy as (st & <- & Hy). cbn [snd].
    eapply (iterate_R s names cut (fun x y => snd y = snd x)); [reflexivity|intros; congruence| |exact Hy].
    intros z w Hw. apply in_map_iff in Hw as (u & <- & Hu). exact (proj1 (IH H) _ _ Hu).
  - discriminate.
  - discriminate.
  - intros H x y. rewrite menum_ahead. cbn [no_groups] in H. destruct neg.
    + destruct (menums s names cut l x); [|contradiction]. intros [<-|[]]. reflexivity.
    + destruct (menums s names cut l x) as [|z zs] eqn:E; [contradiction|]. intros [<-|[]].
      cbn. apply (proj1 (IH H) x z). rewrite E. left. reflexivity.
  - intros H [m st] y Hy. rewrite menum_atomic in Hy. apply in_map_iff in Hy as (st' & <- & Hy). cbn [fst snd] in *.
    apply firstn1_in, (progress_in s names) in Hy. apply in_map_iff in Hy as (u & <- & Hu).
    exact (proj1 (IH H) _ _ Hu).
  - intros _ x y [<-|[]]. reflexivity.
Qed.

Theorem menum_msem : forall r, plain_check r = true -> forall x y, st_ok (snd x) ->
  (In y (menumF r x) <-> msem r x y).
Proof.
  assert (Leaf : forall r, plain_check r = true -> no_switch r = true -> forall x y, st_ok (snd x) ->
    (In y (menumF r x) <-> msem r x y)).
  { intros r Hp Hn [m st] [m' st'] Hs. rewrite menum_plain, msem_plain by assumption. cbn [snd] in Hs.
    destruct (enum_sem s (fst m) (snd m) names r) as (E0 & E1 & E2).
    pose proof (plain_check_sound s (fst m) (snd m) names r Hp) as P. rewrite in_map_iff. split.
    - intros (st2 & [= <- <-] & H). split; [reflexivity|]. apply E1; auto.
    - intros [-> H]. exists st'. split; [reflexivity|]. apply E2; auto. }
  induction r as
    [ | r l IHr IHl | c | | t | l IH | l IH | | | k a b l IH | id l IH | id nm l IH | id | nm
    | neg l IH | neg l IH | l IH | c | c | a | md ]
    using re_ind2 with (Q := fun l => forallb plain_check l = true ->
      (forall x y, st_ok (snd x) -> (In y (menumsF l x) <-> msems l x y)) /\
      (forall x y, st_ok (snd x) -> (In y (menumF (RSelect l) x) <-> msem (RSelect l) x y)));
    try (intros Hp x y Hs; apply Leaf; [exact Hp|reflexivity|exact Hs]).
  - intros _. split; intros x y _; [|tauto]. cbn. split; [intros [<-|[]]; reflexivity | intros ->; left; reflexivity].
  - cbn [forallb]. intros H. apply andb_true_iff in H as [H1 H2]. destruct (IHl H2) as [I1 I2]. specialize (IHr H1).
    split; intros x y Hs.
    + rewrite menums_cons, in_flat_map. cbn [ModeSem.msems]. split.
      * intros (z & Z1 & Z2). exists z. split; [apply IHr; assumption|]. apply I1; [|assumption].
        apply (menum_forth _ _ _ _ _ _ Z1 Hs).
      * intros (z & Z1 & Z2). apply IHr in Z1; [|assumption]. exists z. split; [assumption|]. apply I1; [|assumption].
        apply (menum_forth _ _ _ _ _ _ Z1 Hs).
    + rewrite menum_select_cons, in_app_iff.
      change (msem (RSelect (r :: l)) x y) with (msem r x y \/ msem (RSelect l) x y). rewrite IHr, I2 by assumption. tauto.
  - intros H. apply (IH H).
  - intros H. apply (IH H).
  - intros H [m st] [m' st'] Hs. cbn [plain_check] in H.
    assert (X : k <> Possessive /\ forallb plain_check l = true /\ existsb consuming l = true).
    { destruct k; try discriminate; apply andb_true_iff in H as [Y1 Y2]; (split; [discriminate|auto]). }
    destruct X as (X1 & X2 & X3). destruct (IH X2) as [I1 _].
    rewrite menum_rep, msem_rep, in_map_iff. cbn [fst snd] in *.
    assert (Bd : forall z w, st_ok z -> (In w (bF l m z) <-> mround s names l m z w)).
    { intros z w Hz. unfold mbody, mround. rewrite in_map_iff. split.
      - intros ([m2 w2] & <- & Hu). exists m2. apply I1; assumption.
      - intros (m2 & Hu). exists (m2, w). split; [reflexivity|]. apply I1; assumption. }
    split.
    + intros (st2 & [= <- <-] & Hi).
      destruct (iterate_iter s names false (bF l m) (mround s names l m)) with (k := k) (a := a) (b := b) (st := st) (st' := st2)
        as (j & J1 & J2 & J3); auto; [|exists j; auto].
      intros z w Hz Hw. split; [apply Bd; assumption|]. apply (mbody_forth _ _ _ _ _ _ _ Hw Hz).
    + intros (j & J1 & J2 & -> & J3). exists st'. split; [reflexivity|].
      eapply (iter_iterate s names false (bF l m) (mround s names l m)); eauto.
      intros z w Hz Hw. apply Bd in Hw; [|assumption]. split; [assumption|].
      split; [apply (mbody_forth _ _ _ _ _ _ _ Hw Hz) | exact (consuming_body l m X3 z w Hz Hw)].
  - intros H x y Hs. destruct (IH H) as [I1 _]. rewrite menum_cap, msem_cap, in_map_iff. split.
    + intros ([m [p lg]] & <- & Hz). exists m, p, lg. split; [apply I1; assumption|reflexivity].
    + intros (m & p & lg & Hz & ->). exists (m, (p, lg)). split; [reflexivity|]. apply I1; assumption.
  - intros H x y Hs. destruct (IH H) as [I1 _]. rewrite menum_ncap, msem_ncap, in_map_iff. split.
    + intros ([m [p lg]] & <- & Hz). exists m, p, lg. split; [apply I1; assumption|reflexivity].
    + intros (m & p & lg & Hz & ->). exists (m, (p, lg)). split; [reflexivity|]. apply I1; assumption.
  - intros H x y Hs. cbn [plain_check] in H. apply andb_true_iff in H as [H Hg]. destruct (IH H) as [I1 _].
    rewrite menum_ahead, msem_ahead. destruct neg.
    + destruct (menumsF l x) as [|z zs] eqn:E.
      * split; [intros [<-|[]] | intros [-> _]; left; reflexivity]. split; [reflexivity|]. intros z Hz.
        apply I1 in Hz; [|assumption]. rewrite E in Hz. exact Hz.
      * split; [intros [] | intros [_ Hz]]. apply (Hz z). apply I1; [assumption|]. rewrite E. left. reflexivity.
    + assert (Lg : forall z, In z (menumsF l x) -> snd (snd z) = snd (snd x)).
      { intros z. exact (mno_groups_log false (RSeq l) Hg x z). }
      destruct (menumsF l x) as [|z zs] eqn:E.
      * split; [intros []|]. intros (m & p & lg & Hz & _). apply I1 in Hz; [|assumption]. rewrite E in Hz. exact Hz.
      * split.
        -- intros [<-|[]]. destruct z as [m [p lg]]. exists m, p, lg. split; [|reflexivity].
           apply I1; [assumption|]. rewrite E. left. reflexivity.
        -- intros (m & p & lg & Hz & ->). left. apply I1 in Hz; [|assumption]. rewrite E in Hz.
           rewrite (Lg z) by (left; reflexivity). apply Lg in Hz. cbn [snd] in Hz. rewrite Hz. reflexivity.
  - discriminate.
  - intros _ x y _. cbn. split; [intros [<-|[]]; reflexivity | intros ->; left; reflexivity].
Qed.
End MCut.
