(** When nothing is lost by the commitments of a pattern: possessive repetitions and atomic groups, which
    keep only their preferred outcome, and lookaheads, which keep only the groups of their preferred
    outcome. The derivations of ModeSem.v ignore these commitments; the rules below say when a derivation
    that does not respect them can be replaced by one that does. *)
From Coq Require Import List ZArith NArith Bool Lia Arith ZifyBool ZifyN ZifyNat.
From Verif Require Import Chars Syntax First View Eval Api Spec CharProofs EvalMono EvalInv EvalSem SpecProps
  EvalRefine SpecCut ApiProofs EvalTop OptProofs Checks EvalSound Match Mode ModeSem ModeSound ModeEnum ModeRefine ModeCut
  ModeCalls Follow.
Import ListNotations.

(** * The pattern without the commitments *)
Fixpoint loosen (r : re) : re :=
  match r with
  | RSelect l => RSelect (map loosen l)
  | RSeq l => RSeq (map loosen l)
  | RRep Lazy a b l => RRep Lazy a b (map loosen l)
  | RRep _ a b l => RRep Greedy a b (map loosen l)
  | RCap id l => RCap id (map loosen l)
  | RNCap id nm l => RNCap id nm (map loosen l)
  | RAhead neg l => RAhead neg (map loosen l)
  | RAtomic l => RRep Greedy 1 1 (map loosen l)
  | _ => r
  end.

(** [k]: where the rest can match. The preferred outcome of a possessive repetition is the only one that
    can be continued. The commitments inside an iteration, a lookahead or an atomic group have to be
    harmless for their preferred outcome. *)
Section HCheck.
Variable M : list modes.
Fixpoint hcheck (r : re) (k : ctx) : bool :=
  let hseq := fix hseq (l : list re) (k : ctx) : bool :=
    match l with [] => true | x :: xs => hcheck x (fheads_l M (map loosen xs) k) && hseq xs k end in
  match r with
  | RSelect l => forallb (fun x => hcheck x k) l
  | RSeq l | RCap _ l | RNCap _ _ l => hseq l k
  | RAhead _ l => hseq l KAll
  | RAtomic l => existsb consuming l && existsb consuming (map loosen l) && hseq l KAll
  | RRep kd a b l =>
      existsb consuming l && existsb consuming (map loosen l) && hseq l KAll &&
      match kd with Possessive => fdcheck M (RRep Greedy a b (map loosen l)) k | _ => true end
  | _ => true
  end.
Fixpoint hseq (l : list re) (k : ctx) : bool :=
  match l with [] => true | x :: xs => hcheck x (fheads_l M (map loosen xs) k) && hseq xs k end.
End HCheck.

(** * The derivations are the same *)
Theorem loosen_msem : forall s names r x y, msem s names (loosen r) x y <-> msem s names r x y.
Proof.
  intros s names.
  induction r as
    [ | r l IHr IHl | c | | t | l IH | l IH | | | kd a b l IH | id l IH | id nm l IH | id | nm
    | neg l IH | neg l IH | l IH | c | c | a | md ]
    using re_ind2 with (Q := fun l =>
      (forall x y, msems s names (map loosen l) x y <-> msems s names l x y) /\
      (forall x y, msem s names (RSelect (map loosen l)) x y <-> msem s names (RSelect l) x y));
    try (intros; reflexivity).
  - split; intros; reflexivity.
  - destruct IHl as [I1 I2]. split; intros x y.
    + cbn [map msems]. split; intros (z & H1 & H2); exists z; (split; [apply IHr | apply I1]; assumption).
    + cbn [map]. change (msem s names (loosen r) x y \/ msem s names (RSelect (map loosen l)) x y <->
        msem s names r x y \/ msem s names (RSelect l) x y). rewrite IHr, I2. reflexivity.
  - apply IH.
  - apply IH.
  - destruct IH as [I1 _]. intros x y.
    assert (R : forall m st st', mround s names (map loosen l) m st st' <-> mround s names l m st st').
    { intros m st st'. unfold mround. split; intros (m' & H); exists m'; apply I1; assumption. }
    assert (X : forall k1 k2, msem s names (RRep k1 a b (map loosen l)) x y <-> msem s names (RRep k2 a b l) x y).
    { intros k1 k2. rewrite !msem_rep. split; intros (j & H1 & H2 & H3 & H4); exists j; (repeat (split; [assumption|]));
        (eapply iter_ext; [|exact H4]); intros; [symmetry|]; apply R. }
    destruct kd; apply X.
  - destruct IH as [I1 _]. intros x y. cbn [loosen]. rewrite !msem_cap. split; intros (m & p & lg & H & ->);
      exists m, p, lg; (split; [apply I1; assumption|reflexivity]).
  - destruct IH as [I1 _]. intros x y. cbn [loosen]. rewrite !msem_ncap. split; intros (m & p & lg & H & ->);
      exists m, p, lg; (split; [apply I1; assumption|reflexivity]).
  - destruct IH as [I1 _]. intros x y. cbn [loosen]. rewrite !msem_ahead. destruct neg.
    + split; intros [H1 H2]; (split; [assumption|]); intros z Hz; apply (H2 z), I1; assumption.
    + split; intros (m & p & lg & H & ->); exists m, p, lg; (split; [apply I1; assumption|reflexivity]).
  - destruct IH as [I1 _]. intros x y. cbn [loosen]. rewrite msem_rep, msem_atomic. split.
    + intros (j & H1 & H2 & H3 & H4). assert (j = 1) by lia. subst j. split; [assumption|].
      destruct H4 as (z & (m & H4) & H5). cbn [iter] in H5. rewrite H5. exists m. apply I1. assumption.
    + intros (H3 & (m & H4)). exists 1. split; [lia|]. split; [lia|]. split; [assumption|].
      exists (snd y). split; [|reflexivity]. exists m. apply I1. assumption.
Qed.

Lemma closed_loosen : forall M r, closed M r -> closed M (loosen r).
Proof.
  intros M.
  induction r as
    [ | r l IHr IHl | c | | t | l IH | l IH | | | kd a b l IH | id l IH | id nm l IH | id | nm
    | neg l IH | neg l IH | l IH | c | c | a | md ]
    using re_ind2 with (Q := fun l => closeds M l -> closeds M (map loosen l));
    try (intros H; exact H); try exact IH.
  - intros [H1 H2]. split; auto.
  - destruct kd; exact IH.
Qed.
Lemma closeds_loosen : forall M l, closeds M l -> closeds M (map loosen l).
Proof. intros M l. exact (closed_loosen M (RSeq l)). Qed.

Section Loosen.
Variables (s : list Z) (M : list modes) (names : list Z -> option nat).
Hypothesis s_ok : forallb val_ok s = true.
Notation menumT := (menum s names true).
Notation menumF := (menum s names false).
Notation menumsT := (menums s names true).
Notation menumsF := (menums s names false).
Notation bT := (mbody s names true).
Notation bF := (mbody s names false).
Notation st_ok := (st_ok s).
Notation closed := (closed M).
Notation closeds := (closeds M).
Notation compat := (compat s M).
Notation valid := (valid s M).
Notation pos x := (fst (@snd modes state x)).
Notation loose := (map loosen).

(** * Repetitions that keep one outcome per iteration *)
Section Heads.
  Variables b1 b2 : state -> list state.
  Hypothesis ok1 : forall st st', st_ok st -> In st' (b1 st) -> st_ok st' /\ fst st < fst st'.
  Hypothesis ok2 : forall st st', st_ok st -> In st' (b2 st) -> st_ok st' /\ fst st < fst st'.
  Hypothesis heads : forall st, st_ok st -> hd_error (b1 st) = hd_error (b2 st).

  Lemma first_steps : forall st, st_ok st ->
    firstn 1 (filter (advances st) (b1 st)) = firstn 1 (filter (advances st) (b2 st)).
  Proof.
    intros st Hs. rewrite !filter_all.
    - apply hd_firstn, heads, Hs.
    - intros x Hx. apply Nat.ltb_lt, (ok2 _ _ Hs Hx).
    - intros x Hx. apply Nat.ltb_lt, (ok1 _ _ Hs Hx).
  Qed.
  Lemma first_step_ok : forall st st', st_ok st -> In st' (firstn 1 (filter (advances st) (b2 st))) -> st_ok st'.
  Proof. intros st st' Hs H. apply firstn1_in, filter_In in H as [H _]. apply (ok2 _ _ Hs H). Qed.

  Lemma mandatory_heads : forall k st, st_ok st -> mandatory true b1 k st = mandatory true b2 k st.
  Proof.
    induction k as [|k IH]; intros st Hs; [reflexivity|]. cbn [mandatory]. unfold keep, progress.
    rewrite first_steps by assumption. apply flat_map_ext_in. intros x Hx. apply IH. exact (first_step_ok _ _ Hs Hx).
  Qed.
  Lemma greedy_heads : forall k b i st, st_ok st -> more_greedy true b1 k b i st = more_greedy true b2 k b i st.
  Proof.
    induction k as [|k IH]; intros b i st Hs; [reflexivity|]. cbn [more_greedy]. unfold keep.
    destruct (N.eqb b 0 || N.ltb i b)%bool; [|reflexivity]. f_equal.
    rewrite first_steps by assumption. apply flat_map_ext_in. intros x Hx. apply IH. exact (first_step_ok _ _ Hs Hx).
  Qed.
  Lemma lazy_heads : forall k b i st, st_ok st -> more_lazy true b1 k b i st = more_lazy true b2 k b i st.
  Proof.
    induction k as [|k IH]; intros b i st Hs; [reflexivity|]. cbn [more_lazy]. unfold keep.
    destruct (N.eqb b 0 || N.ltb i b)%bool; [|reflexivity]. f_equal.
    rewrite first_steps by assumption. apply flat_map_ext_in. intros x Hx. apply IH. exact (first_step_ok _ _ Hs Hx).
  Qed.
  Lemma iterate_heads : forall kd a b st, st_ok st -> iterate s true b1 kd a b st = iterate s true b2 kd a b st.
  Proof.
    intros kd a b st Hs. unfold iterate. destruct (negb (N.eqb b 0) && N.ltb b a)%bool; [reflexivity|].
    rewrite mandatory_heads by assumption.
    assert (Ok : forall x, In x (mandatory true b2 (N.to_nat a) st) -> st_ok x).
    { intros x Hx. eapply (mandatory_ok s names b2); [|exact Hs|exact Hx]. intros z w Hz Hw. apply (ok2 _ _ Hz Hw). }
    destruct kd; [| |f_equal]; apply flat_map_ext_in; intros x Hx; (apply greedy_heads || apply lazy_heads); auto.
  Qed.
End Heads.

Lemma body_ok : forall l m, existsb consuming l = true -> forall st st', st_ok st -> In st' (bT l m st) ->
  st_ok st' /\ fst st < fst st'.
Proof.
  intros l m Hc z w Hz Hw. split; [apply (mbody_forth _ _ _ _ _ _ _ Hw Hz)|].
  apply in_map_iff in Hw as (y & <- & Hw). exact (consuming_menum s names true (RSeq l) Hc (m, z) y Hz Hw).
Qed.
Lemma rep_heads : forall kd a b l x, existsb consuming l = true -> existsb consuming (loose l) = true ->
  (forall x, valid x -> hd_error (menumsT l x) = hd_error (menumsT (loose l) x)) -> valid x ->
  menumT (RRep kd a b l) x = menumT (RRep kd a b (loose l)) x.
Proof.
  intros kd a b l [m st] C1 C2 H [V1 V2]. rewrite !menum_rep. cbn [fst snd] in *. f_equal.
  apply iterate_heads; [apply body_ok; assumption | apply body_ok; assumption | | assumption].
  intros z Hz. unfold mbody. rewrite !hd_map, H; [reflexivity|]. split; assumption.
Qed.
(** An atomic group is one iteration, which already keeps one outcome. *)
Lemma atomic_once : forall l x, menumT (RAtomic l) x = menumT (RRep Greedy 1 1 l) x.
Proof.
  intros l x. rewrite menum_atomic, menum_rep. f_equal. unfold iterate. change (negb (N.eqb 1 0) && N.ltb 1 1)%bool with false.
  cbv iota. change (N.to_nat 1) with 1. cbn [mandatory]. unfold keep.
  destruct (progress true (snd x) (bT l (fst x) (snd x))) as [|y ys]; [reflexivity|].
  change (firstn 1 (y :: ys)) with [y]. cbn [flat_map app more_greedy].
  change (N.eqb 1 0 || N.ltb 1 1)%bool with false. reflexivity.
Qed.

Lemma first_only_find : forall A (P : A -> bool) l, first_only P l -> find P (firstn 1 l) = find P l.
Proof.
  intros A P [|x l] H; [reflexivity|]. change (firstn 1 (x :: l)) with [x]. unfold first_only in H. cbn [find hd_error] in *.
  destruct (P x) eqn:E; [reflexivity|]. destruct H as [->|H]; [reflexivity|]. apply find_some in H as [_ H]. congruence.
Qed.

(** * The first outcome that can be continued is the same *)
Theorem hold_agrees : forall r, closed r -> forall k T, compat k T -> hcheck M r k = true -> forall x, valid x ->
  find T (menumT r x) = find T (menumT (loosen r) x).
Proof.
  induction r as
    [ | r l IHr IHl | c | | t | l IH | l IH | | | kd a b l IH | id l IH | id nm l IH | id | nm
    | neg l IH | neg l IH | l IH | c | c | a | md ]
    using re_ind2 with (Q := fun l => closeds l -> forall k T, compat k T ->
      (hseq M l k = true -> forall x, valid x -> find T (menumsT l x) = find T (menumsT (loose l) x)) /\
      (forallb (fun x => hcheck M x k) l = true -> forall x, valid x ->
        find T (menumT (RSelect l) x) = find T (menumT (RSelect (loose l)) x)));
    try (intros; reflexivity).
  - intros _ k T HT. split; reflexivity.
  - intros [C1 C2] k T HT. destruct (IHl C2 k T HT) as [I1 I2]. split; intros H x V.
    + cbn [hseq] in H. apply andb_true_iff in H as [H1 H2]. cbn [map]. rewrite !menums_cons, !find_flat.
      rewrite (find_ext_in _ _ (fun m => existsb T (menumsT (loose l) m)) (menumT r x)).
      2:{ intros y Hy. rewrite !existsb_find, I1; [reflexivity|exact H2|exact (menum_valid s M names _ _ _ _ C1 V Hy)]. }
      rewrite (IHr C1 _ (fun m => existsb T (menumsT (loose l) m))
        (fheads_sound s M names true (RSeq (loose l)) (closeds_loosen _ _ C2) k T HT) H1 x V).
      destruct (find (fun m => existsb T (menumsT (loose l) m)) (menumT (loosen r) x)) as [y|] eqn:E; [|reflexivity].
      apply find_some in E as [E _]. apply I1; [exact H2|].
      exact (menum_valid s M names _ _ _ _ (closed_loosen _ _ C1) V E).
    + cbn [forallb] in H. apply andb_true_iff in H as [H1 H2]. cbn [map]. rewrite !menum_select_cons, !find_app.
      rewrite (IHr C1 k T HT H1 x V), (I2 H2 x V). reflexivity.
  - intros C k T HT H. apply (IH C k T HT). exact H.
  - intros C k T HT H. apply (IH C k T HT). exact H.
  - (* RRep *)
    intros C k T HT H x V. cbn [hcheck] in H. fold (hseq M) in H. apply andb_true_iff in H as [H H4].
    apply andb_true_iff in H as [H H3]. apply andb_true_iff in H as [H1 H2].
    assert (X : forall kd, menumT (RRep kd a b l) x = menumT (RRep kd a b (loose l)) x).
    { intros kd'. apply rep_heads; try assumption. intros z Vz. rewrite <- !find_true.
      apply (IH C KAll (fun _ => true)); try assumption. intros y _. reflexivity. }
    destruct kd; cbn [loosen]; [rewrite X; reflexivity | rewrite X; reflexivity|].
    rewrite (possessive_greedy s names), X. apply first_only_find.
    apply (fd_sound s M names s_ok (RRep Greedy a b (loose l)) (closeds_loosen _ _ C) k T HT H4 x V).
  - intros C k T HT H x V. cbn [hcheck] in H. fold (hseq M) in H. cbn [loosen]. rewrite !menum_cap, !find_map.
    change (fun y => T (fst y, (pos y, (id, (pos x, pos y)) :: snd (snd y)))) with (fun y => T (close id (pos x) y)).
    rewrite (find_ext_in _ _ (closing id (pos x) T) (menumsT l x)) by (intros y Hy; apply (closing_at s M names); [exact V|eauto]).
    rewrite (find_ext_in _ _ (closing id (pos x) T) (menumsT (loose l) x)) by (intros y Hy; apply (closing_at s M names); [exact V|eauto]).
    f_equal. apply (IH C k _ (closing_compat s M k id (pos x) T HT)); assumption.
  - intros C k T HT H x V. cbn [hcheck] in H. fold (hseq M) in H. cbn [loosen]. rewrite !menum_ncap, !find_map.
    change (fun y => T (fst y, (pos y, (id, (pos x, pos y)) :: snd (snd y)))) with (fun y => T (close id (pos x) y)).
    rewrite (find_ext_in _ _ (closing id (pos x) T) (menumsT l x)) by (intros y Hy; apply (closing_at s M names); [exact V|eauto]).
    rewrite (find_ext_in _ _ (closing id (pos x) T) (menumsT (loose l) x)) by (intros y Hy; apply (closing_at s M names); [exact V|eauto]).
    f_equal. apply (IH C k _ (closing_compat s M k id (pos x) T HT)); assumption.
  - (* RAhead *)
    intros C k T HT H x V. cbn [hcheck] in H. fold (hseq M) in H.
    assert (E : hd_error (menumsT l x) = hd_error (menumsT (loose l) x)).
    { rewrite <- !find_true. apply (IH C KAll (fun _ => true)); try assumption. intros y _. reflexivity. }
    cbn [loosen]. rewrite !menum_ahead. destruct (menumsT l x), (menumsT (loose l) x); cbn in E; try discriminate; [reflexivity|].
    injection E as ->. reflexivity.
  - (* RAtomic *)
    intros C k T HT H x V. cbn [hcheck] in H. fold (hseq M) in H. apply andb_true_iff in H as [H H3].
    apply andb_true_iff in H as [H1 H2]. cbn [loosen]. rewrite atomic_once. f_equal.
    apply rep_heads; try assumption. intros z Vz. rewrite <- !find_true.
    apply (IH C KAll (fun _ => true)); try assumption. intros y _. reflexivity.
Qed.
End Loosen.

(** * Groups of lookaheads *)
(** Numbers of the groups of [r] that are visible after it, and the groups its back references read. *)
Fixpoint gids (r : re) : list nat :=
  match r with
  | RSelect l | RSeq l | RRep _ _ _ l | RAtomic l | RAhead false l => flat_map gids l
  | RCap id l | RNCap id _ l => id :: flat_map gids l
  | _ => []
  end.
Section Refs.
Variable names : list Z -> option nat.
Fixpoint refs (r : re) : list nat :=
  match r with
  | RBack id => [id]
  | RNBack nm => match names nm with Some id => [id] | None => [] end
  | RSelect l | RSeq l | RRep _ _ _ l | RAtomic l | RAhead _ l | RCap _ l | RNCap _ _ l => flat_map refs l
  | _ => []
  end.
(** [D]: the groups that the rest reads. The groups of a lookahead are not read outside it. *)
Fixpoint lcheck (r : re) (D : list nat) : bool :=
  let lseq := fix lseq (l : list re) (D : list nat) : bool :=
    match l with [] => true | x :: xs => lcheck x (D ++ flat_map refs xs) && lseq xs D end in
  match r with
  | RSelect l => forallb (fun x => lcheck x D) l
  | RSeq l | RCap _ l | RNCap _ _ l => lseq l D
  | RRep Possessive _ _ _ | RAtomic _ => false
  | RRep _ _ _ l => existsb consuming l && lseq l (D ++ flat_map refs l)
  | RAhead true l => lseq l []
  | RAhead false l => lseq l [] && forallb (fun id => negb (existsb (Nat.eqb id) (flat_map gids l))) D
  | _ => true
  end.
Fixpoint lseq (l : list re) (D : list nat) : bool :=
  match l with [] => true | x :: xs => lcheck x (D ++ flat_map refs xs) && lseq xs D end.
End Refs.

Section Hidden.
Variables (s : list Z) (names : list Z -> option nat).
Notation menumF := (menum s names false).
Notation menumsF := (menums s names false).
Notation bF := (mbody s names false).
Notation msem := (msem s names).
Notation msems := (msems s names).
Notation st_ok := (st_ok s).
Notation pos x := (fst (@snd modes state x)).
Notation refs := (refs names).
Notation refsl := (flat_map refs).

(** Equal but for groups outside [D]. *)
Definition like (D : list nat) (x y : mstate) : Prop :=
  fst x = fst y /\ pos x = pos y /\ forall id, In id D -> lookup id (snd (snd x)) = lookup id (snd (snd y)).
Lemma like_refl : forall D x, like D x x.
Proof. repeat split. Qed.
Lemma like_incl : forall D E x y, incl E D -> like D x y -> like E x y.
Proof. intros D E x y H (H1 & H2 & H3). repeat split; auto. Qed.

(** Parts without structure leave the groups alone and look only at the ones they name. *)
Lemma leaf_like : forall ml ci r st st', no_switch r = true ->
  match r with RSelect _ | RSeq _ | RRep _ _ _ _ | RCap _ _ | RNCap _ _ _ | RAhead _ _ | RAtomic _ => False | _ => True end ->
  sem s ml ci names r st st' -> snd st' = snd st /\
  forall lg, (forall id, In id (refs r) -> lookup id (snd st) = lookup id lg) ->
    sem s ml ci names r (fst st, lg) (fst st', lg).
Proof.
  intros ml ci r [p lg0] [p' lg0'] Hn Hr H.
  assert (B : forall id, back_sem s id (p, lg0) (p', lg0') -> lg0' = lg0 /\
    forall lg, lookup id lg0 = lookup id lg -> back_sem s id (p, lg) (p', lg)).
  { intros id (b & e & B1 & B2 & B3 & B4). injection B4 as -> ->. split; [reflexivity|]. intros lg E. exists b, e.
    cbn [fst snd] in *. rewrite <- E. auto. }
  destruct r as [c| |t|l|l| | |kd a b l|id l|id nm l|id|nm|neg l|neg l|l|c|c|a|md]; try contradiction; cbn [sem fst snd] in *.
  - destruct H as (v & H1 & H2 & [= -> ->]). split; [reflexivity|]. intros lg _. exists v. auto.
  - destruct H as (v & H1 & H2 & [= -> ->]). split; [reflexivity|]. intros lg _. exists v. auto.
  - destruct H as ([= -> ->] & H). split; [reflexivity|]. intros lg _. split; [reflexivity|exact H].
  - injection H as -> ->. split; [reflexivity|]. intros; reflexivity.
  - apply B in H as [H1 H2]. split; [exact H1|]. intros lg Hl. apply H2, Hl. left. reflexivity.
  - destruct H as (id & E & H). apply B in H as [H1 H2]. split; [exact H1|]. intros lg Hl. exists id. split; [exact E|].
    apply H2, Hl. cbn [Loosen.refs]. rewrite E. left. reflexivity.
  - destruct neg; destruct H as ([= -> ->] & H); (split; [reflexivity|]); intros lg _; (split; [reflexivity|exact H]).
  - destruct H as ([= -> ->] & H); (split; [reflexivity|]); intros lg _; (split; [reflexivity|exact H]).
  - destruct H as ([= -> ->] & H); (split; [reflexivity|]); intros lg _; (split; [reflexivity|exact H]).
  - destruct H as ([= -> ->] & H); (split; [reflexivity|]); intros lg _; (split; [reflexivity|exact H]).
Qed.

Lemma iter_inv : forall (P : state -> state -> Prop) (R : state -> state -> Prop),
  (forall x, P x x) -> (forall x y z, P x y -> P y z -> P x z) -> (forall x y, R x y -> P x y) ->
  forall k x y, iter R k x y -> P x y.
Proof.
  intros P R H1 H2 H3. induction k as [|k IH]; intros x y H; [cbn in H; subst; auto|].
  destruct H as (m & Hm & H). eauto.
Qed.

Lemma msem_frame : forall id r x y, msem r x y -> ~ In id (gids r) -> lookup id (snd (snd y)) = lookup id (snd (snd x)).
Proof.
  intros id0.
  assert (Leaf : forall r, no_switch r = true ->
    match r with RSelect _ | RSeq _ | RRep _ _ _ _ | RCap _ _ | RNCap _ _ _ | RAhead _ _ | RAtomic _ => False | _ => True end ->
    forall x y, msem r x y -> ~ In id0 (gids r) -> lookup id0 (snd (snd y)) = lookup id0 (snd (snd x))).
  { intros r Hn Hr [m st] [m' st'] H _. apply msem_plain in H as [_ H]; [|assumption].
    apply leaf_like in H as [H _]; try assumption. cbn [snd]. rewrite H. reflexivity. }
  induction r as
    [ | r l IHr IHl | c | | t | l IH | l IH | | | k a b l IH | id l IH | id nm l IH | id | nm
    | neg l IH | neg l IH | l IH | c | c | a | md ]
    using re_ind2 with (Q := fun l => forall x y, ~ In id0 (flat_map gids l) ->
      (msems l x y -> lookup id0 (snd (snd y)) = lookup id0 (snd (snd x))) /\
      (msem (RSelect l) x y -> lookup id0 (snd (snd y)) = lookup id0 (snd (snd x))));
    try (apply Leaf; [reflexivity|exact I]).
  - intros x y _. split; [intros ->; reflexivity | intros []].
  - intros x y Hn. cbn [flat_map] in Hn. rewrite in_app_iff in Hn. split.
    + intros (z & H1 & H2). rewrite (proj1 (IHl z y ltac:(tauto)) H2). apply IHr; tauto.
    + intros [H|H]; [apply IHr; tauto | apply (IHl x y ltac:(tauto)), H].
  - intros x y H Hn. exact (proj2 (IH x y Hn) H).
  - intros x y H Hn. exact (proj1 (IH x y Hn) H).
  - intros x y H Hn. rewrite msem_rep in H. destruct H as (j & _ & _ & _ & H).
    apply (iter_inv (fun x y => lookup id0 (snd y) = lookup id0 (snd x)) (mround s names l (fst x))) in H; auto.
    + intros; congruence.
    + intros z w (m & Hm). exact (proj1 (IH _ _ Hn) Hm).
  - intros x y H Hn. rewrite msem_cap in H. destruct H as (m & p & lg & H & ->). cbn [gids] in Hn. cbn [snd lookup].
    destruct (Nat.eqb_spec id id0) as [->|_]; [exfalso; apply Hn; left; reflexivity|].
    apply (IH _ _ ltac:(intros X; apply Hn; right; exact X)) in H. exact H.
  - intros x y H Hn. rewrite msem_ncap in H. destruct H as (m & p & lg & H & ->). cbn [gids] in Hn. cbn [snd lookup].
    destruct (Nat.eqb_spec id id0) as [->|_]; [exfalso; apply Hn; left; reflexivity|].
    apply (IH _ _ ltac:(intros X; apply Hn; right; exact X)) in H. exact H.
  - intros x y H Hn. rewrite msem_ahead in H. destruct neg; [destruct H as [-> _]; reflexivity|].
    destruct H as (m & p & lg & H & ->). apply (IH _ _ Hn) in H. exact H.
  - intros x y H Hn. rewrite msem_atomic in H. destruct H as (_ & m & H). apply (IH _ _ Hn) in H.
    destruct x as [mx sx]. exact H.
  - intros x y -> _. reflexivity.
Qed.

Lemma msem_ok : forall r x y, msem r x y -> st_ok (snd x) -> st_ok (snd y).
Proof.
  assert (Leaf : forall r, plain_check r = true -> forall x y, msem r x y -> st_ok (snd x) -> st_ok (snd y)).
  { intros r Hp x y H Hs. apply (menum_msem s names r Hp x y Hs) in H. apply (menum_forth _ _ _ _ _ _ H Hs). }
  assert (Cap : forall (id : nat) l (x y : mstate), (forall x y, msems l x y -> st_ok (snd x) -> st_ok (snd y)) ->
    msem (RCap id l) x y -> st_ok (snd x) -> st_ok (snd y)).
  { intros id l x y IH H Hs. rewrite msem_cap in H. destruct H as (m & p & lg & H & ->).
    destruct (IH _ _ H Hs) as [H1 H2]. split; [exact H1|]. constructor; [|exact H2].
    split; [|exact H1]. exact (msem_forward s names (RSeq l) x _ H). }
  induction r as
    [ | r l IHr IHl | c | | t | l IH | l IH | | | k a b l IH | id l IH | id nm l IH | id | nm
    | neg l IH | neg l IH | l IH | c | c | a | md ]
    using re_ind2 with (Q := fun l =>
      (forall x y, msems l x y -> st_ok (snd x) -> st_ok (snd y)) /\
      (forall x y, msem (RSelect l) x y -> st_ok (snd x) -> st_ok (snd y)));
    try (apply Leaf; reflexivity).
  - split; [intros x y -> Hs; exact Hs | intros x y []].
  - destruct IHl as [I1 I2]. split.
    + intros x y (z & H1 & H2) Hs. eauto.
    + intros x y [H|H] Hs; eauto.
  - apply IH.
  - apply IH.
  - intros x y H. rewrite msem_rep in H. destruct H as (j & _ & _ & _ & H).
    refine (iter_inv (fun x y => st_ok x -> st_ok y) (mround s names l (fst x)) _ _ _ _ _ _ H).
    + auto.
    + auto.
    + intros z w (m & Hm). exact (proj1 IH _ _ Hm).
  - intros x y. apply Cap, IH.
  - intros x y. apply (Cap id l), IH.
  - intros x y H Hs. rewrite msem_ahead in H. destruct neg; [destruct H as [-> _]; exact Hs|].
    destruct H as (m & p & lg & H & ->). apply IH in H; [|exact Hs]. split; [apply Hs | apply H].
  - intros x y H Hs. rewrite msem_atomic in H. destruct H as (_ & m & H). apply IH in H; [exact H|].
    destruct x. exact Hs.
Qed.

(** A derivation can be replaced by an outcome that differs in groups nobody reads. *)
Theorem seen_outcome : forall r D, lcheck names r D = true ->
  (forall x y, st_ok (snd x) -> In y (menumF r x) -> msem r x y) /\
  (forall x x' y, st_ok (snd x) -> st_ok (snd x') -> like (D ++ refs r) x x' -> msem r x y -> exists y', In y' (menumF r x') /\ like D y y').
Proof.
  assert (Leaf : forall r, plain_check r = true -> no_switch r = true ->
    match r with RSelect _ | RSeq _ | RRep _ _ _ _ | RCap _ _ | RNCap _ _ _ | RAhead _ _ | RAtomic _ => False | _ => True end ->
    forall D, lcheck names r D = true ->
    (forall x y, st_ok (snd x) -> In y (menumF r x) -> msem r x y) /\
    (forall x x' y, st_ok (snd x) -> st_ok (snd x') -> like (D ++ refs r) x x' -> msem r x y -> exists y', In y' (menumF r x') /\ like D y y')).
  { intros r Hp Hn Hr D _. split.
    - intros x y Hs H. apply (menum_msem s names r Hp x y Hs). exact H.
    - intros [m st] [m' [p lg]] [m2 st2] _ Hs (L1 & L2 & L3) H. cbn [fst snd] in *. subst m'.
      apply msem_plain in H as [-> H]; [|assumption]. apply leaf_like in H as [H1 H2]; try assumption.
      exists (m, (fst st2, lg)). split.
      + apply (menum_msem s names r Hp (m, (p, lg)) _ Hs). apply msem_plain; [assumption|]. split; [reflexivity|].
        rewrite <- L2. apply H2. intros id Hid. apply L3. apply in_or_app. right. exact Hid.
      + split; [reflexivity|]. split; [reflexivity|]. intros id Hid. cbn [snd]. rewrite H1. apply L3. apply in_or_app.
        left. exact Hid. }
  induction r as
    [ | r l IHr IHl | c | | t | l IH | l IH | | | k a b l IH | id l IH | id nm l IH | id | nm
    | neg l IH | neg l IH | l IH | c | c | a | md ]
    using re_ind2 with (Q := fun l => forall D,
      (lseq names l D = true ->
        (forall x y, st_ok (snd x) -> In y (menumsF l x) -> msems l x y) /\
        (forall x x' y, st_ok (snd x) -> st_ok (snd x') -> like (D ++ refsl l) x x' -> msems l x y ->
           exists y', In y' (menumsF l x') /\ like D y y')) /\
      (forallb (fun x => lcheck names x D) l = true ->
        (forall x y, st_ok (snd x) -> In y (menumF (RSelect l) x) -> msem (RSelect l) x y) /\
        (forall x x' y, st_ok (snd x) -> st_ok (snd x') -> like (D ++ refsl l) x x' -> msem (RSelect l) x y ->
           exists y', In y' (menumF (RSelect l) x') /\ like D y y')));
    try (apply Leaf; [reflexivity|reflexivity|exact I]).
  - intros D. split; intros _; (split; [|]).
    + intros x y _ [<-|[]]. reflexivity.
    + intros x x' y _ _ L ->. exists x'. split; [left; reflexivity|]. eapply like_incl; [|exact L]. apply incl_appl, incl_refl.
    + intros x y _ [].
    + intros x x' y _ _ _ [].
  - intros D. split; intros H; [cbn [lseq] in H | cbn [forallb] in H]; apply andb_true_iff in H as [H1 H2].
    + destruct (IHr _ H1) as [R1 R2]. destruct (proj1 (IHl D) H2) as [L1 L2]. split.
      * intros x y Hs H. rewrite menums_cons in H. apply in_flat_map in H as (z & Z1 & Z2). exists z.
        split; [apply R1; assumption|]. apply L1; [|assumption]. apply (menum_forth _ _ _ _ _ _ Z1 Hs).
      * intros x x' y Ho Hs L (z & Z1 & Z2). destruct (R2 x x' z Ho Hs) as (z' & Z3 & Z4); [|assumption|].
        { eapply like_incl; [|exact L]. cbn [flat_map]. intros i Hi. rewrite !in_app_iff in *. tauto. }
        destruct (L2 z z' y) as (y' & Y1 & Y2); [exact (msem_ok _ _ _ Z1 Ho)| |assumption|assumption|].
        { apply (menum_forth _ _ _ _ _ _ Z3 Hs). }
        exists y'. split; [|exact Y2]. rewrite menums_cons. apply in_flat_map. exists z'. auto.
    + destruct (IHr _ H1) as [R1 R2]. destruct (proj2 (IHl D) H2) as [L1 L2]. split.
      * intros x y Hs H. rewrite menum_select_cons in H. apply in_app_iff in H as [H|H];
          [left; exact (R1 _ _ Hs H) | right; exact (L1 _ _ Hs H)].
      * intros x x' y Ho Hs L [H|H].
        -- destruct (R2 x x' y Ho Hs) as (y' & Y1 & Y2); [|assumption|].
           { eapply like_incl; [|exact L]. cbn [flat_map]. intros i Hi. rewrite !in_app_iff in *. tauto. }
           exists y'. split; [|exact Y2]. rewrite menum_select_cons. apply in_or_app. auto.
        -- destruct (L2 x x' y Ho Hs) as (y' & Y1 & Y2); [|assumption|].
           { eapply like_incl; [|exact L]. cbn [flat_map]. intros i Hi. rewrite !in_app_iff in *. tauto. }
           exists y'. split; [|exact Y2]. rewrite menum_select_cons. apply in_or_app. auto.
  - intros D H. exact (proj2 (IH D) H).
  - intros D H. exact (proj1 (IH D) H).
  - (* RRep *)
    intros D H. assert (X : k <> Possessive /\ existsb consuming l = true /\ lseq names l (D ++ refsl l) = true).
    { destruct k; try discriminate; cbn [lcheck] in H; apply andb_true_iff in H as [Y1 Y2]; (split; [discriminate|auto]). }
    destruct X as (X1 & X2 & X3). destruct (proj1 (IH _) X3) as [L1 L2]. split.
    + intros [m st] [m' st'] Hs Hi. rewrite menum_rep in Hi. rewrite msem_rep. cbn [fst snd] in *.
      apply in_map_iff in Hi as (st2 & [= <- <-] & Hi).
      destruct (iterate_iter s names false (bF l m) (mround s names l m)) with (k := k) (a := a) (b := b) (st := st) (st' := st2)
        as (j & J1 & J2 & J3); auto; [|exists j; auto].
      intros z w Hz Hw. split; [|apply (mbody_forth _ _ _ _ _ _ _ Hw Hz)].
      apply in_map_iff in Hw as ([m2 w2] & <- & Hw). exists m2. apply L1; assumption.
    + intros [m st] [m' st'] y Ho Hs L Hi. rewrite msem_rep in Hi. cbn [fst snd] in *.
      destruct Hi as (j & J1 & J2 & J3 & J4). destruct y as [my sy]. cbn [fst snd] in *. subst my.
      assert (m = m') by apply L. subst m'.
      assert (E : exists sy', iter (fun z w => In w (bF l m z)) j st' sy' /\ like (D ++ refsl l) (m, sy) (m, sy')).
      { clear J1 J2. change (Loosen.refs names (RRep k a b l)) with (refsl l) in L.
        revert st st' Ho Hs L J4. induction j as [|j IHj]; intros st st' Ho Hs L J.
        - cbn in J. subst sy. exists st'. split; [reflexivity|exact L].
        - destruct J as (z & (mz & Hz) & J). destruct (L2 (m, st) (m, st') (mz, z)) as ([mz' z'] & Z1 & Z2); [exact Ho|exact Hs| |exact Hz|].
          { eapply like_incl; [|exact L]. intros i Hi. rewrite !in_app_iff in *. tauto. }
          destruct (IHj z z') as (sy' & S1 & S2); [exact (msem_ok (RSeq l) _ _ Hz Ho)| |destruct Z2 as (_ & Z3 & Z4); split; [reflexivity|split; assumption]|exact J|].
          { apply (menums_forth _ _ _ _ _ _ Z1 Hs). }
          exists sy'. split; [|exact S2]. exists z'. split; [|exact S1]. apply in_map_iff. exists (mz', z'). auto. }
      destruct E as (sy' & E1 & E2). exists (m, sy'). split.
      * rewrite menum_rep. cbn [fst snd]. apply in_map.
        eapply (iter_iterate s names false (bF l m) (fun z w => In w (bF l m z))); eauto.
        intros z w Hz Hw. split; [exact Hw|]. split; [apply (mbody_forth _ _ _ _ _ _ _ Hw Hz)|].
        exact (consuming_body s names l m X2 z w Hz Hw).
      * eapply like_incl; [|exact E2]. apply incl_appl, incl_refl.
  - intros D H. destruct (proj1 (IH D) H) as [L1 L2]. split.
    + intros x y Hs Hy. rewrite menum_cap in Hy. rewrite msem_cap. apply in_map_iff in Hy as ([m [p lg]] & <- & Hz).
      exists m, p, lg. split; [apply L1; assumption|reflexivity].
    + intros x x' y Ho Hs L Hy. rewrite msem_cap in Hy. destruct Hy as (m & p & lg & Hz & ->).
      destruct (L2 x x' _ Ho Hs L Hz) as ([m' [p' lg']] & Z1 & (Z2 & Z3 & Z4)). cbn [fst snd] in *. subst m' p'.
      exists (m, (p, (id, (pos x', p)) :: lg')). split.
      * rewrite menum_cap. apply in_map_iff. exists (m, (p, lg')). auto.
      * split; [reflexivity|]. split; [reflexivity|]. intros i Hi. cbn [snd lookup].
        destruct (Nat.eqb id i); [|auto]. destruct L as (_ & -> & _). reflexivity.
  - intros D H. destruct (proj1 (IH D) H) as [L1 L2]. split.
    + intros x y Hs Hy. rewrite menum_ncap in Hy. rewrite msem_ncap. apply in_map_iff in Hy as ([m [p lg]] & <- & Hz).
      exists m, p, lg. split; [apply L1; assumption|reflexivity].
    + intros x x' y Ho Hs L Hy. rewrite msem_ncap in Hy. destruct Hy as (m & p & lg & Hz & ->).
      destruct (L2 x x' _ Ho Hs L Hz) as ([m' [p' lg']] & Z1 & (Z2 & Z3 & Z4)). cbn [fst snd] in *. subst m' p'.
      exists (m, (p, (id, (pos x', p)) :: lg')). split.
      * rewrite menum_ncap. apply in_map_iff. exists (m, (p, lg')). auto.
      * split; [reflexivity|]. split; [reflexivity|]. intros i Hi. cbn [snd lookup].
        destruct (Nat.eqb id i); [|auto]. destruct L as (_ & -> & _). reflexivity.
  - (* RAhead *)
    intros D H. destruct neg; cbn [lcheck] in H; fold (lseq names) in H.
    + destruct (proj1 (IH _) H) as [L1 L2]. split.
      * intros x y Hs Hy. rewrite menum_ahead in Hy. rewrite msem_ahead. destruct (menumsF l x) as [|z zs] eqn:E; [|contradiction].
        destruct Hy as [<-|[]]. split; [reflexivity|]. intros z Hz.
        destruct (L2 x x z Hs Hs (like_refl _ _) Hz) as (z' & Z & _). rewrite E in Z. exact Z.
      * intros x x' y Ho Hs L Hy. rewrite msem_ahead in Hy. destruct Hy as [-> Hy]. exists x'.
        split; [|eapply like_incl; [|exact L]; apply incl_appl, incl_refl].
        rewrite menum_ahead. destruct (menumsF l x') as [|z zs] eqn:E; [left; reflexivity|]. exfalso.
        assert (Hz : msems l x' z) by (apply L1; [exact Hs|rewrite E; left; reflexivity]). clear E.
        assert (B : like (refsl l) x' x).
        { destruct L as (Q1 & Q2 & Q3). split; [auto|]. split; [auto|]. intros i Hi. symmetry. apply Q3. apply in_or_app.
          right. exact Hi. }
        destruct (L2 x' x z Hs Ho B Hz) as (z' & Z1 & _). apply (Hy z'), L1; assumption.
    + apply andb_true_iff in H as [H Hd]. destruct (proj1 (IH _) H) as [L1 L2]. split.
      * intros x y Hs Hy. rewrite menum_ahead in Hy. rewrite msem_ahead. destruct (menumsF l x) as [|z zs] eqn:E; [contradiction|].
        destruct Hy as [<-|[]]. destruct z as [m [p lg]]. exists m, p, lg. split; [|reflexivity].
        apply L1; [assumption|]. rewrite E. left. reflexivity.
      * intros x x' y Ho Hs L Hy. rewrite msem_ahead in Hy. destruct Hy as (m & p & lg & Hz & ->).
        destruct (L2 x x' (m, (p, lg)) Ho Hs) as (z' & Z1 & _); [|exact Hz|].
        { eapply like_incl; [|exact L]. apply incl_appr, incl_refl. }
        destruct (menumsF l x') as [|z zs] eqn:E; [contradiction|].
        assert (Hz' : msems l x' z) by (apply L1; [exact Hs|rewrite E; left; reflexivity]).
        exists (fst x', (pos x', snd (snd z))). split; [rewrite menum_ahead, E; left; reflexivity|].
        destruct L as (Q1 & Q2 & Q3). split; [exact Q1|]. split; [exact Q2|]. cbn [fst snd]. intros i Hi.
        assert (Hg : ~ In i (flat_map gids l)).
        { rewrite forallb_forall in Hd. specialize (Hd i Hi). apply negb_true_iff in Hd. intros X.
          assert (Y : existsb (Nat.eqb i) (flat_map gids l) = true) by (apply existsb_exists; exists i; split; [exact X|apply Nat.eqb_refl]).
          congruence. }
        pose proof (msem_frame i (RSeq l) x (m, (p, lg)) Hz Hg) as F1.
        pose proof (msem_frame i (RSeq l) x' z Hz' Hg) as F2. cbn [snd] in F1. rewrite F1, F2. apply Q3. apply in_or_app. auto.
  - discriminate.
  - intros D _. split.
    + intros x y _ [<-|[]]. reflexivity.
    + intros x x' y _ _ (L1 & L2 & L3) ->. exists (switch md (fst x'), snd x'). split; [left; reflexivity|].
      split; [cbn; rewrite L1; reflexivity|]. split; [exact L2|]. intros i Hi. apply L3, in_or_app. auto.
Qed.
End Hidden.

Lemma switches_loosen : forall r, switches (loosen r) = switches r.
Proof.
  induction r as
    [ | r l IHr IHl | c | | t | l IH | l IH | | | kd a b l IH | id l IH | id nm l IH | id | nm
    | neg l IH | neg l IH | l IH | c | c | a | md ]
    using re_ind2 with (Q := fun l => flat_map switches (map loosen l) = flat_map switches l);
    try reflexivity; try exact IH.
  - cbn [map flat_map]. rewrite IHr, IHl. reflexivity.
  - destruct kd; exact IH.
Qed.
