(** Completeness, priority and the greedy optimisation at the entry points, for patterns with mode
    switches anywhere. *)
From Coq Require Import List ZArith NArith Bool Lia Arith ZifyBool ZifyN ZifyNat.
From Verif Require Import Chars Syntax First View Eval Api Spec CharProofs EvalMono EvalInv EvalSem SpecProps
  EvalRefine SpecCut ApiProofs EvalTop OptProofs Checks EvalSound Match Mode ModeSem ModeSound ModeScope ModeCalls
  ModeEnum ModeRefine ModeCut ModeOpt Follow Loosen.
Import ListNotations.

(** Outcomes of [r] from [p] in order of preference. *)
Definition moutcomes (cut : bool) (s : list Z) (f : flags) (r : re) (p : nat) : list state :=
  map snd (menum s (names_of r) cut r (mode_of f, (p, []))).

Definition mfragment (f : flags) (r : re) : bool := mwf (modes_in f r) (names_of r) [] r && ids_distinct r.
(** What may come after the pattern: only the end of the subject for [match], anything otherwise. *)
Definition ends (tl : list atom) : ctx := match tl with AR (RAssert ASubjectEnd) :: _ => KIn true [] | _ => KAll end.
Definition mpriority_check (opt : bool) (f : flags) (r : re) (tl : list atom) : bool :=
  mfragment f r && acheck (modes_in f r) r (ends tl) && mow_check opt (modes_in f r) r tl.
(** Nothing is lost by possessive repetitions, atomic groups and lookaheads. *)
Definition commit_check (f : flags) (r : re) (tl : list atom) : bool :=
  hcheck (modes_in f r) r (ends tl) && acheck (modes_in f r) (loosen r) (ends tl) && lcheck (names_of r) (loosen r) [].
Definition mcomplete_check (opt : bool) (f : flags) (r : re) (tl : list atom) : bool :=
  mpriority_check opt f r tl && commit_check f r tl.

Lemma closed_switches : forall M r, (forall k m, In k (switches r) -> In m M -> In (switch k m) M) -> closed M r.
Proof.
  intros M. induction r as
    [ | r l IHr IHl | c | | t | l IH | l IH | | | kd a b l IH | id l IH | id nm l IH | id | nm
    | neg l IH | neg l IH | l IH | c | c | a | md ]
    using re_ind2 with (Q := fun l =>
      (forall k m, In k (flat_map switches l) -> In m M -> In (switch k m) M) -> closeds M l);
    try (intros; exact I); try exact IH.
  - intros H. split.
    + apply IHr. intros k m Hk. apply H. cbn [flat_map]. apply in_or_app. auto.
    + apply IHl. intros k m Hk. apply H. cbn [flat_map]. apply in_or_app. auto.
  - intros H m. apply H. left. reflexivity.
Qed.
Lemma closed_modes_in : forall f r, closed (modes_in f r) r.
Proof. intros f r. apply closed_switches. intros k m. apply modes_in_switch. Qed.

Lemma mwf_ids : forall M names r O, mwf M names O r = true -> ~ In 0 (map fst (find_captures r)).
Proof.
  intros M names.
  induction r as
    [ | r l IHr IHl | c | | t | l IH | l IH | | | kd a b l IH | id l IH | id nm l IH | id | nm
    | neg l IH | neg l IH | l IH | c | c | a | md ]
    using re_ind2 with (Q := fun l => forall O, forallb (mwf M names O) l = true ->
      ~ In 0 (map fst ((fix fc (l : list re) := match l with [] => [] | x :: xs => find_captures x ++ fc xs end) l)));
    try (intros O _ HF; exact HF); intros O H.
  - cbn [forallb] in H. apply andb_true_iff in H as [H1 H2]. rewrite map_app, in_app_iff. intros [|]; [eapply IHr|eapply IHl]; eauto.
  - apply (IH O). exact H.
  - cbn [mwf] in H. apply andb_true_iff in H as [_ H]. apply (IH O). exact H.
  - cbn [mwf] in H. apply andb_true_iff in H as [_ H]. apply (IH O). exact H.
  - cbn [mwf] in H. apply andb_true_iff in H as [H1 H]. apply andb_true_iff in H1 as [H1 _].
    apply not_in_spec in H1 as [H1 _]. cbn. intros [E|E]; [congruence|]. exact (IH _ H E).
  - cbn [mwf] in H. apply andb_true_iff in H as [H1 H]. apply andb_true_iff in H1 as [H1 _].
    apply not_in_spec in H1 as [H1 _]. cbn. intros [E|E]; [congruence|]. exact (IH _ H E).
  - cbn [mwf] in H. apply andb_true_iff in H as [_ H]. apply (IH O). exact H.
Qed.

(** Without the optimisation the side condition is void. *)
Lemma mow_noopt : forall s M G r tl, mow false s M G r tl.
Proof.
  intros s M G.
  apply (re_ind2 (fun r => forall tl, mow false s M G r tl)
    (fun l => (forall tl, oseq false s M G l tl) /\ ocyc false s M G l
              /\ forall tl, mow false s M G (RSelect l) tl));
    try (intros; exact I).
  - split; [|split]; intros; exact I.
  - intros r l Hr (H1 & H2 & H3). split; [|split].
    + intros tl. cbn [oseq]. destruct l; [apply Hr|]. split; [apply Hr | apply H1].
    + cbn [ocyc]. split; [apply Hr | assumption].
    + intros tl. rewrite ow_select. split; [apply Hr | apply H3].
  - intros l (_ & _ & H) tl. apply H.
  - intros l (H & _ & _) tl. apply H.
  - intros k a b l (H1 & H2 & H3) tl. rewrite ow_rep. split; [assumption|].
    intros _ H. discriminate.
  - intros i l (H1 & _ & _) tl. apply H1.
  - intros i nm l (H1 & _ & _) tl. apply H1.
  - intros n l (H1 & _ & _) tl. apply H1.
  - intros l (_ & H & _) tl. apply H.
Qed.

Lemma flat_map_end : forall l : list mstate, flat_map (fun y => [snd y]) l = map snd l.
Proof. induction l as [|x l IH]; [reflexivity|]. cbn [map flat_map app]. rewrite IH. reflexivity. Qed.
Lemma flat_map_whole : forall s names (l : list mstate),
  flat_map (fun y => flat_map (fun z : mstate => [snd z]) (menum s names true (RAssert ASubjectEnd) y)) l
  = filter (at_end_st s) (map snd l).
Proof.
  intros s names. induction l as [|x l IH]; [reflexivity|]. cbn [map filter flat_map]. rewrite IH.
  cbn [menum enum holds]. unfold at_end_st, at_end. destruct x as [m st]. cbn [fst snd].
  destruct (Nat.eqb (fst st) (length s)); reflexivity.
Qed.

Section Top.
Variable opt : bool.
Variable s : list Z.
Variable f : flags.
Variable r : re.
Hypothesis s_ok : forallb val_ok s = true.
Hypothesis r_ok : mfragment f r = true.
Notation M := (modes_in f r).
Notation G := (find_captures r).
Notation start p := (@pair modes state (mode_of f) (p, [])).

Lemma m_ids0 : ~ In 0 (map fst G).
Proof. apply andb_true_iff in r_ok as [F1 _]. eapply mwf_ids. exact F1. Qed.

Lemma m_attempt_first : forall n p tl, p <= length s -> mwfs M G KAcc [] tl [] -> mows opt s M G tl ->
  mow opt s M G r tl ->
  match eval opt n (arr_view s) (arr_view s) p f (fresh r) (AStart :: AR r :: tl) with
  | Ok c => exists st rest, mouts s G p (AR r :: tl) (start p) [] = st :: rest /\
      s_end (c0 c) = Some (fst st) /\ captures_are r c (snd st)
  | No => mouts s G p (AR r :: tl) (start p) [] = []
  | _ => True
  end.
Proof.
  intros n p tl Hp Hw Ho Hopt. pose proof m_ids0 as I0. apply andb_true_iff in r_ok as [F1 F2]. apply nodup_nat_spec in F2.
  destruct n as [|n]; [exact I|]. cbn [eval arr_view vconv]. fold (arr_view s).
  destruct (mrefine_all opt s M G s_ok F2 n) as (HE & _).
  pose proof (HE KAcc p p [] f (mode_of f) (set_start_mark p (fresh r)) (AR r :: tl) [] [] (fresh_sim s r p Hp)
    (conj F1 Hw) (conj Hopt Ho) (J_other KAcc p (f_block f) p _ ltac:(discriminate))
    eq_refl (modes_in_start f r)) as H.
  unfold good in H.
  destruct (eval opt n (arr_view s) (arr_view s) p f (set_start_mark p (fresh r)) (AR r :: tl)); auto.
  destruct H as (st & rest & H1 & H2 & H3). exists st, rest. split; [assumption|].
  split; [apply H3; discriminate|]. apply groups_captures; [assumption|]. apply groups_unmatch. exact (sim_groups s r _ _ H2).
Qed.

Lemma m_starts_first : forall n p, p <= length s -> mow opt s M G r tail_starts ->
  match attempt opt n s f r p with
  | Ok c => exists st rest, moutcomes true s f r p = st :: rest /\
      s_end (c0 c) = Some (fst st) /\ captures_are r c (snd st)
  | No => moutcomes true s f r p = []
  | _ => True
  end.
Proof.
  intros n p Hp Ho.
  pose proof (m_attempt_first n p tail_starts Hp (conj eq_refl eq_refl) I Ho) as H.
  replace (mouts s G p (AR r :: tail_starts) (start p) []) with (moutcomes true s f r p) in H; [exact H|].
  symmetry. exact (flat_map_end (menum s (name_number G) true r (start p))).
Qed.
Lemma m_match_first : forall n p, p <= length s -> mow opt s M G r tail_match ->
  match whole opt n s f r p with
  | Ok c => exists st rest, filter (at_end_st s) (moutcomes true s f r p) = st :: rest /\
      s_end (c0 c) = Some (fst st) /\ captures_are r c (snd st)
  | No => filter (at_end_st s) (moutcomes true s f r p) = []
  | _ => True
  end.
Proof.
  intros n p Hp Ho.
  pose proof (m_attempt_first n p tail_match Hp (conj eq_refl (conj eq_refl eq_refl)) (conj I I) Ho) as H.
  replace (mouts s G p (AR r :: tail_match) (start p) [])
    with (filter (at_end_st s) (moutcomes true s f r p)) in H; [exact H|].
  symmetry. exact (flat_map_whole s (name_number G) (menum s (name_number G) true r (start p))).
Qed.

(** * Priority *)
Lemma hd_filter : forall A (P : A -> bool) l, hd_error (filter P l) = find P l.
Proof. intros A P l. induction l as [|x l IH]; [reflexivity|]. cbn. destruct (P x); [reflexivity|exact IH]. Qed.

(** Committing to the first outcome of every iteration does not change the first outcome. *)
Lemma moutcomes_first : forall p, acheck M r (ends tail_starts) = true -> p <= length s ->
  hd_error (moutcomes true s f r p) = hd_error (moutcomes false s f r p).
Proof.
  intros p Ha Hp. unfold moutcomes. rewrite !hd_map, <- !find_true. f_equal.
  apply (follow_agrees s M (names_of r) s_ok r (closed_modes_in f r) KAll); [intros y _; reflexivity|exact Ha|].
  split; [apply modes_in_start|]. split; [exact Hp|constructor].
Qed.
Lemma moutcomes_whole : forall p, acheck M r (ends tail_match) = true -> p <= length s ->
  hd_error (filter (at_end_st s) (moutcomes true s f r p)) = hd_error (filter (at_end_st s) (moutcomes false s f r p)).
Proof.
  intros p Ha Hp. unfold moutcomes. rewrite !hd_filter, !find_map. f_equal.
  apply (follow_agrees s M (names_of r) s_ok r (closed_modes_in f r) (KIn true [])); [|exact Ha|].
  - intros y _ Hy. unfold fits. apply Nat.eqb_eq in Hy. rewrite Hy.
    rewrite (proj2 (nth_error_None s (length s)) (le_n _)). reflexivity.
  - split; [apply modes_in_start|]. split; [exact Hp|constructor].
Qed.
Lemma m_attempt_priority : forall n p, acheck M r (ends tail_starts) = true -> mow opt s M G r tail_starts -> p <= length s ->
  match attempt opt n s f r p with
  | Ok c => exists e lg rest, moutcomes false s f r p = (e, lg) :: rest /\
      s_end (c0 c) = Some e /\ captures_are r c lg
  | No => moutcomes false s f r p = []
  | _ => True
  end.
Proof.
  intros n p Ha Ho Hp. pose proof (m_starts_first n p Hp Ho) as H. pose proof (moutcomes_first p Ha Hp) as E.
  destruct (attempt opt n s f r p); auto.
  - destruct H as ([e lg] & rest & H1 & H2 & H3). rewrite H1 in E. destruct (moutcomes false s f r p) as [|x rest']; [discriminate|].
    injection E as <-. exists e, lg, rest'. auto.
  - rewrite H in E. destruct (moutcomes false s f r p); [reflexivity|discriminate].
Qed.
Lemma m_match_priority : forall n, acheck M r (ends tail_match) = true -> mow opt s M G r tail_match ->
  match whole opt n s f r 0 with
  | Ok c => exists lg rest, filter (at_end_st s) (moutcomes false s f r 0) = (length s, lg) :: rest /\
      captures_are r c lg
  | No => filter (at_end_st s) (moutcomes false s f r 0) = []
  | _ => True
  end.
Proof.
  intros n Ha Ho. pose proof (m_match_first n 0 ltac:(lia) Ho) as H. pose proof (moutcomes_whole 0 Ha ltac:(lia)) as E.
  destruct (whole opt n s f r 0); auto.
  - destruct H as ([e lg] & rest & H1 & H2 & H3).
    assert (He : at_end_st s (e, lg) = true).
    { assert (Hin : In (e, lg) (filter (at_end_st s) (moutcomes true s f r 0))) by (rewrite H1; left; reflexivity).
      apply filter_In in Hin. tauto. }
    apply Nat.eqb_eq in He. cbn in He. subst e. rewrite H1 in E.
    destruct (filter (at_end_st s) (moutcomes false s f r 0)) as [|x rest']; [discriminate|]. injection E as <-.
    exists lg, rest'. split; [reflexivity|assumption].
  - rewrite H in E. destruct (filter (at_end_st s) (moutcomes false s f r 0)); [reflexivity|discriminate].
Qed.

(** * Completeness *)
Lemma m_derives_outcome : plain_check r = true -> forall p e lg, p <= length s ->
  (In (e, lg) (moutcomes false s f r p) <-> mderives s f r p e lg).
Proof.
  intros r_plain p e lg Hp. unfold moutcomes, mderives. rewrite in_map_iff.
  assert (Hs : SpecProps.st_ok s (p, [])) by (split; [exact Hp|constructor]). split.
  - intros ([m st] & E & H). cbn [snd] in E. subst st. exists m. apply menum_msem; assumption.
  - intros (m & H). exists (m, (e, lg)). split; [reflexivity|]. apply menum_msem; assumption.
Qed.

(** The first outcome that fits is a derivation, and there is one if there is a derivation that fits. *)
Lemma commit_first : forall tl T p, acheck M r (ends tl) = true -> commit_check f r tl = true -> p <= length s ->
  compat s M (ends tl) T -> (forall y y', fst (snd y) = fst (snd y') -> T y = T y') ->
  match find T (menum s (names_of r) false r (start p)) with
  | Some y => msem s (names_of r) r (start p) y
  | None => forall y, msem s (names_of r) r (start p) y -> T y = false
  end.
Proof.
  intros tl T p Ha Hc Hp HT Hpos. unfold commit_check in Hc. apply andb_true_iff in Hc as [Hc H3].
  apply andb_true_iff in Hc as [H1 H2]. pose proof (closed_modes_in f r) as C.
  assert (Hs : SpecProps.st_ok s (p, [])) by (split; [exact Hp|constructor]).
  assert (V : valid s M (start p)) by (split; [apply modes_in_start|exact Hs]).
  rewrite <- (follow_agrees s M (names_of r) s_ok r C (ends tl) T HT Ha _ V).
  rewrite (hold_agrees s M (names_of r) s_ok r C (ends tl) T HT H1 _ V).
  rewrite (follow_agrees s M (names_of r) s_ok (loosen r) (closed_loosen _ _ C) (ends tl) T HT H2 _ V).
  destruct (seen_outcome s (names_of r) (loosen r) [] H3) as [L1 L2].
  destruct (find T (menum s (names_of r) false (loosen r) (start p))) as [y|] eqn:E.
  - apply loosen_msem. apply L1; [exact Hs|]. apply find_some in E. apply E.
  - intros y Hy. apply loosen_msem in Hy. destruct (L2 (start p) (start p) y Hs Hs (like_refl _ _) Hy) as (y' & Y1 & (_ & Y2 & _)).
    rewrite (Hpos y y' Y2). exact (find_none _ _ E y' Y1).
Qed.
Lemma m_starts_derives : forall p, acheck M r (ends tail_starts) = true -> commit_check f r tail_starts = true -> p <= length s ->
  match moutcomes false s f r p with
  | [] => forall e lg, ~ mderives s f r p e lg
  | (e, lg) :: _ => mderives s f r p e lg
  end.
Proof.
  intros p Ha Hc Hp. pose proof (commit_first tail_starts (fun _ => true) p Ha Hc Hp ltac:(intros y _; reflexivity) ltac:(reflexivity)) as H.
  rewrite find_true in H. change (moutcomes false s f r p) with (map snd (menum s (names_of r) false r (start p))).
  destruct (menum s (names_of r) false r (start p)) as [|[m [e lg]] rest]; cbn [map hd_error snd] in *.
  - intros e lg (m & Hd). specialize (H _ Hd). discriminate.
  - exists m. exact H.
Qed.
Lemma m_match_derives : forall p, acheck M r (ends tail_match) = true -> commit_check f r tail_match = true -> p <= length s ->
  filter (at_end_st s) (moutcomes false s f r p) = [] -> forall lg, ~ mderives s f r p (length s) lg.
Proof.
  intros p Ha Hc Hp E lg (m & Hd).
  pose proof (commit_first tail_match (fun y => at_end_st s (snd y)) p Ha Hc Hp) as H.
  assert (F : find (fun y : mstate => at_end_st s (snd y)) (menum s (names_of r) false r (start p)) = None).
  { pose proof (hd_filter _ (at_end_st s) (map snd (menum s (names_of r) false r (start p)))) as X.
    change (moutcomes false s f r p) with (map snd (menum s (names_of r) false r (start p))) in E.
    rewrite E, find_map in X.
    change (None = option_map snd (find (fun y : mstate => at_end_st s (snd y)) (menum s (names_of r) false r (start p)))) in X.
    destruct (find _ (menum s (names_of r) false r (start p))); [discriminate|reflexivity]. }
  rewrite F in H.
  assert (K : compat s M (ends tail_match) (fun y => at_end_st s (snd y))).
  { intros y _ Hy. unfold fits. apply Nat.eqb_eq in Hy. rewrite Hy.
    rewrite (proj2 (nth_error_None s (length s)) (le_n _)). reflexivity. }
  specialize (H K). cbn in H.
  assert (X : at_end_st s (length s, lg) = false).
  { apply (H ltac:(intros [? ?] [? ?] Hq; unfold at_end_st in *; cbn [snd fst] in *; rewrite Hq; reflexivity) (m, (length s, lg)) Hd). }
  unfold at_end_st in X. cbn [fst] in X. unfold at_end in X. rewrite Nat.eqb_refl in X. discriminate.
Qed.

Lemma m_match_complete : forall n c lg, acheck M r (ends tail_match) = true -> commit_check f r tail_match = true -> mow opt s M G r tail_match ->
  ctre_match opt n s f r = Ok c -> mderives s f r 0 (length s) lg -> matched c = true.
Proof.
  intros n c lg Hc Hm Ho H Hd. pose proof (m_match_priority n Hc Ho) as P. unfold ctre_match, exec_match in H.
  unfold whole in P. apply returned_cases in H as [H|[H ->]].
  - apply (proj1 (ok_matched n)) in H. assumption.
  - rewrite H in P. exfalso. exact (m_match_derives 0 Hc Hm (Nat.le_0_l _) P lg Hd).
Qed.
Lemma m_starts_complete : forall n c e lg, acheck M r (ends tail_starts) = true -> commit_check f r tail_starts = true -> mow opt s M G r tail_starts ->
  ctre_starts_with opt n s f r = Ok c -> mderives s f r 0 e lg -> matched c = true.
Proof.
  intros n c e lg Hc Hm Ho H Hd. pose proof (m_attempt_priority n 0 Hc Ho ltac:(lia)) as P.
  unfold ctre_starts_with, exec_starts_with in H.
  unfold attempt in P. apply returned_cases in H as [H|[H ->]].
  - apply (proj1 (ok_matched n)) in H. assumption.
  - rewrite H in P. exfalso. pose proof (m_starts_derives 0 Hc Hm (Nat.le_0_l _)) as D. rewrite P in D. exact (D e lg Hd).
Qed.
Lemma m_search_complete : forall n c p e lg, well_numbered r -> acheck M r (ends tail_starts) = true -> commit_check f r tail_starts = true -> mow opt s M G r tail_starts ->
  starts_with_anchor f r = false ->
  ctre_search opt n s f r = Ok c -> p <= length s -> mderives s f r p e lg ->
  matched c = true /\ exists b e' lg', group c 0 = Some (b, e') /\ b <= p /\ mderives s f r b e' lg' /\
    forall p' e2 lg2, p' < b -> ~ mderives s f r p' e2 lg2.
Proof.
  intros n c p e lg Hw Hc Hm Ho Ha H Hp Hd. apply search_cases in H; auto with arith. rewrite Ha in H.
  assert (Fail : forall q, q <= length s -> attempt opt n s f r q = No -> forall e lg, ~ mderives s f r q e lg).
  { intros q Hq E e1 lg1 Hd1. pose proof (m_attempt_priority n q Hc Ho Hq) as P.
    rewrite E in P. pose proof (m_starts_derives q Hc Hm Hq) as D. rewrite P in D. exact (D e1 lg1 Hd1). }
  destruct H as [(q & H1 & H2 & _ & H3) | (q & -> & -> & H1)].
  - split; [eapply attempt_matched; exact H2|].
    pose proof (m_attempt_priority n q Hc Ho (proj2 H1)) as P. rewrite H2 in P.
    destruct P as (e' & lg' & rest & P1 & P2 & P3).
    pose proof (attempt_ok _ _ _ _ _ _ _ Hw (proj2 H1) H2) as (E1 & E2 & _).
    exists q, e', lg'. split; [apply c0_group; assumption|]. split.
    { destruct (Nat.le_gt_cases q p); [assumption|]. exfalso.
      exact (Fail p Hp (H3 p ltac:(lia)) e lg Hd). }
    split.
    + pose proof (m_starts_derives q Hc Hm (proj2 H1)) as D. rewrite P1 in D. exact D.
    + intros p' e2 lg2 Hlt. apply Fail; [lia|]. apply H3. lia.
  - exfalso. exact (Fail p Hp (H1 p ltac:(lia)) e lg Hd).
Qed.
End Top.

(** * The greedy optimisation *)
Section MOpt.
Variable s : list Z.
Variable f : flags.
Variable r : re.
Hypothesis s_ok : forallb val_ok s = true.
Hypothesis Hw : well_numbered r.
Hypothesis Hf : mfragment f r = true.
Notation M := (modes_in f r).
Notation G := (find_captures r).

Lemma m_attempt_opt : forall n n' p, mow true s M G r tail_starts -> p <= length s ->
  match attempt true n s f r p, attempt false n' s f r p with
  | Ok c, Ok c' => same_result c c'
  | Ok _, No | No, Ok _ => False
  | _, _ => True
  end.
Proof.
  intros n n' p Ho Hp.
  pose proof (m_starts_first true s f r s_ok Hf n p Hp Ho) as H.
  pose proof (m_starts_first false s f r s_ok Hf n' p Hp (mow_noopt _ _ _ _ _)) as H'.
  pose proof (attempt_ok true n s f r p _ Hw Hp eq_refl) as A.
  pose proof (attempt_ok false n' s f r p _ Hw Hp eq_refl) as A'.
  pose proof (m_ids0 f r Hf) as H0.
  destruct (attempt true n s f r p) as [c| | | |], (attempt false n' s f r p) as [c'| | | |]; auto.
  - destruct H as (st & rest & H1 & H2 & H3), H' as (st' & rest' & H1' & H2' & H3').
    rewrite H1 in H1'. injection H1' as <- <-. destruct A as (A1 & A2 & _ & _ & A3), A' as (A1' & A2' & _ & _ & A3').
    apply (same_of r c c' p (snd st) (fst st)); auto.
  - destruct H as (st & rest & H1 & _). congruence.
  - destruct H' as (st & rest & H1 & _). congruence.
Qed.
Lemma m_whole_opt : forall n n' p, mow true s M G r tail_match -> p <= length s ->
  match whole true n s f r p, whole false n' s f r p with
  | Ok c, Ok c' => same_result c c'
  | Ok _, No | No, Ok _ => False
  | _, _ => True
  end.
Proof.
  intros n n' p Ho Hp.
  pose proof (m_match_first true s f r s_ok Hf n p Hp Ho) as H.
  pose proof (m_match_first false s f r s_ok Hf n' p Hp (mow_noopt _ _ _ _ _)) as H'.
  pose proof (whole_ok true n s f r p _ Hw Hp eq_refl) as A.
  pose proof (whole_ok false n' s f r p _ Hw Hp eq_refl) as A'.
  pose proof (m_ids0 f r Hf) as H0.
  destruct (whole true n s f r p) as [c| | | |], (whole false n' s f r p) as [c'| | | |]; auto.
  - destruct H as (st & rest & H1 & H2 & H3), H' as (st' & rest' & H1' & H2' & H3').
    rewrite H1 in H1'. injection H1' as <- <-. destruct A as (A1 & A2 & _ & _ & A3), A' as (A1' & A2' & _ & _ & A3').
    apply (same_of r c c' p (snd st) (fst st)); auto.
  - destruct H as (st & rest & H1 & _). congruence.
  - destruct H' as (st & rest & H1 & _). congruence.
Qed.

Lemma m_match_opt : forall n n' c c', mow true s M G r tail_match ->
  ctre_match true n s f r = Ok c -> ctre_match false n' s f r = Ok c' -> same_result c c'.
Proof.
  intros n n' c c' Ho H H'. pose proof (m_whole_opt n n' 0 Ho ltac:(lia)) as W.
  apply returned_cases in H as [H|[H ->]], H' as [H'|[H' ->]]; unfold whole in W; rewrite H, H' in W;
    try assumption; try contradiction. apply same_refl.
Qed.
Lemma m_starts_opt : forall n n' c c', mow true s M G r tail_starts ->
  ctre_starts_with true n s f r = Ok c -> ctre_starts_with false n' s f r = Ok c' -> same_result c c'.
Proof.
  intros n n' c c' Ho H H'. pose proof (m_attempt_opt n n' 0 Ho ltac:(lia)) as W.
  apply returned_cases in H as [H|[H ->]], H' as [H'|[H' ->]]; unfold attempt in W; rewrite H, H' in W;
    try assumption; try contradiction. apply same_refl.
Qed.
Lemma m_search_opt : forall n n' c c', mow true s M G r tail_starts ->
  ctre_search true n s f r = Ok c -> ctre_search false n' s f r = Ok c' -> same_result c c'.
Proof.
  intros n n' c c' Ho H H'.
  pose proof (fun p Hp => m_attempt_opt n n' p Ho Hp) as W.
  apply search_cases in H; auto with arith. apply search_cases in H'; auto with arith.
  assert (F : forall q q', same_result (set_end_mark q (fresh r)) (set_end_mark q' (fresh r))).
  { intros q q'. split; [reflexivity|]. intros id. unfold group, get_id. destruct (Nat.eqb id 0); reflexivity. }
  destruct H as [(q & H1 & H2 & H3 & H4) | (q & -> & H1)],
           H' as [(q' & H1' & H2' & H3' & H4') | (q' & -> & H1')].
  - destruct (Nat.lt_trichotomy q q') as [Hlt|[<-|Hlt]].
    + specialize (W q (proj2 H1)). rewrite H2, (H4' q) in W by lia. contradiction.
    + specialize (W q (proj2 H1)). rewrite H2, H2' in W. assumption.
    + specialize (W q' (proj2 H1')). rewrite H2', (H4 q') in W by lia. contradiction.
  - exfalso. specialize (W q (proj2 H1)). rewrite H2 in W. destruct (starts_with_anchor f r).
    + rewrite (H3 eq_refl) in W. rewrite (proj2 H1') in W. assumption.
    + rewrite (proj2 H1' q ltac:(lia)) in W. assumption.
  - exfalso. specialize (W q' (proj2 H1')). rewrite H2' in W. destruct (starts_with_anchor f r).
    + rewrite (H3' eq_refl) in W. rewrite (proj2 H1) in W. assumption.
    + rewrite (proj2 H1 q' ltac:(lia)) in W. assumption.
  - apply F.
Qed.
End MOpt.

(** * The pattern without its commitments *)
Lemma ids_loosen : forall r O, ids_ok O (loosen r) = ids_ok O r.
Proof.
  induction r as
    [ | r l IHr IHl | c | | t | l IH | l IH | | | kd a b l IH | id l IH | id nm l IH | id | nm
    | neg l IH | neg l IH | l IH | c | c | a | md ]
    using re_ind2 with (Q := fun l => forall O, forallb (ids_ok O) (map loosen l) = forallb (ids_ok O) l);
    try reflexivity; try exact IH.
  - intros O. cbn [map forallb]. rewrite IHr, IHl. reflexivity.
  - destruct kd; exact IH.
  - intros O. cbn [loosen ids_ok]. rewrite IH. reflexivity.
  - intros O. cbn [loosen ids_ok]. rewrite IH. reflexivity.
Qed.
Section Hold.
Variable opt : bool.
Variable s : list Z.
Variable f : flags.
Variable r : re.
Hypothesis s_ok : forallb val_ok s = true.
Hypothesis Hw : well_numbered r.
Hypothesis Hf : mfragment f r = true.
Hypothesis Hf' : mfragment f (loosen r) = true.
Hypothesis Hg : find_captures (loosen r) = find_captures r.
Notation M := (modes_in f r).
Notation G := (find_captures r).
Notation start p := (@pair modes state (mode_of f) (p, [])).

Lemma loosen_numbered : well_numbered (loosen r).
Proof. destruct Hw as [H1 H2]. split; [rewrite ids_loosen; exact H1|rewrite Hg; exact H2]. Qed.
Lemma fresh_loosen : fresh (loosen r) = fresh r.
Proof. unfold fresh. rewrite Hg. reflexivity. Qed.
Lemma captures_loosen : forall c lg, captures_are (loosen r) c lg -> captures_are r c lg.
Proof. intros c lg. unfold captures_are. rewrite Hg. auto. Qed.
Lemma modes_loosen : modes_in f (loosen r) = M.
Proof. unfold modes_in. rewrite switches_loosen. reflexivity. Qed.

Lemma hold_first : forall tl T p, hcheck M r (ends tl) = true -> p <= length s -> compat s M (ends tl) T ->
  find T (menum s (names_of r) true r (start p)) = find T (menum s (names_of r) true (loosen r) (start p)).
Proof.
  intros tl T p H Hp HT. apply (hold_agrees s M (names_of r) s_ok r (closed_modes_in f r) (ends tl) T HT H).
  split; [apply modes_in_start|]. split; [exact Hp|constructor].
Qed.
Lemma hold_starts_list : forall p, hcheck M r (ends tail_starts) = true -> p <= length s ->
  hd_error (moutcomes true s f r p) = hd_error (moutcomes true s f (loosen r) p).
Proof.
  intros p H Hp. unfold moutcomes. unfold names_of at 2. rewrite Hg. fold (names_of r). rewrite !hd_map. f_equal.
  rewrite <- !find_true. apply (hold_first tail_starts); [exact H|exact Hp|]. intros y _. reflexivity.
Qed.
Lemma hold_match_list : forall p, hcheck M r (ends tail_match) = true -> p <= length s ->
  hd_error (filter (at_end_st s) (moutcomes true s f r p)) = hd_error (filter (at_end_st s) (moutcomes true s f (loosen r) p)).
Proof.
  intros p H Hp. unfold moutcomes. unfold names_of at 2. rewrite Hg. fold (names_of r). rewrite !hd_filter, !find_map. f_equal.
  apply (hold_first tail_match); [exact H|exact Hp|]. intros y _ Hy. unfold fits. apply Nat.eqb_eq in Hy. rewrite Hy.
  rewrite (proj2 (nth_error_None s (length s)) (le_n _)). reflexivity.
Qed.

Lemma hold_attempt : forall n n' p, hcheck M r (ends tail_starts) = true -> mow opt s M G r tail_starts ->
  mow opt s M G (loosen r) tail_starts -> p <= length s ->
  match attempt opt n s f r p, attempt opt n' s f (loosen r) p with
  | Ok c, Ok c' => same_result c c'
  | Ok _, No | No, Ok _ => False
  | _, _ => True
  end.
Proof.
  intros n n' p Hh Ho Ho' Hp. rewrite <- modes_loosen, <- Hg in Ho'.
  pose proof (m_starts_first opt s f r s_ok Hf n p Hp Ho) as H.
  pose proof (m_starts_first opt s f (loosen r) s_ok Hf' n' p Hp Ho') as H'.
  pose proof (attempt_ok opt n s f r p _ Hw Hp eq_refl) as A.
  pose proof (attempt_ok opt n' s f (loosen r) p _ loosen_numbered Hp eq_refl) as A'.
  pose proof (m_ids0 f r Hf) as H0. pose proof (hold_starts_list p Hh Hp) as E.
  destruct (attempt opt n s f r p) as [c| | | |], (attempt opt n' s f (loosen r) p) as [c'| | | |]; auto.
  - destruct H as (st & rest & H1 & H2 & H3), H' as (st' & rest' & H1' & H2' & H3').
    rewrite H1, H1' in E. injection E as <-. apply captures_loosen in H3'.
    rewrite Hg in A'.
    destruct A as (A1 & A2 & _ & _ & A3), A' as (A1' & A2' & _ & _ & A3').
    apply (same_of r c c' p (snd st) (fst st)); auto.
  - destruct H as (st & rest & H1 & _). rewrite H1, H' in E. discriminate.
  - destruct H' as (st & rest & H1 & _). rewrite H1, H in E. discriminate.
Qed.
Lemma hold_whole : forall n n' p, hcheck M r (ends tail_match) = true -> mow opt s M G r tail_match ->
  mow opt s M G (loosen r) tail_match -> p <= length s ->
  match whole opt n s f r p, whole opt n' s f (loosen r) p with
  | Ok c, Ok c' => same_result c c'
  | Ok _, No | No, Ok _ => False
  | _, _ => True
  end.
Proof.
  intros n n' p Hh Ho Ho' Hp. rewrite <- modes_loosen, <- Hg in Ho'.
  pose proof (m_match_first opt s f r s_ok Hf n p Hp Ho) as H.
  pose proof (m_match_first opt s f (loosen r) s_ok Hf' n' p Hp Ho') as H'.
  pose proof (whole_ok opt n s f r p _ Hw Hp eq_refl) as A.
  pose proof (whole_ok opt n' s f (loosen r) p _ loosen_numbered Hp eq_refl) as A'.
  pose proof (m_ids0 f r Hf) as H0. pose proof (hold_match_list p Hh Hp) as E.
  destruct (whole opt n s f r p) as [c| | | |], (whole opt n' s f (loosen r) p) as [c'| | | |]; auto.
  - destruct H as (st & rest & H1 & H2 & H3), H' as (st' & rest' & H1' & H2' & H3').
    rewrite H1, H1' in E. injection E as <-. apply captures_loosen in H3'.
    rewrite Hg in A'.
    destruct A as (A1 & A2 & _ & _ & A3), A' as (A1' & A2' & _ & _ & A3').
    apply (same_of r c c' p (snd st) (fst st)); auto.
  - destruct H as (st & rest & H1 & _). rewrite H1, H' in E. discriminate.
  - destruct H' as (st & rest & H1 & _). rewrite H1, H in E. discriminate.
Qed.

Lemma hold_match : forall n n' c c', hcheck M r (ends tail_match) = true -> mow opt s M G r tail_match ->
  mow opt s M G (loosen r) tail_match ->
  ctre_match opt n s f r = Ok c -> ctre_match opt n' s f (loosen r) = Ok c' -> same_result c c'.
Proof.
  intros n n' c c' Hh Ho Ho' H H'. pose proof (hold_whole n n' 0 Hh Ho Ho' ltac:(lia)) as W.
  apply returned_cases in H as [H|[H ->]], H' as [H'|[H' ->]]; unfold whole in W; rewrite H, H' in W;
    try assumption; try contradiction. rewrite fresh_loosen. apply same_refl.
Qed.
Lemma hold_starts : forall n n' c c', hcheck M r (ends tail_starts) = true -> mow opt s M G r tail_starts ->
  mow opt s M G (loosen r) tail_starts ->
  ctre_starts_with opt n s f r = Ok c -> ctre_starts_with opt n' s f (loosen r) = Ok c' -> same_result c c'.
Proof.
  intros n n' c c' Hh Ho Ho' H H'. pose proof (hold_attempt n n' 0 Hh Ho Ho' ltac:(lia)) as W.
  apply returned_cases in H as [H|[H ->]], H' as [H'|[H' ->]]; unfold attempt in W; rewrite H, H' in W;
    try assumption; try contradiction. rewrite fresh_loosen. apply same_refl.
Qed.
Lemma hold_search : forall n n' c c', hcheck M r (ends tail_starts) = true -> mow opt s M G r tail_starts ->
  mow opt s M G (loosen r) tail_starts -> starts_with_anchor f r = starts_with_anchor f (loosen r) ->
  ctre_search opt n s f r = Ok c -> ctre_search opt n' s f (loosen r) = Ok c' -> same_result c c'.
Proof.
  intros n n' c c' Hh Ho Ho' Ea H H'.
  pose proof (fun p Hp => hold_attempt n n' p Hh Ho Ho' Hp) as W. pose proof loosen_numbered as Hw'.
  apply search_cases in H; auto with arith. apply search_cases in H'; auto with arith. rewrite <- Ea in H'.
  assert (F : forall q q', same_result (set_end_mark q (fresh r)) (set_end_mark q' (fresh (loosen r)))).
  { intros q q'. rewrite fresh_loosen. split; [reflexivity|]. intros id. unfold group, get_id. destruct (Nat.eqb id 0); reflexivity. }
  destruct H as [(q & H1 & H2 & H3 & H4) | (q & -> & H1)],
           H' as [(q' & H1' & H2' & H3' & H4') | (q' & -> & H1')].
  - destruct (Nat.lt_trichotomy q q') as [Hlt|[<-|Hlt]].
    + specialize (W q (proj2 H1)). rewrite H2, (H4' q) in W by lia. contradiction.
    + specialize (W q (proj2 H1)). rewrite H2, H2' in W. assumption.
    + specialize (W q' (proj2 H1')). rewrite H2', (H4 q') in W by lia. contradiction.
  - exfalso. specialize (W q (proj2 H1)). rewrite H2 in W. destruct (starts_with_anchor f r).
    + rewrite (H3 eq_refl) in W. rewrite (proj2 H1') in W. assumption.
    + rewrite (proj2 H1' q ltac:(lia)) in W. assumption.
  - exfalso. specialize (W q' (proj2 H1')). rewrite H2' in W. destruct (starts_with_anchor f r).
    + rewrite (H3' eq_refl) in W. rewrite (proj2 H1) in W. assumption.
    + rewrite (proj2 H1 q' ltac:(lia)) in W. assumption.
  - apply F.
Qed.
End Hold.
