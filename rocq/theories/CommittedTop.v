(** The exact meaning of the calls on a contiguous subject: Possess.v and CommittedRefine.v put together. *)
From Coq Require Import List ZArith NArith Bool Lia Arith ZifyBool ZifyN ZifyNat.
From Verif Require Import Chars Syntax First View Eval Api Spec CharProofs EvalMono EvalInv EvalSem SpecProps
  EvalRefine ApiProofs EvalTop Match Mode ModeSem ModeSound ModeCalls ModeEnum Views Term Compiles Anchor Total
  Possess Committed CommittedRefine.
Import ListNotations.

(** * What the rewriting keeps *)
Section Keeps.
Variable opt : bool.
Notation pf := (possessify opt).
Notation pseq := (pseq opt).
Notation pcyc := (pcyc opt).

(** A body that consumes still does. *)
Lemma possessify_eats : forall r tl, (nullfree r = true -> nullfree (pf r tl) = true) /\ (exact_flag r = true -> exact_flag (pf r tl) = true).
Proof.
  pose (Q := fun l l' => (forallb nullfree l = true -> forallb nullfree l' = true) /\ (existsb nullfree l = true -> existsb nullfree l' = true)
               /\ (forallb exact_flag l = true -> forallb exact_flag l' = true)).
  assert (Qc : forall x x' l l', (nullfree x = true -> nullfree x' = true) -> (exact_flag x = true -> exact_flag x' = true) ->
                 Q l l' -> Q (x :: l) (x' :: l')).
  { intros x x' l l' H1 H2 (Q1 & Q2 & Q3). unfold Q. cbn [forallb existsb]. rewrite !andb_true_iff, !orb_true_iff. tauto. }
  assert (Qb : forall l l', Q l l' -> body_eats l = true -> body_eats l' = true).
  { intros l l' (Q1 & Q2 & Q3) H. apply orb_true_iff in H. apply orb_true_iff. tauto. }
  induction r as
    [ | r l IHr IHl | c | | t | l IH | l IH | | | kd a b l IH | id l IH | id nm l IH | id | nm
    | neg l IH | neg l IH | l IH | c | c | a | md ]
    using re_ind2 with (Q := fun l => (forall tl, Q l (pseq l tl)) /\ Q l (pcyc l)
       /\ forall tl, exists l', pf (RSelect l) tl = RSelect l' /\ Q l l'); try (intros tl; split; exact (fun H => H)).
  - split; [|split].
    + intros tl. repeat split; auto.
    + repeat split; auto.
    + intros tl. exists []. repeat split; auto.
  - destruct IHl as (I1 & I2 & I3). split; [|split].
    + intros tl. specialize (I1 tl). cbn [Possess.pseq]. destruct l as [|y ys].
      * apply Qc; [apply IHr|apply IHr|repeat split; auto].
      * apply Qc; [apply IHr|apply IHr|exact I1].
    + cbn [Possess.pcyc]. apply Qc; [apply IHr|apply IHr|exact I2].
    + intros tl. destruct (I3 tl) as (l' & E & H). exists (pf r tl :: l'). split.
      * cbn [possessify] in E |- *. injection E as E. rewrite E. reflexivity.
      * apply Qc; [apply IHr|apply IHr|exact H].
  - intros tl. destruct IH as (_ & _ & IH). destruct (IH tl) as (l' & -> & Q1 & Q2 & Q3). split; assumption.
  - intros tl. destruct IH as (IH & _ & _). destruct (IH tl) as (Q1 & Q2 & Q3). split; assumption.
  - intros tl. destruct IH as (_ & IH & _). pose proof (Qb _ _ IH) as IHb. change (pf (RRep kd a b l) tl) with (RRep (kind_before opt kd l tl) a b (pcyc l)).
    assert (Hn : nullfree (RRep kd a b l) = true -> negb (N.eqb a 0) && body_eats (pcyc l) = true).
    { intros H. apply andb_true_iff in H as [H1 H2]. rewrite H1. exact (IHb H2). }
    split; [exact Hn|].
    destruct kd; cbn [kind_before]; [destruct (becomes_possessive opt l tl) as [[]|]| |]; try reflexivity; try exact Hn; exact IHb.
  - intros tl. destruct IH as (IH & _ & _). destruct (IH (ANum id :: tl)) as (Q1 & Q2 & Q3). split; assumption.
  - intros tl. destruct IH as (IH & _ & _). destruct (IH (ANum id :: tl)) as (Q1 & Q2 & Q3). split; assumption.
  - intros tl. destruct IH as (_ & IH & _). split; [exact (Qb _ _ IH)|reflexivity].
Qed.
Lemma pcyc_eats : forall l, body_eats l = true -> body_eats (pcyc l) = true.
Proof.
  intros l H. apply (proj1 (possessify_eats (RAtomic l) [])) in H. exact H.
Qed.
Lemma pseq_nonempty : forall l tl, nonempty (pseq l tl) = nonempty l.
Proof. intros [|x [|y l]] tl; reflexivity. Qed.
Lemma possessify_bwf : forall ci r tl, bwf ci r = true -> bwf ci (pf r tl) = true.
Proof.
  intros ci. induction r as
    [ | r l IHr IHl | c | | t | l IH | l IH | | | kd a b l IH | id l IH | id nm l IH | id | nm
    | neg l IH | neg l IH | l IH | c | c | a | md ]
    using re_ind2 with (Q := fun l => forallb (bwf ci) l = true ->
      (forall tl, forallb (bwf ci) (pseq l tl) = true) /\ forall tl, bwf ci (pf (RSelect l) tl) = true); try (intros tl H; exact H); try discriminate.
  - intros _. split; reflexivity.
  - cbn [forallb]. intros H. apply andb_true_iff in H as [H1 H2]. destruct (IHl H2) as [I1 I2]. split.
    + intros tl. specialize (I1 tl). cbn [Possess.pseq]. destruct l as [|y ys]; cbn [forallb]; rewrite IHr by assumption; [reflexivity|exact I1].
    + intros tl. change (bwf ci (pf r tl) && bwf ci (pf (RSelect l) tl) = true). rewrite IHr, I2 by assumption. reflexivity.
  - intros tl H. apply (IH H).
  - intros tl H. cbn [bwf] in H. apply andb_true_iff in H as [H1 H2].
    change (nonempty (pseq l tl) && forallb (bwf ci) (pseq l tl) = true). rewrite pseq_nonempty, H1. apply (IH H2).
Qed.

Lemma possessify_xwf : forall M names r O tl, xwf M names O r = true -> xwf M names O (pf r tl) = true.
Proof.
  intros M names. induction r as
    [ | r l IHr IHl | c | | t | l IH | l IH | | | kd a b l IH | id l IH | id nm l IH | id | nm
    | neg l IH | neg l IH | l IH | c | c | a | md ]
    using re_ind2 with (Q := fun l => forall O, forallb (xwf M names O) l = true ->
      (forall tl, forallb (xwf M names O) (pseq l tl) = true) /\ forallb (xwf M names O) (pcyc l) = true
      /\ forall tl, xwf M names O (pf (RSelect l) tl) = true); try (intros O tl H; exact H).
  - intros O _. repeat split; reflexivity.
  - intros O. cbn [forallb]. intros H. apply andb_true_iff in H as [H1 H2]. destruct (IHl O H2) as (I1 & I2 & I3). split; [|split].
    + intros tl. specialize (I1 tl). cbn [Possess.pseq]. destruct l as [|y ys]; cbn [forallb]; rewrite IHr by assumption; [reflexivity|exact I1].
    + cbn [Possess.pcyc forallb]. rewrite IHr, I2 by assumption. reflexivity.
    + intros tl. change (xwf M names O (pf r tl) && xwf M names O (pf (RSelect l) tl) = true). rewrite IHr, I3 by assumption. reflexivity.
  - intros O tl H. apply (IH O H).
  - intros O tl H. cbn [xwf] in H. apply andb_true_iff in H as [H1 H2].
    change (nonempty (pseq l tl) && forallb (xwf M names O) (pseq l tl) = true). rewrite pseq_nonempty, H1. apply (IH O H2).
  - intros O tl H. cbn [xwf] in H. apply andb_true_iff in H as [H1 H2].
    change ((negb (N.eqb b 0) || body_eats (pcyc l)) && forallb (xwf M names O) (pcyc l) = true).
    rewrite (proj1 (proj2 (IH O H2))), andb_true_r. apply orb_true_iff in H1 as [H1|H1]; [rewrite H1; reflexivity|].
    rewrite (pcyc_eats l H1). apply orb_true_r.
  - intros O tl H. cbn [xwf] in H. apply andb_true_iff in H as [H1 H2]. apply andb_true_iff in H1 as [H0 H1].
    change (not_in id O && nonempty (pseq l (ANum id :: tl)) && forallb (xwf M names (id :: O)) (pseq l (ANum id :: tl)) = true).
    rewrite pseq_nonempty, H0, H1. apply (IH _ H2).
  - intros O tl H. cbn [xwf] in H. apply andb_true_iff in H as [H1 H2]. apply andb_true_iff in H1 as [H0 H1].
    change (not_in id O && nonempty (pseq l (ANum id :: tl)) && forallb (xwf M names (id :: O)) (pseq l (ANum id :: tl)) = true).
    rewrite pseq_nonempty, H0, H1. apply (IH _ H2).
  - intros O tl H. cbn [xwf] in H. apply andb_true_iff in H as [H1 H2].
    change (nonempty (pseq l [AEndAhead]) && forallb (xwf M names O) (pseq l [AEndAhead]) = true). rewrite pseq_nonempty, H1. apply (IH O H2).
  - intros O tl H. cbn [xwf] in H. apply andb_true_iff in H as [H1 H2].
    change (nonempty (pseq l [AEndBehind]) && forallb (fun m => forallb (bwf (snd m)) (pseq l [AEndBehind])) M = true).
    rewrite pseq_nonempty, H1. cbn [andb]. rewrite forallb_forall in *. intros m Hm. specialize (H2 m Hm).
    assert (X : bwf (snd m) (pf (RSeq l) [AEndBehind]) = true).
    { apply possessify_bwf. cbn [bwf]. rewrite H1. exact H2. }
    change (nonempty (pseq l [AEndBehind]) && forallb (bwf (snd m)) (pseq l [AEndBehind]) = true) in X.
    apply andb_true_iff in X. apply X.
  - intros O tl H. apply (IH O H).
Qed.
End Keeps.

Lemma xwf_ids : forall M names r O, xwf M names O r = true -> ~ In 0 (map fst (find_captures r)).
Proof.
  intros M names.
  induction r as
    [ | r l IHr IHl | c | | t | l IH | l IH | | | kd a b l IH | id l IH | id nm l IH | id | nm
    | neg l IH | neg l IH | l IH | c | c | a | md ]
    using re_ind2 with (Q := fun l => forall O, forallb (xwf M names O) l = true ->
      ~ In 0 (map fst ((fix fc (l : list re) := match l with [] => [] | x :: xs => find_captures x ++ fc xs end) l)));
    try (intros O _ HF; exact HF); intros O H.
  - cbn [forallb] in H. apply andb_true_iff in H as [H1 H2]. rewrite map_app, in_app_iff. intros [|]; [eapply IHr|eapply IHl]; eauto.
  - apply (IH O). exact H.
  - cbn [xwf] in H. apply andb_true_iff in H as [_ H]. apply (IH O). exact H.
  - cbn [xwf] in H. apply andb_true_iff in H as [_ H]. apply (IH O). exact H.
  - cbn [xwf] in H. apply andb_true_iff in H as [H1 H]. apply andb_true_iff in H1 as [H1 _].
    apply not_in_spec in H1 as [H1 _]. cbn. intros [E|E]; [congruence|]. exact (IH _ H E).
  - cbn [xwf] in H. apply andb_true_iff in H as [H1 H]. apply andb_true_iff in H1 as [H1 _].
    apply not_in_spec in H1 as [H1 _]. cbn. intros [E|E]; [congruence|]. exact (IH _ H E).
  - cbn [xwf] in H. apply andb_true_iff in H as [_ H]. apply (IH O). exact H.
Qed.

(** * The meaning of a call *)
(** The outcomes of [r] from [p], evaluated before [tl], in order of preference. *)
Definition committed (opt : bool) (tl : list atom) (s : list Z) (f : flags) (r : re) (p : nat) : list state :=
  map (fun y : xstate => snd (snd y)) (xenum s (names_of r) (possessify opt r tl) (mode_of f, (f_block f, (p, [])))).
(** ... of a call: where the match starts, where it ends and the log, best first. *)
Definition means (a : method) (opt : bool) (s : list Z) (f : flags) (r : re) : list (nat * state) :=
  match a with
  | MMatch => map (pair 0) (filter (fun st => at_end s (fst st)) (committed opt tail_match s f r 0))
  | MStarts => map (pair 0) (committed opt tail_starts s f r 0)
  | MSearch => flat_map (fun b => map (pair b) (committed opt tail_starts s f r b))
                        (if starts_with_anchor f r then [0] else seq 0 (S (length s)))
  end.
(** What a result has to be. *)
Definition tells (r : re) (c : caps) (o : option (nat * state)) : Prop :=
  match o with
  | Some (b, (e, lg)) => matched c = true /\ group c 0 = Some (b, e) /\ captures_are r c lg
  | None => matched c = false
  end.
(** Patterns covered. *)
Definition meant_check (f : flags) (r : re) : bool := xwf (modes_in f r) (names_of r) [] r && ids_distinct r.

Section Top.
Variable opt : bool.
Variable s : list Z.
Variable f : flags.
Variable r : re.
Hypothesis s_ok : forallb val_ok s = true.
Hypothesis r_ok : meant_check f r = true.
Notation M := (modes_in f r).
Notation G := (find_captures r).
Notation start p := (@pair modes (bool * state) (mode_of f) (@pair bool state (f_block f) (p, []))).

Lemma c_attempt_first : forall n p tl, p <= length s -> pstack opt tl = tl -> xwfs M G KAcc [] tl [] ->
  match eval opt n (arr_view s) (arr_view s) p f (fresh r) (AStart :: AR r :: tl) with
  | Ok c => exists st rest, xouts s G (AR (possessify opt r tl) :: tl) (start p) [] = st :: rest /\
      s_end (c0 c) = Some (fst st) /\ captures_are r c (snd st)
  | No => xouts s G (AR (possessify opt r tl) :: tl) (start p) [] = []
  | _ => True
  end.
Proof.
  intros n p tl Hp Htl Hw. apply andb_true_iff in r_ok as [F1 F2]. apply nodup_nat_spec in F2.
  pose proof (xwf_ids _ _ _ _ F1) as I0.
  pose proof (proj1 (possessify_all opt n) (arr_view s) (arr_view s) p f (fresh r) (AStart :: AR r :: tl)) as P.
  cbn [pstack] in P. rewrite Htl in P.
  assert (R : match eval false n (arr_view s) (arr_view s) p f (fresh r) (AStart :: AR (possessify opt r tl) :: tl) with
    | Ok c => exists st rest, xouts s G (AR (possessify opt r tl) :: tl) (start p) [] = st :: rest /\
        s_end (c0 c) = Some (fst st) /\ captures_are r c (snd st)
    | No => xouts s G (AR (possessify opt r tl) :: tl) (start p) [] = []
    | _ => True
    end).
  { destruct n as [|n]; [exact I|]. cbn [eval arr_view vconv]. fold (arr_view s).
    destruct (xrefine_all s M G s_ok F2 n) as (HE & _).
    pose proof (HE KAcc p [] f (mode_of f) (set_start_mark p (fresh r)) (AR (possessify opt r tl) :: tl) [] [] (fresh_sim s r p Hp)
      (conj (possessify_xwf opt M _ r [] tl F1) Hw) eq_refl (modes_in_start f r)) as H.
    unfold EvalRefine.good in H.
    destruct (eval false n (arr_view s) (arr_view s) p f (set_start_mark p (fresh r)) (AR (possessify opt r tl) :: tl)); auto.
    destruct H as (st & rest & H1 & H2 & H3). exists st, rest. split; [assumption|].
    split; [apply H3; discriminate|]. apply groups_captures; [assumption|]. apply groups_unmatch. exact (sim_groups s r _ _ H2). }
  destruct P as [P|[P|P]]; rewrite P; [exact I|exact I|exact R].
Qed.

Lemma flat_map_last : forall l : list xstate, flat_map (fun y => [snd (snd y)]) l = map (fun y => snd (snd y)) l.
Proof. induction l as [|x l IH]; [reflexivity|]. cbn [map flat_map app]. rewrite IH. reflexivity. Qed.
Lemma c_starts_first : forall n p, p <= length s ->
  match attempt opt n s f r p with
  | Ok c => exists st rest, committed opt tail_starts s f r p = st :: rest /\ s_end (c0 c) = Some (fst st) /\ captures_are r c (snd st)
  | No => committed opt tail_starts s f r p = []
  | _ => True
  end.
Proof.
  intros n p Hp. pose proof (c_attempt_first n p tail_starts Hp eq_refl (conj eq_refl eq_refl)) as H.
  replace (xouts s G (AR (possessify opt r tail_starts) :: tail_starts) (start p) []) with (committed opt tail_starts s f r p) in H; [exact H|].
  symmetry. apply flat_map_last.
Qed.
Lemma c_match_first : forall n p, p <= length s ->
  match whole opt n s f r p with
  | Ok c => exists st rest, filter (fun st => at_end s (fst st)) (committed opt tail_match s f r p) = st :: rest /\
      s_end (c0 c) = Some (fst st) /\ captures_are r c (snd st)
  | No => filter (fun st => at_end s (fst st)) (committed opt tail_match s f r p) = []
  | _ => True
  end.
Proof.
  intros n p Hp. pose proof (c_attempt_first n p tail_match Hp eq_refl (conj eq_refl (conj eq_refl eq_refl))) as H.
  replace (xouts s G (AR (possessify opt r tail_match) :: tail_match) (start p) [])
    with (filter (fun st => at_end s (fst st)) (committed opt tail_match s f r p)) in H; [exact H|].
  assert (X : forall l : list xstate, filter (fun st => at_end s (fst st)) (map (fun y => snd (snd y)) l) =
    flat_map (fun y => flat_map (fun z : xstate => [snd (snd z)]) (xenum s (names_of r) (RAssert ASubjectEnd) y)) l).
  { induction l as [|[m [k st]] ys IH]; [reflexivity|].
    cbn [map filter flat_map snd]. rewrite IH. cbn [xenum enum holds]. destruct (at_end s (fst st)); reflexivity. }
  apply X.
Qed.

Hypothesis Hw : well_numbered r.
Hypothesis Ht : terminating r = true.

Lemma hd_pairs : forall A B (b : A) (l : list B), hd_error (map (pair b) l) = option_map (pair b) (hd_error l).
Proof. intros A B b [|x l]; reflexivity. Qed.
Lemma hd_later : forall (g : nat -> list (nat * state)) l1 b l2, (forall b', In b' l1 -> g b' = []) -> g b <> [] ->
  hd_error (flat_map g (l1 ++ b :: l2)) = hd_error (g b).
Proof.
  intros g l1 b l2 H1 H2. rewrite flat_map_app. replace (flat_map g l1) with (@nil (nat * state)).
  - cbn [app flat_map]. destruct (g b); [congruence|reflexivity].
  - symmetry. induction l1 as [|x l1 IH]; [reflexivity|]. cbn [flat_map]. rewrite H1 by (left; reflexivity). apply IH. intros b' Hb. apply H1. right. exact Hb.
Qed.

Theorem calls_mean : forall a, compiles opt true r (tail_of a) = true ->
  exists c, answers (fun n => on_array a opt n s f r) c /\ tells r c (hd_error (means a opt s f r)).
Proof.
  intros a Hc. destruct (array_answers a opt s f r Hw Ht Hc) as (c & n & E). exists c. split; [exists n; exact E|].
  specialize (E n (le_n n)). destruct a; cbn [means].
  - change (ctre_match opt n s f r = Ok c) in E. pose proof (c_match_first n 0 (Nat.le_0_l _)) as H.
    rewrite hd_pairs. apply returned_cases in E as [E|[E ->]]; unfold whole in H; rewrite E in H.
    + destruct H as ([e lg] & rest & H1 & H2 & H3). rewrite H1.
      pose proof (whole_ok _ _ _ _ _ _ _ Hw (Nat.le_0_l _) E) as (E1 & E2 & _).
      split; [exact E1|]. split; [apply c0_group; assumption|assumption].
    + rewrite H. reflexivity.
  - change (ctre_starts_with opt n s f r = Ok c) in E. pose proof (c_starts_first n 0 (Nat.le_0_l _)) as H.
    rewrite hd_pairs. apply returned_cases in E as [E|[E ->]]; unfold attempt in H; rewrite E in H.
    + destruct H as ([e lg] & rest & H1 & H2 & H3). rewrite H1.
      pose proof (attempt_ok _ _ _ _ _ _ _ Hw (Nat.le_0_l _) E) as (E1 & E2 & _).
      split; [exact E1|]. split; [apply c0_group; assumption|assumption].
    + rewrite H. reflexivity.
  - change (ctre_search opt n s f r = Ok c) in E. apply search_cases in E; auto with arith.
    assert (Hno : forall q, q <= length s -> attempt opt n s f r q = No -> map (pair q) (committed opt tail_starts s f r q) = []).
    { intros q Hq A. pose proof (c_starts_first n q Hq) as H. rewrite A in H. rewrite H. reflexivity. }
    destruct E as [(q & E1 & E2 & E3 & E4)|(q & -> & E1)].
    + pose proof (c_starts_first n q (proj2 E1)) as H. rewrite E2 in H. destruct H as ([e lg] & rest & H1 & H2 & H3).
      pose proof (attempt_ok _ _ _ _ _ _ _ Hw (proj2 E1) E2) as (A1 & A2 & _).
      replace (hd_error _) with (Some (q, (e, lg))).
      * split; [exact A1|]. split; [apply c0_group; assumption|assumption].
      * destruct (starts_with_anchor f r).
        -- rewrite (E3 eq_refl) in *. cbn [flat_map]. rewrite app_nil_r, H1. reflexivity.
        -- replace (seq 0 (S (length s))) with (seq 0 q ++ q :: seq (S q) (length s - q)).
           ++ rewrite hd_later; [rewrite H1; reflexivity| |rewrite H1; discriminate].
              intros b' Hb. apply in_seq in Hb. apply Hno; [lia|]. apply E4. lia.
           ++ replace (S (length s)) with (q + S (length s - q)) by lia. rewrite seq_app. reflexivity.
    + replace (flat_map _ _) with (@nil (nat * state)); [reflexivity|]. destruct (starts_with_anchor f r).
      * cbn [flat_map]. rewrite Hno; [reflexivity|lia|]. apply E1.
      * symmetry. destruct E1 as [-> E1]. assert (X : forall l, Forall (fun b => b <= length s) l ->
          flat_map (fun b => map (pair b) (committed opt tail_starts s f r b)) l = []).
        { induction l as [|b l IH]; [reflexivity|]. intros HF. inversion HF; subst. cbn [flat_map].
          rewrite Hno, IH; [reflexivity|assumption|assumption|]. apply E1. lia. }
        apply X. apply Forall_forall. intros b Hb. apply in_seq in Hb. lia.
Qed.
End Top.
