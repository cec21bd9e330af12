(** Soundness, completeness and priority of the entry points. *)
From Coq Require Import List ZArith NArith Bool Lia Arith.
From Verif Require Import Chars Syntax First View Eval Api Spec CharProofs EvalMono EvalInv EvalSem SpecProps
  EvalRefine SpecCut ApiProofs EvalTop OptProofs Checks EvalSound.
Import ListNotations.

(** [r] read from [p] can end at [e] with the group participations [lg]. *)
Definition derives (s : list Z) (f : flags) (r : re) (p e : nat) (lg : log) : Prop :=
  sem s (f_ml f) (f_ci f) (names_of r) r (p, []) (e, lg).

(** The captures of a result are those of [lg]: its last participation, or nothing. *)
Definition captures_are (r : re) (c : caps) (lg : log) : Prop :=
  forall id, In id (map fst (find_captures r)) -> group c id = lookup id lg.

(** Soundness: no restriction on repetitions; see EvalSound.swf. *)
Definition sound_fragment (opt : bool) (f : flags) (r : re) : Prop :=
  swf opt (f_ml f) (f_ci f) (names_of r) [] r = true /\ NoDup (map fst (find_captures r)).

(** Completeness and priority: [fragment], and the discipline of the library does not matter. *)
Definition complete_fragment (s : list Z) (f : flags) (r : re) : Prop :=
  fragment f r /\ tame s (f_ml f) (f_ci f) (names_of r) r /\ plain s (f_ml f) (f_ci f) (names_of r) r.
Definition priority_fragment (s : list Z) (f : flags) (r : re) : Prop :=
  fragment f r /\ tame s (f_ml f) (f_ci f) (names_of r) r.

Definition tail_match : list atom := [AR (RAssert ASubjectEnd); AEnd; AAccept].
Definition tail_starts : list atom := [AEnd; AAccept].

(** Decidable versions. *)
Fixpoint nodup_nat (l : list nat) : bool :=
  match l with [] => true | x :: xs => negb (existsb (Nat.eqb x) xs) && nodup_nat xs end.
Lemma nodup_nat_spec : forall l, nodup_nat l = true -> NoDup l.
Proof.
  induction l as [|x l IH]; cbn [nodup_nat]; intros H; constructor; apply andb_true_iff in H as [H1 H2]; auto.
  intros Hin. apply negb_true_iff in H1. assert (existsb (Nat.eqb x) l = true); [|congruence].
  apply existsb_exists. exists x. split; [assumption|apply Nat.eqb_refl].
Qed.
Definition ids_distinct (r : re) : bool := nodup_nat (map fst (find_captures r)).
Definition sound_check (opt : bool) (f : flags) (r : re) : bool :=
  swf opt (f_ml f) (f_ci f) (names_of r) [] r && ids_distinct r.
Definition fragment_check (f : flags) (r : re) : bool := wf (f_ci f) (names_of r) [] r && ids_distinct r.
Definition priority_check (opt : bool) (f : flags) (r : re) (tl : list atom) : bool :=
  fragment_check f r && tame_check (f_ci f) r && ow_check opt (f_ml f) (f_ci f) r tl.
Definition complete_check (opt : bool) (f : flags) (r : re) (tl : list atom) : bool :=
  priority_check opt f r tl && plain_check r.

Lemma sound_check_spec : forall opt f r, sound_check opt f r = true -> sound_fragment opt f r.
Proof. intros opt f r H. apply andb_true_iff in H as [H1 H2]. split; [assumption|apply nodup_nat_spec; assumption]. Qed.
Lemma fragment_check_spec : forall f r, fragment_check f r = true -> fragment f r.
Proof. intros f r H. apply andb_true_iff in H as [H1 H2]. split; [assumption|apply nodup_nat_spec; assumption]. Qed.
Lemma priority_check_spec : forall opt f r tl s, forallb val_ok s = true -> priority_check opt f r tl = true ->
  priority_fragment s f r /\ opt_ok opt s f r tl.
Proof.
  intros opt f r tl s Hs H. apply andb_true_iff in H as [H H3]. apply andb_true_iff in H as [H1 H2].
  split; [split|].
  - apply fragment_check_spec; assumption.
  - apply tame_check_sound; assumption.
  - apply ow_check_sound; assumption.
Qed.
Lemma complete_check_spec : forall opt f r tl s, forallb val_ok s = true -> complete_check opt f r tl = true ->
  complete_fragment s f r /\ opt_ok opt s f r tl.
Proof.
  intros opt f r tl s Hs H. apply andb_true_iff in H as [H H2].
  destruct (priority_check_spec opt f r tl s Hs H) as [[H3 H4] H5].
  split; [|assumption]. split; [assumption|]. split; [assumption|]. apply plain_check_sound; assumption.
Qed.

Lemma swf_ids : forall opt ml ci names r, forall O, swf opt ml ci names O r = true ->
  ~ In 0 (map fst (find_captures r)).
Proof.
  intros opt ml ci names.
  assert (W : forall r O, wf ci names O r = true -> ~ In 0 (map fst (find_captures r))).
  { induction r as
    [ | r l IHr IHl | c | | t | l IH | l IH | | | kd a b l IH | id l IH | id nm l IH | id | nm
    | neg l IH | neg l IH | l IH | c | c | a | md ]
    using re_ind2 with (Q := fun l => forall O, forallb (wf ci names O) l = true ->
      ~ In 0 (map fst ((fix fc (l : list re) := match l with [] => [] | x :: xs => find_captures x ++ fc xs end) l)));
    try (intros O _ HF; exact HF); intros O H.
    - cbn [forallb] in H. apply andb_true_iff in H as [H1 H2]. rewrite map_app, in_app_iff. intros [|]; [eapply IHr|eapply IHl]; eauto.
    - apply (IH O). exact H.
    - cbn [EvalSem.wf] in H. apply andb_true_iff in H as [_ H]. apply (IH O). exact H.
    - cbn [EvalSem.wf] in H. apply andb_true_iff in H as [_ H]. apply (IH O). exact H.
    - cbn [EvalSem.wf] in H. apply andb_true_iff in H as [H1 H]. apply andb_true_iff in H1 as [H1 _].
      apply not_in_spec in H1 as [H1 _]. cbn. intros [E|E]; [congruence|]. exact (IH _ H E).
    - cbn [EvalSem.wf] in H. apply andb_true_iff in H as [H1 H]. apply andb_true_iff in H1 as [H1 _].
      apply not_in_spec in H1 as [H1 _]. cbn. intros [E|E]; [congruence|]. exact (IH _ H E).
    - cbn [EvalSem.wf] in H. apply andb_true_iff in H as [_ H]. apply (IH O). exact H. }
  induction r as
    [ | r l IHr IHl | c | | t | l IH | l IH | | | kd a b l IH | id l IH | id nm l IH | id | nm
    | neg l IH | neg l IH | l IH | c | c | a | md ]
    using re_ind2 with (Q := fun l => forall O, forallb (swf opt ml ci names O) l = true ->
      ~ In 0 (map fst ((fix fc (l : list re) := match l with [] => [] | x :: xs => find_captures x ++ fc xs end) l)));
    try (intros O _ HF; exact HF); intros O H.
  - cbn [forallb] in H. apply andb_true_iff in H as [H1 H2]. rewrite map_app, in_app_iff. intros [|]; [eapply IHr|eapply IHl]; eauto.
  - apply (IH O). exact H.
  - apply (IH O). exact H.
  - apply (IH O). exact H.
  - cbn [swf] in H. apply andb_true_iff in H as [H1 H].
    apply not_in_spec in H1 as [H1 _]. cbn. intros [E|E]; [congruence|]. exact (IH _ H E).
  - cbn [swf] in H. apply andb_true_iff in H as [H1 H].
    apply not_in_spec in H1 as [H1 _]. cbn. intros [E|E]; [congruence|]. exact (IH _ H E).
  - destruct neg; [|apply (IH O); exact H]. cbn [swf] in H. apply andb_true_iff in H as [H _].
    apply andb_true_iff in H as [H _]. apply andb_true_iff in H as [H _]. exact (W (RSeq l) O H).
Qed.
Lemma wf_ids : forall ci names r O, wf ci names O r = true -> ~ In 0 (map fst (find_captures r)).
Proof.
  intros ci names.
  induction r as
    [ | r l IHr IHl | c | | t | l IH | l IH | | | kd a b l IH | id l IH | id nm l IH | id | nm
    | neg l IH | neg l IH | l IH | c | c | a | md ]
    using re_ind2 with (Q := fun l => forall O, forallb (wf ci names O) l = true ->
      ~ In 0 (map fst ((fix fc (l : list re) := match l with [] => [] | x :: xs => find_captures x ++ fc xs end) l)));
    try (intros O _ HF; exact HF); intros O H.
  - cbn [forallb] in H. apply andb_true_iff in H as [H1 H2]. rewrite map_app, in_app_iff. intros [|]; [eapply IHr|eapply IHl]; eauto.
  - apply (IH O). exact H.
  - cbn [EvalSem.wf] in H. apply andb_true_iff in H as [_ H]. apply (IH O). exact H.
  - cbn [EvalSem.wf] in H. apply andb_true_iff in H as [_ H]. apply (IH O). exact H.
  - cbn [EvalSem.wf] in H. apply andb_true_iff in H as [H1 H]. apply andb_true_iff in H1 as [H1 _].
    apply not_in_spec in H1 as [H1 _]. cbn. intros [E|E]; [congruence|]. exact (IH _ H E).
  - cbn [EvalSem.wf] in H. apply andb_true_iff in H as [H1 H]. apply andb_true_iff in H1 as [H1 _].
    apply not_in_spec in H1 as [H1 _]. cbn. intros [E|E]; [congruence|]. exact (IH _ H E).
  - cbn [EvalSem.wf] in H. apply andb_true_iff in H as [_ H]. apply (IH O). exact H.
Qed.

Lemma groups_captures : forall r c lg, ~ In 0 (map fst (find_captures r)) -> groups_are r c lg -> captures_are r c lg.
Proof. intros r c lg H0 H id Hin. apply H; [assumption|]. intros ->. contradiction. Qed.

Section Calls.
Variable opt : bool.
Variable s : list Z.
Variable f : flags.
Variable r : re.
Hypothesis s_ok : forallb val_ok s = true.

(** * Soundness *)
Lemma attempt_sound : forall n p tl c, sound_fragment opt f r -> p <= length s ->
  swfs opt (f_ml f) (f_ci f) (find_captures r) KAcc [] tl [] ->
  eval opt n (arr_view s) (arr_view s) p f (fresh r) (AStart :: AR r :: tl) = Ok c ->
  exists m e lg, sem s (f_ml f) (f_ci f) (names_of r) r (p, []) m /\
    runs s (f_ml f) (f_ci f) (find_captures r) tl m [] (e, lg) /\
    s_end (c0 c) = Some e /\ captures_are r c lg.
Proof.
  intros n p tl c [F1 F2] Hp Hw H. destruct n as [|n]; [discriminate|].
  cbn [eval arr_view vconv] in H. fold (arr_view s) in H.
  destruct (sound_all opt s (f_ml f) (f_ci f) (find_captures r) s_ok F2 n) as (HE & _).
  destruct (HE KAcc p [] f _ (AR r :: tl) [] [] c (fresh_sim s r p Hp) (conj F1 Hw) eq_refl eq_refl H)
    as ([e lg] & (m & R1 & R2) & R3 & R4).
  exists m, e, lg. split; [exact R1|]. split; [exact R2|]. split; [apply R4; discriminate|].
  apply groups_captures; [eapply swf_ids; exact F1|].
  apply groups_unmatch. exact (sim_groups s r _ _ R3).
Qed.

Lemma match_sound : forall n c, sound_fragment opt f r ->
  ctre_match opt n s f r = Ok c -> matched c = true ->
  exists lg, derives s f r 0 (length s) lg /\ captures_are r c lg.
Proof.
  intros n c Hf H Hm. pose proof (match_matched _ _ _ _ _ _ H Hm) as E.
  destruct (attempt_sound n 0 tail_match c Hf ltac:(lia)
    (conj eq_refl (conj eq_refl eq_refl)) E) as (m & e & lg & R1 & R2 & R3 & R4).
  destruct R2 as (m' & (R2 & R2') & R5). cbn [runs] in R5. subst m'. cbn [snd fst] in *.
  unfold at_end in R2'. apply Nat.eqb_eq in R2'. destruct m as [e' lg']. cbn [fst] in R2'.
  injection R5 as -> ->. exists lg'. split; [|assumption]. unfold derives. rewrite <- R2'. exact R1.
Qed.

Lemma starts_sound : forall n p c, sound_fragment opt f r -> p <= length s ->
  attempt opt n s f r p = Ok c ->
  exists e lg, derives s f r p e lg /\ s_end (c0 c) = Some e /\ captures_are r c lg.
Proof.
  intros n p c Hf Hp E.
  destruct (attempt_sound n p tail_starts c Hf Hp (conj eq_refl eq_refl) E) as (m & e & lg & R1 & R2 & R3 & R4).
  cbn [runs tail_starts] in R2. subst m. exists e, lg. auto.
Qed.

Lemma search_sound : forall n c, well_numbered r -> sound_fragment opt f r ->
  ctre_search opt n s f r = Ok c -> matched c = true ->
  exists b e lg, group c 0 = Some (b, e) /\ derives s f r b e lg /\ captures_are r c lg.
Proof.
  intros n c Hw Hf H Hm. apply search_cases in H; auto with arith.
  destruct H as [(q & H1 & H2 & _) | (q & -> & _)]; [|discriminate].
  destruct (starts_sound n q c Hf ltac:(lia) H2) as (e & lg & R1 & R2 & R3).
  pose proof (attempt_ok _ _ _ _ _ _ _ Hw (proj2 H1) H2) as (E1 & E2 & _).
  exists q, e, lg. split; [apply c0_group; assumption|]. auto.
Qed.

(** * Priority *)
Lemma outcomes_cut : forall p, priority_fragment s f r -> p <= length s ->
  outcomes true s f r p = outcomes false s f r p.
Proof.
  intros p [_ Ht] Hp. apply cut_agrees; [assumption|]. split; [assumption|constructor].
Qed.

Lemma attempt_priority : forall n p, priority_fragment s f r -> opt_ok opt s f r tail_starts -> p <= length s ->
  match attempt opt n s f r p with
  | Ok c => exists e lg rest, outcomes false s f r p = (e, lg) :: rest /\
      s_end (c0 c) = Some e /\ captures_are r c lg
  | No => outcomes false s f r p = []
  | _ => True
  end.
Proof.
  intros n p Hf Ho Hp. pose proof Hf as [[F1 F2] _].
  pose proof (starts_first opt s f r s_ok (conj F1 F2) n p Hp Ho) as H.
  rewrite (outcomes_cut p Hf Hp) in H. destruct (attempt opt n s f r p); auto.
  destruct H as ([e lg] & rest & H1 & H2 & H3). exists e, lg, rest. split; [assumption|].
  split; [assumption|]. apply groups_captures; [eapply wf_ids; exact F1|assumption].
Qed.

Lemma match_priority : forall n, priority_fragment s f r -> opt_ok opt s f r tail_match ->
  match whole opt n s f r 0 with
  | Ok c => exists lg rest, filter (at_end_st s) (outcomes false s f r 0) = (length s, lg) :: rest /\
      captures_are r c lg
  | No => filter (at_end_st s) (outcomes false s f r 0) = []
  | _ => True
  end.
Proof.
  intros n Hf Ho. pose proof Hf as [[F1 F2] _].
  pose proof (match_first opt s f r s_ok (conj F1 F2) n 0 ltac:(lia) Ho) as H.
  rewrite (outcomes_cut 0 Hf ltac:(lia)) in H. destruct (whole opt n s f r 0); auto.
  destruct H as ([e lg] & rest & H1 & H2 & H3).
  assert (He : at_end_st s (e, lg) = true).
  { assert (Hin : In (e, lg) (filter (at_end_st s) (outcomes false s f r 0))) by (rewrite H1; left; reflexivity).
    apply filter_In in Hin. tauto. }
  apply Nat.eqb_eq in He. cbn in He. subst e. exists lg, rest. split; [assumption|].
  apply groups_captures; [eapply wf_ids; exact F1|assumption].
Qed.

(** * Completeness *)
Lemma derives_outcome : forall p e lg, complete_fragment s f r -> p <= length s ->
  derives s f r p e lg -> In (e, lg) (outcomes false s f r p).
Proof.
  intros p e lg (F & T & P) Hp H.
  destruct (enum_sem s (f_ml f) (f_ci f) (names_of r) r) as (_ & _ & C).
  apply C; [assumption| |exact H]. split; [assumption|constructor].
Qed.

Lemma complete_priority : complete_fragment s f r -> priority_fragment s f r.
Proof. intros (F & T & _). split; assumption. Qed.

Lemma match_complete : forall n c lg, complete_fragment s f r -> opt_ok opt s f r tail_match ->
  ctre_match opt n s f r = Ok c -> derives s f r 0 (length s) lg -> matched c = true.
Proof.
  intros n c lg Hf Ho H Hd.
  pose proof (match_priority n (complete_priority Hf) Ho) as M. unfold ctre_match, exec_match in H.
  unfold whole in M. apply returned_cases in H as [H|[H ->]].
  - apply (proj1 (ok_matched n)) in H. assumption.
  - rewrite H in M. exfalso.
    assert (Hin : In (length s, lg) (filter (at_end_st s) (outcomes false s f r 0))).
    { apply filter_In. split; [apply derives_outcome; [assumption|lia|assumption]|]. apply Nat.eqb_refl. }
    rewrite M in Hin. contradiction.
Qed.

Lemma starts_complete : forall n c e lg, complete_fragment s f r -> opt_ok opt s f r tail_starts ->
  ctre_starts_with opt n s f r = Ok c -> derives s f r 0 e lg -> matched c = true.
Proof.
  intros n c e lg Hf Ho H Hd.
  pose proof (attempt_priority n 0 (complete_priority Hf) Ho ltac:(lia)) as M.
  unfold ctre_starts_with, exec_starts_with in H.
  unfold attempt in M. apply returned_cases in H as [H|[H ->]].
  - apply (proj1 (ok_matched n)) in H. assumption.
  - rewrite H in M. exfalso.
    pose proof (derives_outcome 0 e lg Hf ltac:(lia) Hd) as Hin. rewrite M in Hin. contradiction.
Qed.

Lemma search_complete : forall n c p e lg, well_numbered r -> complete_fragment s f r ->
  opt_ok opt s f r tail_starts -> starts_with_anchor f r = false ->
  ctre_search opt n s f r = Ok c -> p <= length s -> derives s f r p e lg ->
  matched c = true /\ exists b e' lg', group c 0 = Some (b, e') /\ b <= p /\ derives s f r b e' lg' /\
    forall p' e2 lg2, p' < b -> ~ derives s f r p' e2 lg2.
Proof.
  intros n c p e lg Hw Hf Ho Ha H Hp Hd. apply search_cases in H; auto with arith. rewrite Ha in H.
  assert (Fail : forall q, q <= length s -> attempt opt n s f r q = No -> forall e lg, ~ derives s f r q e lg).
  { intros q Hq E e1 lg1 Hd1. pose proof (attempt_priority n q (complete_priority Hf) Ho Hq) as M.
    rewrite E in M. pose proof (derives_outcome q e1 lg1 Hf Hq Hd1) as Hin. rewrite M in Hin. contradiction. }
  destruct H as [(q & H1 & H2 & _ & H3) | (q & -> & -> & H1)].
  - split; [eapply attempt_matched; exact H2|].
    pose proof (attempt_priority n q (complete_priority Hf) Ho (proj2 H1)) as M. rewrite H2 in M.
    destruct M as (e' & lg' & rest & M1 & M2 & M3).
    pose proof (attempt_ok _ _ _ _ _ _ _ Hw (proj2 H1) H2) as (E1 & E2 & _).
    exists q, e', lg'. split; [apply c0_group; assumption|]. split.
    { destruct (Nat.le_gt_cases q p); [assumption|]. exfalso.
      exact (Fail p Hp (H3 p ltac:(lia)) e lg Hd). }
    split.
    + destruct (enum_sem s (f_ml f) (f_ci f) (names_of r) r) as (N1 & C & _).
      destruct Hf as (F & T & P).
      apply C; [apply N1; assumption | split; [exact (proj2 H1)|constructor] |].
      change (In (e', lg') (outcomes false s f r q)). rewrite M1. left. reflexivity.
    + intros p' e2 lg2 Hlt. apply Fail; [lia|]. apply H3. lia.
  - exfalso. exact (Fail p Hp (H1 p ltac:(lia)) e lg Hd).
Qed.
End Calls.

(** * The greedy optimisation *)
(** Same decision, same span, same captures. *)
Definition same_result (c c' : caps) : Prop :=
  matched c = matched c' /\ forall id, group c id = group c' id.

Lemma group_absent : forall r c id, map fst (cl c) = find_captures r -> id <> 0 ->
  ~ In id (map fst (find_captures r)) -> group c id = None.
Proof.
  intros r c id Hc H0 H. unfold group, get_id. destruct (Nat.eqb_spec id 0); [contradiction|].
  destruct (find_id id (cl c)) as [sl|] eqn:E; [|reflexivity]. exfalso. apply H.
  rewrite <- Hc. clear -E. revert E. induction (cl c) as [|[[i nm] s] l IH]; cbn; [discriminate|].
  destruct (Nat.eqb_spec i id); [left; assumption | right; auto].
Qed.

Lemma same_of : forall r c c' b lg e, map fst (cl c) = find_captures r -> map fst (cl c') = find_captures r ->
  ~ In 0 (map fst (find_captures r)) ->
  matched c = true -> matched c' = true -> s_beg (c0 c) = Some b -> s_beg (c0 c') = Some b ->
  s_end (c0 c) = Some e -> s_end (c0 c') = Some e ->
  captures_are r c lg -> captures_are r c' lg -> same_result c c'.
Proof.
  intros r c c' b lg e Hc Hc' H0 M M' B B' E E' G G'. split; [congruence|]. intros id.
  destruct (Nat.eq_dec id 0) as [->|Hid].
  - rewrite (c0_group c b e), (c0_group c' b e) by assumption. reflexivity.
  - destruct (in_dec Nat.eq_dec id (map fst (find_captures r))) as [Hin|Hin].
    + rewrite (G id Hin), (G' id Hin). reflexivity.
    + rewrite (group_absent r c id), (group_absent r c' id) by assumption. reflexivity.
Qed.
Lemma same_refl : forall c, same_result c c.
Proof. split; reflexivity. Qed.

Section Opt.
Variable s : list Z.
Variable f : flags.
Variable r : re.
Hypothesis s_ok : forallb val_ok s = true.
Hypothesis Hw : well_numbered r.
Hypothesis Hf : fragment f r.

Lemma attempt_opt : forall n n' p, opt_ok true s f r tail_starts -> p <= length s ->
  match attempt true n s f r p, attempt false n' s f r p with
  | Ok c, Ok c' => same_result c c'
  | Ok _, No | No, Ok _ => False
  | _, _ => True
  end.
Proof.
  intros n n' p Ho Hp.
  pose proof (starts_first true s f r s_ok Hf n p Hp Ho) as H.
  pose proof (starts_first false s f r s_ok Hf n' p Hp (ow_noopt _ _ _ _ _ _)) as H'.
  pose proof (attempt_ok true n s f r p _ Hw Hp eq_refl) as A.
  pose proof (attempt_ok false n' s f r p _ Hw Hp eq_refl) as A'.
  assert (H0 : ~ In 0 (map fst (find_captures r))) by (eapply wf_ids; exact (proj1 Hf)).
  destruct (attempt true n s f r p) as [c| | | |], (attempt false n' s f r p) as [c'| | | |]; auto.
  - destruct H as (st & rest & H1 & H2 & H3), H' as (st' & rest' & H1' & H2' & H3').
    rewrite H1 in H1'. injection H1' as <- <-. destruct A as (A1 & A2 & _ & _ & A3), A' as (A1' & A2' & _ & _ & A3').
    apply (same_of r c c' p (snd st) (fst st)); auto; apply groups_captures; assumption.
  - destruct H as (st & rest & H1 & _). congruence.
  - destruct H' as (st & rest & H1 & _). congruence.
Qed.

Lemma whole_opt : forall n n' p, opt_ok true s f r tail_match -> p <= length s ->
  match whole true n s f r p, whole false n' s f r p with
  | Ok c, Ok c' => same_result c c'
  | Ok _, No | No, Ok _ => False
  | _, _ => True
  end.
Proof.
  intros n n' p Ho Hp.
  pose proof (match_first true s f r s_ok Hf n p Hp Ho) as H.
  pose proof (match_first false s f r s_ok Hf n' p Hp (ow_noopt _ _ _ _ _ _)) as H'.
  pose proof (whole_ok true n s f r p _ Hw Hp eq_refl) as A.
  pose proof (whole_ok false n' s f r p _ Hw Hp eq_refl) as A'.
  assert (H0 : ~ In 0 (map fst (find_captures r))) by (eapply wf_ids; exact (proj1 Hf)).
  destruct (whole true n s f r p) as [c| | | |], (whole false n' s f r p) as [c'| | | |]; auto.
  - destruct H as (st & rest & H1 & H2 & H3), H' as (st' & rest' & H1' & H2' & H3').
    rewrite H1 in H1'. injection H1' as <- <-. destruct A as (A1 & A2 & _ & _ & A3), A' as (A1' & A2' & _ & _ & A3').
    apply (same_of r c c' p (snd st) (fst st)); auto; apply groups_captures; assumption.
  - destruct H as (st & rest & H1 & _). congruence.
  - destruct H' as (st & rest & H1 & _). congruence.
Qed.

Lemma match_opt : forall n n' c c', opt_ok true s f r tail_match ->
  ctre_match true n s f r = Ok c -> ctre_match false n' s f r = Ok c' -> same_result c c'.
Proof.
  intros n n' c c' Ho H H'. pose proof (whole_opt n n' 0 Ho ltac:(lia)) as W.
  apply returned_cases in H as [H|[H ->]], H' as [H'|[H' ->]]; unfold whole in W; rewrite H, H' in W;
    try assumption; try contradiction. apply same_refl.
Qed.
Lemma starts_opt : forall n n' c c', opt_ok true s f r tail_starts ->
  ctre_starts_with true n s f r = Ok c -> ctre_starts_with false n' s f r = Ok c' -> same_result c c'.
Proof.
  intros n n' c c' Ho H H'. pose proof (attempt_opt n n' 0 Ho ltac:(lia)) as W.
  apply returned_cases in H as [H|[H ->]], H' as [H'|[H' ->]]; unfold attempt in W; rewrite H, H' in W;
    try assumption; try contradiction. apply same_refl.
Qed.
Lemma search_opt : forall n n' c c', opt_ok true s f r tail_starts ->
  ctre_search true n s f r = Ok c -> ctre_search false n' s f r = Ok c' -> same_result c c'.
Proof.
  intros n n' c c' Ho H H'.
  pose proof (fun p Hp => attempt_opt n n' p Ho Hp) as W.
  apply search_cases in H; auto with arith. apply search_cases in H'; auto with arith.
  assert (F : forall q q', same_result (set_end_mark q (fresh r)) (set_end_mark q' (fresh r))).
  { intros q q'. split; [reflexivity|]. intros id. unfold group, get_id. destruct (Nat.eqb id 0); reflexivity. }
  destruct H as [(q & H1 & H2 & H3 & H4) | (q & -> & H1)],
           H' as [(q' & H1' & H2' & H3' & H4') | (q' & -> & H1')].
  - destruct (Nat.lt_trichotomy q q') as [Hlt|[<-|Hlt]].
    + specialize (W q (proj2 H1)). rewrite H2, (H4' q) in W by lia. contradiction.
    + specialize (W q (proj2 H1)). rewrite H2, H2' in W. assumption.
    + specialize (W q' (proj2 H1')). rewrite H2', (H4 q') in W by lia. contradiction.
  - exfalso. specialize (W q (proj2 H1)). rewrite H2 in W. destruct (starts_with_anchor f r).
    + rewrite (H3 eq_refl) in W. rewrite (proj2 H1') in W. assumption.
    + rewrite (proj2 H1' q ltac:(lia)) in W. assumption.
  - exfalso. specialize (W q' (proj2 H1')). rewrite H2' in W. destruct (starts_with_anchor f r).
    + rewrite (H3' eq_refl) in W. rewrite (proj2 H1) in W. assumption.
    + rewrite (proj2 H1 q' ltac:(lia)) in W. assumption.
  - apply F.
Qed.
End Opt.

(** Members found by running the specification are members. *)
Lemma outcome_derives : forall s f r p e lg, neg_plain_check r = true -> p <= length s ->
  In (e, lg) (outcomes false s f r p) -> derives s f r p e lg.
Proof.
  intros s f r p e lg Hn Hp H.
  destruct (enum_sem s (f_ml f) (f_ci f) (names_of r) r) as (_ & C & _).
  apply C; [apply neg_plain_check_sound; assumption | split; [assumption|constructor] | exact H].
Qed.
Lemma derives_listed : forall s f r p e lg, plain_check r = true -> p <= length s ->
  derives s f r p e lg -> In (e, lg) (outcomes false s f r p).
Proof.
  intros s f r p e lg Hn Hp H.
  destruct (enum_sem s (f_ml f) (f_ci f) (names_of r) r) as (_ & _ & C).
  apply C; [apply plain_check_sound; assumption | split; [assumption|constructor] | exact H].
Qed.
