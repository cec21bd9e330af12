(** Soundness of the entry points for patterns with mode switches anywhere. *)
From Coq Require Import List ZArith NArith Bool Lia Arith ZifyBool ZifyN ZifyNat.
From Verif Require Import Chars Syntax First View Eval Api Spec CharProofs EvalMono EvalInv EvalSem SpecProps
  EvalRefine SpecCut ApiProofs EvalTop OptProofs Checks EvalSound Match Mode ModeSem ModeSound ModeScope.
Import ListNotations.

(** * The modes that can be in effect in a call *)
Fixpoint switches (r : re) : list mode :=
  match r with
  | RMode k => [k]
  | RSelect l | RSeq l | RRep _ _ _ l | RCap _ l | RNCap _ _ l | RAhead _ l | RAtomic l => flat_map switches l
  | _ => []
  end.
Definition four_modes : list modes := [(false, false); (false, true); (true, false); (true, true)].
Definition reaches (f : flags) (l : list mode) (m : modes) : bool :=
  (Bool.eqb (fst m) (f_ml f) || existsb (fun k => match k with ModeML => fst m | ModeSL => negb (fst m) | _ => false end) l)
  && (Bool.eqb (snd m) (f_ci f) || existsb (fun k => match k with ModeCI => snd m | ModeCS => negb (snd m) | _ => false end) l).
Definition modes_in (f : flags) (r : re) : list modes := filter (reaches f (switches r)) four_modes.

Lemma modes_in_start : forall f r, In (mode_of f) (modes_in f r).
Proof.
  intros f r. apply filter_In. split.
  - destruct f as [? [] []]; cbn; auto.
  - unfold reaches, mode_of. cbn [fst snd]. rewrite !Bool.eqb_reflx. reflexivity.
Qed.
Lemma modes_in_switch : forall f r k m, In k (switches r) -> In m (modes_in f r) -> In (switch k m) (modes_in f r).
Proof.
  intros f r k m Hk Hm. apply filter_In in Hm as [_ Hm]. apply filter_In. split.
  - destruct (switch k m) as [[] []]; cbn; auto.
  - unfold reaches in *. apply andb_true_iff in Hm as [H1 H2].
    assert (X : forall g : mode -> bool, g k = true -> existsb g (switches r) = true).
    { intros g Hg. apply existsb_exists. exists k. auto. }
    apply andb_true_iff. destruct k; cbn [switch fst snd]; (split; try assumption); apply orb_true_iff; right;
      apply X; reflexivity.
Qed.

(** * Derivations *)
(** [r] read from [p] in the mode of the call, with the mode passed along as the library does. *)
Definition mderives (s : list Z) (f : flags) (r : re) (p e : nat) (lg : log) : Prop :=
  exists m, msem s (names_of r) r (mode_of f, (p, [])) (m, (e, lg)).
(** With switches in their textual scope. *)
Definition tderives (s : list Z) (f : flags) (r : re) (p e : nat) (lg : log) : Prop :=
  tsem s (names_of r) (mode_of f) r (p, []) (e, lg).

Definition msound_check (opt : bool) (f : flags) (r : re) : bool :=
  mswf opt (modes_in f r) (names_of r) [] r && ids_distinct r.
Definition scope_check (f : flags) (r : re) : bool := tidy (mode_of f) r.

Lemma mderives_plain : forall s f r p e lg, no_switch r = true ->
  (mderives s f r p e lg <-> derives s f r p e lg).
Proof.
  intros s f r p e lg H. unfold mderives, derives. split.
  - intros [m Hm]. apply (msem_plain s (names_of r) r H) in Hm as [_ Hm]. exact Hm.
  - intros Hd. exists (mode_of f). apply (msem_plain s (names_of r) r H). split; [reflexivity|exact Hd].
Qed.
Lemma mderives_scope : forall s f r p e lg, scope_check f r = true ->
  (mderives s f r p e lg <-> tderives s f r p e lg).
Proof. intros s f r p e lg H. unfold mderives, tderives. symmetry. apply scope_agrees. exact H. Qed.

Lemma mswf_ids : forall opt M names r O, M <> [] -> mswf opt M names O r = true -> ~ In 0 (map fst (find_captures r)).
Proof.
  intros opt M names r O HM. revert O. induction r as
    [ | r l IHr IHl | c | | t | l IH | l IH | | | kd a b l IH | id l IH | id nm l IH | id | nm
    | neg l IH | neg l IH | l IH | c | c | a | md ]
    using re_ind2 with (Q := fun l => forall O, forallb (mswf opt M names O) l = true ->
      ~ In 0 (map fst ((fix fc (l : list re) := match l with [] => [] | x :: xs => find_captures x ++ fc xs end) l)));
    try (intros O _ HF; exact HF); intros O H.
  - cbn [forallb] in H. apply andb_true_iff in H as [H1 H2]. rewrite map_app, in_app_iff. intros [|]; [eapply IHr|eapply IHl]; eauto.
  - apply (IH O). exact H.
  - apply (IH O). exact H.
  - apply (IH O). exact H.
  - cbn [mswf] in H. apply andb_true_iff in H as [H1 H].
    apply not_in_spec in H1 as [H1 _]. cbn. intros [E|E]; [congruence|]. exact (IH _ H E).
  - cbn [mswf] in H. apply andb_true_iff in H as [H1 H].
    apply not_in_spec in H1 as [H1 _]. cbn. intros [E|E]; [congruence|]. exact (IH _ H E).
  - destruct neg; [|apply (IH O); exact H]. cbn [mswf] in H. destruct M as [|m M']; [contradiction|].
    cbn [forallb] in H. apply andb_true_iff in H as [H _]. apply andb_true_iff in H as [H _].
    apply andb_true_iff in H as [H _]. apply andb_true_iff in H as [H _]. exact (wf_ids _ _ (RSeq l) O H).
Qed.

Section Calls.
Variable opt : bool.
Variable s : list Z.
Variable f : flags.
Variable r : re.
Hypothesis s_ok : forallb val_ok s = true.
Hypothesis r_ok : msound_check opt f r = true.
Notation M := (modes_in f r).

Lemma m_attempt : forall n p tl c, p <= length s -> mswfs opt M (find_captures r) KAcc [] tl [] ->
  eval opt n (arr_view s) (arr_view s) p f (fresh r) (AStart :: AR r :: tl) = Ok c ->
  exists x y, msem s (names_of r) r (mode_of f, (p, [])) x /\ mruns s (find_captures r) tl x [] y /\
    s_end (c0 c) = Some (fst (snd y)) /\ captures_are r c (snd (snd y)).
Proof.
  intros n p tl c Hp Hw H. apply andb_true_iff in r_ok as [F1 F2]. apply nodup_nat_spec in F2.
  destruct n as [|n]; [discriminate|]. cbn [eval arr_view vconv] in H. fold (arr_view s) in H.
  destruct (msound_all opt s M (find_captures r) s_ok F2 n) as (HE & _).
  destruct (HE KAcc p [] f _ (AR r :: tl) [] [] c (mode_of f) (fresh_sim s r p Hp) (conj F1 Hw) eq_refl
    (modes_in_start f r) H) as (y & (x & R1 & R2) & R3 & R4).
  exists x, y. split; [exact R1|]. split; [exact R2|]. destruct y as [m' [e lg]]. split; [apply R4; discriminate|].
  apply groups_captures.
  - eapply (mswf_ids opt M); [|exact F1]. pose proof (modes_in_start f r) as X. intros E. rewrite E in X. contradiction.
  - apply groups_unmatch. exact (sim_groups s r _ _ R3).
Qed.

Lemma m_match_sound : forall n c, ctre_match opt n s f r = Ok c -> matched c = true ->
  exists lg, mderives s f r 0 (length s) lg /\ captures_are r c lg.
Proof.
  intros n c H Hm. pose proof (match_matched _ _ _ _ _ _ H Hm) as E.
  destruct (m_attempt n 0 tail_match c ltac:(lia) (conj eq_refl (conj eq_refl eq_refl)) E)
    as ([m [e lg]] & y & R1 & R2 & R3 & R4).
  destruct R2 as ([m' st'] & (R2 & R2') & R5). cbn [mruns] in R5. subst y. cbn [snd fst] in *.
  destruct R2' as [-> R2']. unfold at_end in R2'. apply Nat.eqb_eq in R2'. cbn [fst snd] in *. subst e.
  exists lg. split; [|assumption]. exists m. exact R1.
Qed.
Lemma m_starts_sound : forall n p c, p <= length s -> attempt opt n s f r p = Ok c ->
  exists e lg, mderives s f r p e lg /\ s_end (c0 c) = Some e /\ captures_are r c lg.
Proof.
  intros n p c Hp E.
  destruct (m_attempt n p tail_starts c Hp (conj eq_refl eq_refl) E) as ([m [e lg]] & y & R1 & R2 & R3 & R4).
  cbn [mruns tail_starts] in R2. subst y. exists e, lg. split; [exists m; exact R1|]. auto.
Qed.
Lemma m_search_sound : forall n c, well_numbered r -> ctre_search opt n s f r = Ok c -> matched c = true ->
  exists b e lg, group c 0 = Some (b, e) /\ mderives s f r b e lg /\ captures_are r c lg.
Proof.
  intros n c Hw H Hm. apply search_cases in H; auto with arith.
  destruct H as [(q & H1 & H2 & _) | (q & -> & _)]; [|discriminate].
  destruct (m_starts_sound n q c ltac:(lia) H2) as (e & lg & R1 & R2 & R3).
  pose proof (attempt_ok _ _ _ _ _ _ _ Hw (proj2 H1) H2) as (E1 & E2 & _).
  exists q, e, lg. split; [apply c0_group; assumption|]. auto.
Qed.
End Calls.
