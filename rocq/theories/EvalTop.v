(** The evaluator and the specification at the level of one call. *)
From Coq Require Import List ZArith NArith Bool Lia Arith.
From Verif Require Import Chars Syntax First View Eval Api Spec CharProofs EvalMono EvalInv EvalSem SpecProps
  EvalRefine ApiProofs.
Import ListNotations.

(** Numbers of the named groups of a pattern. *)
Definition names_of (r : re) : list Z -> option nat := name_number (find_captures r).

(** Outcomes of [r] from [p] with the discipline [cut]. *)
Definition outcomes (cut : bool) (s : list Z) (f : flags) (r : re) (p : nat) : list state :=
  enum s (f_ml f) (f_ci f) (names_of r) cut r (p, []).

(** The side condition of the greedy optimisation (void without it). *)
Definition opt_ok (opt : bool) (s : list Z) (f : flags) (r : re) (tl : list atom) : Prop :=
  ow opt s (f_ml f) (f_ci f) (find_captures r) r tl.

(** The fragment: see EvalSem.wf. *)
Definition fragment (f : flags) (r : re) : Prop :=
  wf (f_ci f) (names_of r) [] r = true /\ NoDup (map fst (find_captures r)).

Section Top.
Variable opt : bool.
Variable s : list Z.
Variable f : flags.
Variable r : re.
Hypothesis s_ok : forallb val_ok s = true.
Hypothesis Hfr : fragment f r.

Lemma fresh_sim : forall p, p <= length s ->
  sim s (find_captures r) [] (p, []) (set_start_mark p (fresh r)).
Proof.
  intros p Hp. constructor; cbn [fst snd fresh set_start_mark c0 cl map]; auto.
  - split; [assumption | constructor].
  - rewrite map_map. cbn. apply map_id.
  - constructor.
  - intros id sl _ H. apply find_fresh in H. subst. reflexivity.
  - intros id b [].
Qed.

Definition groups_are (c : caps) (l : log) : Prop :=
  forall id, In id (map fst (find_captures r)) -> id <> 0 -> group c id = lookup id l.

Lemma find_id_some : forall id l, In id (map (fun e : entry => fst (fst e)) l) ->
  exists sl, find_id id l = Some sl.
Proof.
  intros id l. induction l as [|[[i nm] sl] l IH]; cbn; intros H; [contradiction|].
  destruct (Nat.eqb_spec i id); [eauto|]. destruct H; [contradiction|auto].
Qed.

Lemma sim_groups : forall st c, sim s (find_captures r) [] st c -> groups_are c (snd st).
Proof.
  intros st c H id Hin Hid. unfold group, get_id. destruct (Nat.eqb_spec id 0); [contradiction|].
  destruct (find_id_some id (cl c)) as [sl E].
  { rewrite <- (m_ids _ _ _ _ _ H), map_map in Hin. exact Hin. }
  rewrite E. pose proof (m_closed _ _ _ _ _ H id sl (fun x => x) E) as M.
  destruct sl as [sb se sm]. cbn [s_m s_beg s_end] in M. destruct sm.
  - destruct M as (b & e & -> & -> & ->). reflexivity.
  - rewrite M. destruct sb, se; reflexivity.
Qed.

Lemma groups_unmatch : forall c l, groups_are (unmatch c) l -> groups_are c l.
Proof.
  intros c l H id Hin Hid. specialize (H id Hin Hid). unfold group, get_id in *.
  destruct (Nat.eqb_spec id 0); [contradiction|]. exact H.
Qed.

(** One attempt, with terminal part [tl] of the stack. *)
Lemma attempt_first : forall n p tl, p <= length s ->
  wfs (f_ci f) (find_captures r) KAcc [] tl [] ->
  ows opt s (f_ml f) (f_ci f) (find_captures r) tl -> opt_ok opt s f r tl ->
  match eval opt n (arr_view s) (arr_view s) p f (fresh r) (AStart :: AR r :: tl) with
  | Ok c => exists st rest,
      outs s (f_ml f) (f_ci f) (find_captures r) p (AR r :: tl) (p, []) [] = st :: rest /\
      s_end (c0 c) = Some (fst st) /\ groups_are c (snd st)
  | No => outs s (f_ml f) (f_ci f) (find_captures r) p (AR r :: tl) (p, []) [] = []
  | _ => True
  end.
Proof.
  intros n p tl Hp Hw Ho Hopt. destruct Hfr as [F1 F2].
  destruct n as [|n]; [exact I|]. cbn [eval arr_view vconv]. fold (arr_view s).
  destruct (refine_all opt s (f_ml f) (f_ci f) (find_captures r) s_ok F2 n) as (HE & _).
  pose proof (HE KAcc p p [] f (set_start_mark p (fresh r)) (AR r :: tl) [] [] (fresh_sim p Hp)
    (conj F1 Hw) (conj Hopt Ho) (J_other KAcc p (f_block f) p _ ltac:(discriminate))
    eq_refl eq_refl) as H.
  unfold good in H.
  destruct (eval opt n (arr_view s) (arr_view s) p f (set_start_mark p (fresh r)) (AR r :: tl)); auto.
  destruct H as (st & rest & H1 & H2 & H3). exists st, rest. split; [assumption|].
  split; [apply H3; discriminate|]. apply groups_unmatch, sim_groups. assumption.
Qed.

Lemma starts_first : forall n p, p <= length s -> opt_ok opt s f r [AEnd; AAccept] ->
  match attempt opt n s f r p with
  | Ok c => exists st rest, outcomes true s f r p = st :: rest /\
      s_end (c0 c) = Some (fst st) /\ groups_are c (snd st)
  | No => outcomes true s f r p = []
  | _ => True
  end.
Proof.
  intros n p Hp Ho.
  pose proof (attempt_first n p [AEnd; AAccept] Hp (conj eq_refl eq_refl) I Ho) as H.
  cbn [outs] in H. rewrite flat_map_single in H. exact H.
Qed.

Definition at_end_st (st : state) : bool := Nat.eqb (fst st) (length s).

Lemma match_first : forall n p, p <= length s ->
  opt_ok opt s f r [AR (RAssert ASubjectEnd); AEnd; AAccept] ->
  match whole opt n s f r p with
  | Ok c => exists st rest, filter at_end_st (outcomes true s f r p) = st :: rest /\
      s_end (c0 c) = Some (fst st) /\ groups_are c (snd st)
  | No => filter at_end_st (outcomes true s f r p) = []
  | _ => True
  end.
Proof.
  intros n p Hp Ho.
  pose proof (attempt_first n p [AR (RAssert ASubjectEnd); AEnd; AAccept] Hp
    (conj eq_refl (conj eq_refl eq_refl)) (conj I I) Ho) as H.
  replace (outs s (f_ml f) (f_ci f) (find_captures r) p
       [AR r; AR (RAssert ASubjectEnd); AEnd; AAccept] (p, []) [])
    with (filter at_end_st (outcomes true s f r p)) in H; [exact H|].
  cbn [outs]. unfold outcomes, names_of. generalize (enum s (f_ml f) (f_ci f) (name_number (find_captures r)) true r (p, [])).
  induction l as [|x l IH]; [reflexivity|]. cbn [filter flat_map]. rewrite IH.
  cbn [enum holds]. unfold at_end_st, at_end. destruct (Nat.eqb (fst x) (length s)); reflexivity.
Qed.
End Top.

(** Without the optimisation the side condition is void. *)
Lemma ow_noopt : forall s ml ci G r tl, ow false s ml ci G r tl.
Proof.
  intros s ml ci G.
  apply (re_ind2 (fun r => forall tl, ow false s ml ci G r tl)
    (fun l => (forall tl, oseq false s ml ci G l tl) /\ ocyc false s ml ci G l
              /\ forall tl, ow false s ml ci G (RSelect l) tl));
    try (intros; exact I).
  - split; [|split]; intros; exact I.
  - intros r l Hr (H1 & H2 & H3). split; [|split].
    + intros tl. cbn [oseq]. destruct l; [apply Hr|]. split; [apply Hr | apply H1].
    + cbn [ocyc]. split; [apply Hr | assumption].
    + intros tl. rewrite ow_select. split; [apply Hr | apply H3].
  - intros l (_ & _ & H) tl. apply H.
  - intros l (H & _ & _) tl. apply H.
  - intros k a b l (H1 & H2 & H3) tl. rewrite ow_rep. split; [assumption|].
    intros _ H. discriminate.
  - intros i l (H1 & _ & _) tl. apply H1.
  - intros i nm l (H1 & _ & _) tl. apply H1.
  - intros n l (H1 & _ & _) tl. apply H1.
  - intros l (_ & H & _) tl. apply H.
Qed.
