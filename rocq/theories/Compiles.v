(** Which calls are well-formed programs: a check of the pattern that rules the outcome [Ill] out, and
    with termination and memory safety total correctness. *)
From Coq Require Import List ZArith NArith Bool Arith Lia.
From Verif Require Import Chars Syntax First View Eval Api EvalMono EvalInv ApiProofs.
Import ListNotations.

(** * The check *)
(** The templates instantiated for a stack. [G]: the captures of the result type. [conv]: the iterator
    converts to the result iterator (not inside of a lookbehind), [same]: it is the result iterator. *)
Section Check.
Variable opt : bool.
Variable G : list (nat * option (list Z)).

Definition known_id (id : nat) : bool := Nat.eqb id 0 || existsb (fun g => Nat.eqb (fst g) id) G.
Definition known_name (nm : list Z) : bool :=
  existsb (fun g => match snd g with Some n => name_eqb nm n | None => false end) G.
Definition choice_ok (k : rkind) (l : list re) (tl : list atom) : bool :=
  match k with
  | Greedy => match becomes_possessive opt l tl with Some _ => true | None => false end
  | _ => true
  end.

Fixpoint cw (conv same : bool) (r : re) (tl : list atom) : bool :=
  let cseq := fix cseq (conv same : bool) (l : list re) (tl : list atom) : bool :=
    match l with
    | [] => true
    | [x] => cw conv same x tl
    | x :: xs => cw conv same x (AR (RSeq xs) :: tl) && cseq conv same xs tl
    end in
  let ccyc := fix ccyc (conv same : bool) (l : list re) : bool :=
    match l with
    | [] => true
    | x :: xs => cw conv same x (map AR xs ++ [AEndCycle]) && ccyc conv same xs
    end in
  match r with
  | RSelect l =>
      (fix go (l : list re) : bool := match l with [] => true | x :: xs => cw conv same x tl && go xs end) l
  | RSeq l => cseq conv same l tl
  | RRep k a b l => conv && ccyc conv same l && choice_ok k l tl
  | RCap id l | RNCap id _ l => conv && known_id id && cseq conv same l (ANum id :: tl)
  | RBack id => same && known_id id
  | RNBack nm => same && known_name nm
  | RAhead _ l => cseq conv same l [AEndAhead]
  | RBehind _ l => cseq false false l [AEndBehind]
  | RAtomic l => conv && ccyc conv same l
  | _ => true
  end.
Fixpoint cseq (conv same : bool) (l : list re) (tl : list atom) : bool :=
  match l with
  | [] => true
  | [x] => cw conv same x tl
  | x :: xs => cw conv same x (AR (RSeq xs) :: tl) && cseq conv same xs tl
  end.
Fixpoint ccyc (conv same : bool) (l : list re) : bool :=
  match l with
  | [] => true
  | x :: xs => cw conv same x (map AR xs ++ [AEndCycle]) && ccyc conv same xs
  end.

Fixpoint cws (conv same : bool) (stk : list atom) : bool :=
  match stk with
  | [] => true
  | AR r :: tl => cw conv same r tl && cws conv same tl
  | ANum id :: tl => conv && known_id id && cws conv same tl
  | AStart :: tl | AEnd :: tl | AEndCycle :: tl => conv && cws conv same tl
  | _ :: tl => cws conv same tl
  end.

Lemma cws_cycle : forall same l, ccyc true same l = true -> cws true same (cycle l) = true.
Proof.
  intros same l. unfold cycle. induction l as [|x l IH]; cbn [ccyc map app cws]; [reflexivity|].
  intros H. apply andb_true_iff in H as [H1 H2]. rewrite H1, (IH H2). reflexivity.
Qed.
Lemma cws_seq : forall conv same l tl, cseq conv same l tl = true -> cws conv same tl = true ->
  cws conv same (AR (RSeq l) :: tl) = true.
Proof. intros conv same l tl H1 H2. cbn [cws]. rewrite H2, andb_true_r. exact H1. Qed.

(** * It suffices *)
Definition shape (c : caps) : Prop := map fst (cl c) = G.
Definition fine {A} (P : A -> Prop) (x : res A) : Prop :=
  match x with Ok a => P a | Ill => False | _ => True end.
Definition views (conv same : bool) (v w : view) : Prop :=
  (conv = true -> vconv v = true /\ vconv w = true) /\ (same = true -> vsame v = true /\ vsame w = true).

Lemma upd_shape : forall id g c, known_id id = true -> shape c ->
  exists c', upd_caps id g c = Some c' /\ shape c'.
Proof.
  unfold known_id, shape, upd_caps. intros id g c H Hc. destruct (Nat.eqb id 0); [eexists; split; [reflexivity|exact Hc]|].
  cbn [orb] in H.
  assert (E : exists l, upd_id id g (cl c) = Some l).
  { rewrite <- Hc in H. clear Hc. induction (cl c) as [|[[i nm] s] l IH]; cbn [upd_id map existsb fst] in *; [discriminate|].
    destruct (Nat.eqb i id); [eexists; reflexivity|]. cbn [orb] in H. destruct (IH H) as [l' ->]. eexists; reflexivity. }
  destruct E as [l E]. rewrite E. eexists. split; [reflexivity|]. cbn [cl]. rewrite (upd_id_map _ _ _ _ E). exact Hc.
Qed.
Lemma get_shape : forall id c, known_id id = true -> shape c -> exists s, get_id id c = Some s.
Proof.
  unfold known_id, shape, get_id. intros id c H Hc. destruct (Nat.eqb id 0); [eexists; reflexivity|].
  cbn [orb] in H. rewrite <- Hc in H. clear Hc.
  induction (cl c) as [|[[i nm] s] l IH]; cbn [find_id map existsb fst] in *; [discriminate|].
  destruct (Nat.eqb i id); [eexists; reflexivity|]. exact (IH H).
Qed.
Lemma name_shape : forall nm c, known_name nm = true -> shape c -> exists s, get_name nm (cl c) = Some s.
Proof.
  unfold known_name, shape. intros nm c H Hc. rewrite <- Hc in H. clear Hc.
  induction (cl c) as [|[[i [n|]] s] l IH]; cbn [get_name map existsb fst snd] in *; [discriminate| |exact (IH H)].
  destruct (name_eqb nm n); [eexists; reflexivity|]. exact (IH H).
Qed.

Lemma match_range_fine : forall n v cur a b, match_range_loop n v cur a b <> Ill.
Proof.
  induction n as [|n IH]; intros v cur a b; cbn [match_range_loop]; [discriminate|].
  unfold or_ub. destruct (vend v cur) as [e|]; [|discriminate].
  destruct (negb e && negb (Nat.eqb b a)); [|discriminate].
  destruct (vget v cur); [|discriminate]. destruct (vget v a); [|discriminate].
  destruct (Z.eqb _ _); [|discriminate]. destruct (vnext v cur); [|discriminate].
  destruct (vnext v a); [|discriminate]. apply IH.
Qed.
Lemma match_string_fine : forall v ci str cur, match_string v ci str cur <> Ill.
Proof.
  intros v ci. induction str as [|x str IH]; intros cur; cbn [match_string]; [discriminate|].
  unfold or_ub. destruct (vend v cur) as [[]|]; try discriminate. destruct (vget v cur); [|discriminate].
  destruct (vnext v cur); [|discriminate]. destruct (match_lit ci x z); [apply IH|discriminate].
Qed.
Lemma assert_fine : forall v ml a cur, eval_assert v ml a cur <> Ill.
Proof.
  intros v ml a cur. unfold eval_assert, or_ub.
  destruct a; repeat match goal with |- context [match ?x with _ => _ end] => destruct x end; discriminate.
Qed.
Lemma around_fine : forall v ci k cur, around v ci k cur <> Ill.
Proof.
  intros v ci k cur. unfold around, or_ub.
  repeat match goal with |- context [match ?x with _ => _ end] => destruct x end; discriminate.
Qed.

Lemma no_ill : forall n,
  (forall v w cur f c stk conv same, views conv same v w -> shape c -> cws conv same stk = true ->
     fine shape (eval opt n v w cur f c stk)) /\
  (forall v w cur f c a i l same, views true same v w -> shape c -> ccyc true same l = true ->
     fine (fun x => shape (snd x)) (req_loop opt n v w cur f c a i l)) /\
  (forall v w cur f c b i l tl same, views true same v w -> shape c -> ccyc true same l = true ->
     cws true same tl = true -> fine shape (lazy_loop opt n v w cur f c b i l tl)) /\
  (forall v w st cur f c a b i l tl same, views true same v w -> shape c -> ccyc true same l = true ->
     cws true same tl = true -> fine shape (poss_loop opt n v w st cur f c a b i l tl)) /\
  (forall v w cur f c b i l tl same, views true same v w -> shape c -> ccyc true same l = true ->
     cws true same tl = true -> fine shape (rec_loop opt n v w cur f c b i l tl)).
Proof.
  induction n as [|n (IE & IR & IL & IP & IC)]; [repeat split; intros; exact I|].
  assert (Cyc : forall v w cur f c l same, views true same v w -> shape c -> ccyc true same l = true ->
     fine shape (eval opt n v w cur f c (cycle l))).
  { intros. eapply IE; [eassumption|assumption|]. apply cws_cycle. assumption. }
  split; [|split; [|split; [|split]]].
  2:{ intros v w cur f c a i l same Hv Hc Hl. cbn [req_loop]. destruct (less_than a i); [|exact Hc].
      pose proof (Cyc v w cur (not_empty_match f) c l same Hv Hc Hl) as H.
      destruct (eval opt n v w cur (not_empty_match f) c (cycle l)) as [c'| | | |]; cbn [fine] in *; auto.
      unfold or_ub. destruct (s_end (c0 c')); [|exact I]. eapply IR; eassumption. }
  2:{ intros v w cur f c b i l tl same Hv Hc Hl Ht. cbn [lazy_loop].
      destruct (less_than_or_infinite b i); [|eapply IE; eassumption].
      pose proof (Cyc v w cur (not_empty_match f) c l same Hv Hc Hl) as H.
      destruct (eval opt n v w cur (not_empty_match f) c (cycle l)) as [c'| | | |]; cbn [fine] in *; auto.
      unfold or_ub. destruct (s_end (c0 c')) as [p|]; [|exact I].
      assert (Hw : views true same w w) by (destruct Hv as [V1 V2]; split; intros e; [destruct (V1 e)|destruct (V2 e)]; auto).
      pose proof (IE w w p (consumed_something f true) (unmatch c') tl true same Hw H Ht) as H1.
      destruct (eval opt n w w p (consumed_something f true) (unmatch c') tl); auto.
      eapply IL; eassumption. }
  2:{ intros v w st cur f c a b i l tl same Hv Hc Hl Ht. cbn [poss_loop].
      destruct (less_than_or_infinite b i); [|eapply IE; eassumption].
      pose proof (Cyc v w cur (not_empty_match f) c l same Hv Hc Hl) as H.
      destruct (eval opt n v w cur (not_empty_match f) c (cycle l)) as [c'| | | |]; cbn [fine] in *; auto.
      - unfold or_ub. destruct (s_end (c0 c')); [|exact I]. eapply IP; eassumption.
      - destruct (less_than a i); [exact I|]. eapply IE; eassumption. }
  2:{ intros v w cur f c b i l tl same Hv Hc Hl Ht. cbn [rec_loop].
      destruct (less_than_or_infinite b i); [|eapply IE; eassumption].
      pose proof (Cyc v w cur (not_empty_match f) c l same Hv Hc Hl) as H.
      destruct (eval opt n v w cur (not_empty_match f) c (cycle l)) as [c'| | | |]; cbn [fine] in *; auto.
      - unfold or_ub. destruct (s_end (c0 c')) as [p|]; [|exact I].
        pose proof (IC v w p f (unmatch c') b (N.succ i) l tl same Hv H Hl Ht) as H1.
        destruct (rec_loop opt n v w p f (unmatch c') b (N.succ i) l tl); auto. eapply IE; eassumption.
      - eapply IE; eassumption. }
  intros v w cur f c stk conv same Hv Hc Hs.
  assert (Ve : conv = true -> vconv v = true) by (intros e; exact (proj1 (proj1 Hv e))).
  assert (Vs : same = true -> vsame v = true) by (intros e; exact (proj1 (proj2 Hv e))).
  destruct stk as [|a tl]; [exact I|].
  destruct a as [r| | | | | | |id]; cbn [cws] in Hs.
  2:{ cbn [eval]. destruct tl; [exact Hc|exact I]. }
  2:{ apply andb_true_iff in Hs as [-> Hs]. cbn [eval]. rewrite (Ve eq_refl). eapply IE; eassumption. }
  2:{ apply andb_true_iff in Hs as [-> Hs]. cbn [eval]. rewrite (Ve eq_refl). eapply IE; eassumption. }
  2:{ apply andb_true_iff in Hs as [-> Hs]. cbn [eval]. destruct tl; [|exact I]. rewrite (Ve eq_refl). cbn [negb].
      destruct (f_block f); [exact I|exact Hc]. }
  2:{ cbn [eval]. destruct tl; [exact Hc|exact I]. }
  2:{ cbn [eval]. destruct tl; [exact Hc|exact I]. }
  2:{ apply andb_true_iff in Hs as [Hs Ht]. apply andb_true_iff in Hs as [-> Hs]. cbn [eval]. rewrite (Ve eq_refl).
      destruct (upd_shape id (fun s => mkSlot (s_beg s) (Some cur) true) c Hs Hc) as (c' & E & Hc').
      unfold end_capture. rewrite E. cbn [or_ill]. eapply IE; eassumption. }
  apply andb_true_iff in Hs as [Hr Ht].
  assert (Go : forall v' w' cur' f' c' stk', views conv same v' w' -> shape c' -> cws conv same stk' = true ->
    fine shape (eval opt n v' w' cur' f' c' stk')) by (intros; eapply IE; eassumption).
  destruct r as [k| |str|l|l| | |k a b l|id l|id nm l|id|nm|neg l|neg l|l|k|k|a|m].
  - cbn [eval]. unfold or_ub. destruct (vend v cur) as [[]|]; try exact I. destruct (vget v cur); [|exact I].
    destruct (match_cls (f_ci f) k z); [|exact I]. destruct (vnext v cur); [|exact I]. apply Go; assumption.
  - cbn [eval]. unfold or_ub. destruct (vend v cur) as [[]|]; try exact I.
    destruct (if f_ml f then _ else _) as [[]|]; try exact I. destruct (vnext v cur); [|exact I]. apply Go; assumption.
  - cbn [eval]. pose proof (match_string_fine v (f_ci f) str cur) as H.
    destruct (match_string v (f_ci f) str cur); try exact I; [|congruence]. apply Go; assumption.
  - cbn [eval]. destruct l as [|x xs]; [exact I|]. cbn [cw] in Hr. apply andb_true_iff in Hr as [H1 H2].
    assert (Hx : fine shape (eval opt n v w cur f c (AR x :: tl))) by (apply Go; [assumption..|cbn [cws]; rewrite H1, Ht; reflexivity]).
    destruct (eval opt n v w cur f c (AR x :: tl)); auto.
    apply Go; [assumption..|]. cbn [cws]. rewrite Ht, andb_true_r. exact H2.
  - destruct l as [|x xs]; [exact I|]. change (cseq conv same (x :: xs) tl = true) in Hr.
    cbn [eval]. destruct xs as [|y ys].
    + apply Go; [assumption..|]. cbn [cws]. cbn [cseq] in Hr. rewrite Hr, Ht. reflexivity.
    + cbn [cseq] in Hr. apply andb_true_iff in Hr as [H1 H2]. apply Go; [assumption..|].
      cbn [cws]. rewrite H1. cbn [andb]. apply cws_seq; assumption.
  - cbn [eval]. apply Go; assumption.
  - exact I.
  - change (conv && ccyc conv same l && choice_ok k l tl = true) in Hr.
    apply andb_true_iff in Hr as [Hr Hk]. apply andb_true_iff in Hr as [-> Hl].
    cbn [eval]. destruct (negb (N.eqb b 0) && N.ltb b a); [exact I|]. destruct k.
    + cbn [choice_ok] in Hk. destruct (becomes_possessive opt l tl) as [[]|]; [| |discriminate].
      * apply Go; [assumption..|]. cbn [cws]. rewrite Ht, andb_true_r. cbn [cw choice_ok]. rewrite andb_true_r. exact Hl.
      * rewrite (Ve eq_refl). cbn [negb].
        pose proof (IR v w cur f c a 0%N l same Hv Hc Hl) as H.
        destruct (req_loop opt n v w cur f c a 0 l) as [[p c']| | | |]; auto. cbn [fine snd] in H.
        eapply IC; eassumption.
    + rewrite (Ve eq_refl). cbn [negb].
      pose proof (IR v w cur f c a 0%N l same Hv Hc Hl) as H.
      destruct (req_loop opt n v w cur f c a 0 l) as [[p c']| | | |]; auto. cbn [fine snd] in H.
      pose proof (Go v w p (consumed_something f (negb (Nat.eqb cur p))) c' tl Hv H Ht) as H1.
      destruct (eval opt n v w p (consumed_something f (negb (Nat.eqb cur p))) c' tl); auto. eapply IL; eassumption.
    + rewrite (Ve eq_refl). cbn [negb]. eapply IP; eassumption.
  - change (conv && known_id id && cseq conv same l (ANum id :: tl) = true) in Hr.
    apply andb_true_iff in Hr as [Hr Hl]. apply andb_true_iff in Hr as [-> Hk].
    cbn [eval]. rewrite (Ve eq_refl). unfold start_capture.
    destruct (upd_shape id (fun s => mkSlot (Some cur) (s_end s) (s_m s)) c Hk Hc) as (c' & -> & Hc'). cbn [or_ill].
    apply Go; [assumption..|]. apply cws_seq; [exact Hl|]. cbn [cws]. rewrite Hk, Ht. reflexivity.
  - change (conv && known_id id && cseq conv same l (ANum id :: tl) = true) in Hr.
    apply andb_true_iff in Hr as [Hr Hl]. apply andb_true_iff in Hr as [-> Hk].
    cbn [eval]. rewrite (Ve eq_refl). unfold start_capture.
    destruct (upd_shape id (fun s => mkSlot (Some cur) (s_end s) (s_m s)) c Hk Hc) as (c' & -> & Hc'). cbn [or_ill].
    apply Go; [assumption..|]. apply cws_seq; [exact Hl|]. cbn [cws]. rewrite Hk, Ht. reflexivity.
  - cbn [cw] in Hr. apply andb_true_iff in Hr as [-> Hk]. cbn [eval]. rewrite (Vs eq_refl). cbn [negb].
    destruct (get_shape id c Hk Hc) as (sl & ->). cbn [or_ill]. destruct (s_m sl); [|exact I].
    unfold or_ub. destruct (s_beg sl); [|exact I]. destruct (s_end sl); [|exact I].
    match goal with |- fine _ (match match_range_loop ?n ?v ?p ?a ?b with _ => _ end) =>
      pose proof (match_range_fine n v p a b) as H; destruct (match_range_loop n v p a b) as [[p' []]| | | |] end;
      try exact I; [|congruence]. apply Go; assumption.
  - cbn [cw] in Hr. apply andb_true_iff in Hr as [-> Hk]. cbn [eval]. rewrite (Vs eq_refl). cbn [negb].
    destruct (name_shape nm c Hk Hc) as (sl & ->). cbn [or_ill]. destruct (s_m sl); [|exact I].
    unfold or_ub. destruct (s_beg sl); [|exact I]. destruct (s_end sl); [|exact I].
    match goal with |- fine _ (match match_range_loop ?n ?v ?p ?a ?b with _ => _ end) =>
      pose proof (match_range_fine n v p a b) as H; destruct (match_range_loop n v p a b) as [[p' []]| | | |] end;
      try exact I; [|congruence]. apply Go; assumption.
  - change (cseq conv same l [AEndAhead] = true) in Hr.
    pose proof (Go v w cur f c [AR (RSeq l); AEndAhead] Hv Hc (cws_seq _ _ _ _ Hr eq_refl)) as H.
    destruct neg; cbn [eval]; destruct (eval opt n v w cur f c [AR (RSeq l); AEndAhead]); auto;
      try exact I; apply Go; assumption.
  - change (cseq false false l [AEndBehind] = true) in Hr.
    assert (Hv' : views false false (rev_view v) w) by (split; discriminate).
    pose proof (IE (rev_view v) w cur f c [AR (RSeq l); AEndBehind] false false Hv' Hc (cws_seq _ _ _ _ Hr eq_refl)) as H.
    destruct neg; cbn [eval]; destruct (eval opt n (rev_view v) w cur f c [AR (RSeq l); AEndBehind]); auto;
      try exact I; apply Go; assumption.
  - cbn [eval]. apply Go; [assumption..|]. cbn [cws]. rewrite Ht, andb_true_r.
    cbn [cw choice_ok]. rewrite andb_true_r. exact Hr.
  - cbn [eval]. pose proof (around_fine v (f_ci f) k cur) as H.
    destruct (around v (f_ci f) k cur) as [[x y]| | | |]; try exact I; [|congruence].
    destruct (Bool.eqb x y); [exact I|]. apply Go; assumption.
  - cbn [eval]. pose proof (around_fine v (f_ci f) k cur) as H.
    destruct (around v (f_ci f) k cur) as [[x y]| | | |]; try exact I; [|congruence].
    destruct (Bool.eqb x y); [|exact I]. apply Go; assumption.
  - cbn [eval]. pose proof (assert_fine v (f_ml f) a cur) as H.
    destruct (eval_assert v (f_ml f) a cur) as [[]| | | |]; try exact I; [|congruence]. apply Go; assumption.
  - cbn [eval]. apply Go; assumption.
Qed.
End Check.

(** * The calls *)
(** [same]: backreferences compare with the subject's own iterators (not on UTF-8 subjects). *)
Definition compiles (opt same : bool) (r : re) (tl : list atom) : bool :=
  cws opt (find_captures r) true same (AR r :: tl).

Section Calls.
Variables (opt same : bool) (v w : view) (f : flags) (r : re).
Hypothesis Hv : views true same v w.

Lemma fresh_shape : shape (find_captures r) (fresh r).
Proof. unfold shape, fresh. cbn [cl]. rewrite map_map. apply map_id. Qed.
Lemma attempt_fine : forall n p tl, compiles opt same r tl = true ->
  fine (shape (find_captures r)) (eval opt n v w p f (fresh r) (AStart :: AR r :: tl)).
Proof.
  intros n p tl H. destruct (no_ill opt (find_captures r) n) as (HE & _).
  apply (HE v w p f (fresh r) (AStart :: AR r :: tl) true same Hv fresh_shape). exact H.
Qed.
Lemma match_no_ill : forall n p, compiles opt same r [AR (RAssert ASubjectEnd); AEnd; AAccept] = true ->
  exec_match opt n v w f r p <> Ill.
Proof.
  intros n p H. pose proof (attempt_fine n p _ H) as F. unfold exec_match.
  destruct (eval opt n v w p f (fresh r) _); cbn [returned]; try discriminate. destruct F.
Qed.
Lemma starts_no_ill : forall n p, compiles opt same r [AEnd; AAccept] = true ->
  exec_starts_with opt n v w f r p <> Ill.
Proof.
  intros n p H. pose proof (attempt_fine n p _ H) as F. unfold exec_starts_with.
  destruct (eval opt n v w p f (fresh r) _); cbn [returned]; try discriminate. destruct F.
Qed.
Lemma search_no_ill : forall n p, compiles opt same r [AEnd; AAccept] = true ->
  exec_search opt n v w f r p <> Ill.
Proof.
  intros n p H. unfold exec_search.
  assert (X : forall m p, search_loop opt n v w f r m p <> Ill); [|apply X].
  clear p. induction m as [|m IH]; intros p; cbn [search_loop]; [discriminate|].
  pose proof (attempt_fine n p _ H) as F. unfold or_ub. destruct (vend v p) as [e|]; [|discriminate].
  destruct (negb e && negb (starts_with_anchor f r)).
  - destruct (eval opt n v w p f (fresh r) _); try discriminate; [|destruct F].
    destruct (vnext v p); [apply IH|discriminate].
  - unfold search_last. destruct (eval opt n v w p f (fresh r) _); try discriminate. destruct F.
Qed.
End Calls.
