(** Main refinement: on a contiguous subject the evaluator returns the first outcome of the
    specification [enum] with the library's discipline ([cut = true]), or fails exactly when there is
    none. *)
From Coq Require Import List ZArith NArith Bool Lia Arith ZifyBool ZifyN ZifyNat.
From Verif Require Import Chars Syntax First View Eval Spec CharProofs EvalInv EvalSem SpecProps.
Import ListNotations.

(** What the stack ends with. *)
Inductive fkind := KAcc | KCyc | KAhead.

Section Refine.
Variable opt : bool.
Variable s : list Z.
Variables ml ci : bool.
Variable G : list (nat * option (list Z)).
Hypothesis s_ok : forallb val_ok s = true.
Hypothesis G_dup : NoDup (map fst G).

Notation names := (name_number G).
Notation enum := (enum s ml ci names true).
Notation enums := (enums s ml ci names true).
Notation v := (arr_view s).
Notation len := (length s).
Notation wf := (wf ci names).

(** Final outcomes of a stack. [p0]: where the current iteration started; [O]: the open groups. *)
Fixpoint outs (p0 : nat) (stk : list atom) (st : state) (O : list (nat * nat)) : list state :=
  match stk with
  | AR r :: tl => flat_map (fun st' => outs p0 tl st' O) (enum r st)
  | ANum id :: tl =>
      match O with
      | (i, b) :: O' => outs p0 tl (fst st, (id, (b, fst st)) :: snd st) O'
      | [] => []
      end
  | AEnd :: tl => outs p0 tl st O
  | [AAccept] | [AEndAhead] => [st]
  | [AEndCycle] => if Nat.ltb p0 (fst st) then [st] else []
  | _ => []
  end.

Notation st_ok := (st_ok s).

(** The greedy optimisation at one repetition with content [l] before the stack [tl]. *)
Definition opt_pair (a b : N) (l : list re) (tl : list atom) : Prop :=
  becomes_possessive opt l tl = Some true ->
  forall p0 st O, st_ok st -> Forall (fun e => snd e <= fst st) O ->
    hd_error (outs p0 (AR (RRep Greedy a b l) :: tl) st O)
    = hd_error (outs p0 (AR (RRep Possessive a b l) :: tl) st O).

(** ... at every repetition inside [r], evaluated before [tl]. *)
Fixpoint ow (r : re) (tl : list atom) : Prop :=
  let oseq := fix oseq (l : list re) (tl : list atom) : Prop :=
    match l with
    | [] => True
    | [x] => ow x tl
    | x :: xs => ow x (AR (RSeq xs) :: tl) /\ oseq xs tl
    end in
  let ocyc := fix ocyc (l : list re) : Prop :=
    match l with
    | [] => True
    | x :: xs => ow x (map AR xs ++ [AEndCycle]) /\ ocyc xs
    end in
  match r with
  | RSelect l => (fix oall (l : list re) : Prop :=
                    match l with [] => True | x :: xs => ow x tl /\ oall xs end) l
  | RSeq l => oseq l tl
  | RRep k a b l => ocyc l /\ (k = Greedy -> opt_pair a b l tl)
  | RCap id l | RNCap id _ l => oseq l (ANum id :: tl)
  | RAhead _ l => oseq l [AEndAhead]
  | RAtomic l => ocyc l
  | _ => True
  end.
Fixpoint ows (stk : list atom) : Prop :=
  match stk with
  | [] => True
  | AR r :: tl => ow r tl /\ ows tl
  | _ :: tl => ows tl
  end.

(** Well-formed stacks; [O0]: groups open after the stack. *)
Fixpoint wfs (K : fkind) (O : list (nat * nat)) (stk : list atom) (O0 : list (nat * nat)) : Prop :=
  match stk with
  | AR r :: tl => wf (map fst O) r = true /\ wfs K O tl O0
  | ANum id :: tl => match O with (i, _) :: O' => i = id /\ wfs K O' tl O0 | [] => False end
  | [AEnd; AAccept] => K = KAcc /\ O = O0
  | [AEndCycle] => K = KCyc /\ O = O0
  | [AEndAhead] => K = KAhead /\ O = O0
  | _ => False
  end.

Fixpoint snonnull (stk : list atom) : bool :=
  match stk with [] => false | AR r :: tl => nonnull r || snonnull tl | _ :: tl => snonnull tl end.
Fixpoint saccurate (stk : list atom) : bool :=
  match stk with [] => true | AR r :: tl => accurate r && saccurate tl | _ :: tl => saccurate tl end.

(** The flag against the progress made since the iteration started. *)
Definition J (K : fkind) (p0 : nat) (block : bool) (p : nat) (stk : list atom) : Prop :=
  K = KCyc ->
  p0 <= p /\ (p0 < p -> block = false) /\
  (p = p0 -> snonnull stk = true \/ (block = true /\ saccurate stk = true)).

(** The captures against the log and the open groups. *)
Record sim (O : list (nat * nat)) (st : state) (c : caps) : Prop := {
  m_st : st_ok st;
  m_ids : map fst (cl c) = G;
  m_c0 : s_m (c0 c) = false;
  m_dup : NoDup (map fst O);
  m_zero : ~ In 0 (map fst O);
  m_closed : forall id sl, ~ In id (map fst O) -> find_id id (cl c) = Some sl ->
    if s_m sl then exists b e, s_beg sl = Some b /\ s_end sl = Some e /\ lookup id (snd st) = Some (b, e)
    else lookup id (snd st) = None;
  m_open : forall id b, In (id, b) O ->
    b <= fst st /\ exists sl, find_id id (cl c) = Some sl /\ s_beg sl = Some b
}.

Lemma sim_move : forall O p L c p', sim O (p, L) c -> p <= p' <= len -> sim O (p', L) c.
Proof.
  intros O p L c p' Hs Hp. destruct Hs as [S1 S2 S3 S4 S5 S6 S7]. constructor; auto.
  - destruct S1. split; [apply Hp|assumption].
  - intros id b Hin. destruct (S7 id b Hin) as [H1 H2]. cbn in *. split; [lia|assumption].
Qed.
Lemma sim_c0 : forall O st c c', sim O st c -> cl c' = cl c -> s_m (c0 c') = false -> sim O st c'.
Proof.
  intros O st c c' Hs E Hm. destruct Hs as [S1 S2 S3 S4 S5 S6 S7].
  constructor; rewrite ?E; auto.
Qed.
Lemma sim_pos : forall O p L c, sim O (p, L) c -> p <= len.
Proof. intros O p L c Hs. apply (m_st _ _ _ Hs). Qed.

Lemma sim_start : forall O p L c id c', sim O (p, L) c -> not_in id (map fst O) = true ->
  start_capture id p c = Some c' -> sim ((id, p) :: O) (p, L) c'.
Proof.
  intros O p L c id c' Hs Hn H. apply not_in_spec in Hn as [H0 Hn].
  destruct Hs as [S1 S2 S3 S4 S5 S6 S7].
  unfold start_capture, upd_caps in H. apply Nat.eqb_neq in H0 as H0'. rewrite H0' in H.
  destruct (upd_id id _ (cl c)) as [l|] eqn:E; [|discriminate]. injection H as <-.
  pose proof (upd_id_map _ _ _ _ E) as Em.
  destruct (find_upd_same _ _ _ _ E) as (sl & F1 & F2).
  constructor; cbn [c0 cl map fst snd]; auto.
  - congruence.
  - constructor; assumption.
  - intros [H|H]; congruence.
  - intros id' sl' Hni Hf.
    assert (Hne : id <> id') by (intros ->; apply Hni; left; reflexivity).
    rewrite (find_upd_other id id' _ _ _ Hne E) in Hf. apply S6; auto. intros Hin. apply Hni. right. assumption.
  - intros id' b [Hin|Hin].
    + injection Hin as <- <-. split; [reflexivity|]. eauto.
    + destruct (S7 id' b Hin) as (H1 & sl' & H2 & H3). split; [assumption|].
      exists sl'. split; [|assumption].
      assert (Hne : id <> id')
        by (intros ->; apply Hn; apply in_map_iff; exists (id', b); auto).
      rewrite (find_upd_other id id' _ _ _ Hne E). assumption.
Qed.

Lemma sim_end : forall O p L c id b c', sim ((id, b) :: O) (p, L) c ->
  end_capture id p c = Some c' -> sim O (p, (id, (b, p)) :: L) c'.
Proof.
  intros O p L c id b c' Hs H.
  destruct Hs as [S1 S2 S3 S4 S5 S6 S7]. cbn [map fst snd] in *.
  inversion S4 as [|x y Hn Hd]; subst.
  assert (H0 : id <> 0) by (intros ->; apply S5; left; reflexivity).
  unfold end_capture, upd_caps in H. apply Nat.eqb_neq in H0 as H0'. rewrite H0' in H.
  destruct (upd_id id _ (cl c)) as [l|] eqn:E; [|discriminate]. injection H as <-.
  pose proof (upd_id_map _ _ _ _ E) as Em.
  destruct (find_upd_same _ _ _ _ E) as (sl & F1 & F2).
  destruct (S7 id b ltac:(left; reflexivity)) as (Hb & sl' & F3 & F4).
  rewrite F1 in F3. injection F3 as <-.
  constructor; cbn [c0 cl fst snd]; auto.
  - destruct S1 as [T1 T2]. cbn [fst snd] in *. split; [assumption|].
    constructor; [cbn; lia | assumption].
  - congruence.
  - intros Hin. apply S5. right. assumption.
  - intros id' sl' Hni Hf. cbn [lookup].
    destruct (Nat.eqb_spec id id') as [->|Hne].
    + rewrite F2 in Hf. injection Hf as <-. cbn. eauto.
    + rewrite (find_upd_other id id' _ _ _ Hne E) in Hf.
      apply S6; auto. intros [Hin|Hin]; [congruence|auto].
  - intros id' b' Hin. destruct (S7 id' b' ltac:(right; assumption)) as (H1 & sl' & H2 & H3).
    split; [assumption|]. exists sl'. split; [|assumption].
    assert (Hne : id <> id')
      by (intros ->; apply Hn; apply in_map_iff; exists (id', b'); auto).
    rewrite (find_upd_other id id' _ _ _ Hne E). assumption.
Qed.

Lemma names_find : forall nm l sl, map fst l = G -> get_name nm l = Some sl ->
  exists id, names nm = Some id /\ find_id id l = Some sl.
Proof.
  intros nm l sl El. revert sl. pose proof G_dup as Hd. rewrite <- El in Hd |- *.
  rewrite map_map in Hd. clear El.
  induction l as [|[[i n0] s0] l IH]; cbn; intros sl H; [discriminate|].
  inversion Hd as [|x y Hni Hd']; subst.
  destruct n0 as [n0|].
  - unfold name_eqb in H. destruct (list_eq_dec Z.eq_dec nm n0).
    + injection H as <-. exists i. rewrite Nat.eqb_refl. auto.
    + destruct (IH Hd' _ H) as (id & I1 & I2). exists id. split; [assumption|].
      destruct (Nat.eqb_spec i id) as [->|]; [|assumption]. exfalso. apply Hni.
      destruct (get_name_in _ _ _ H) as [id' Hin].
      clear - I2. induction l as [|[[j m] t] l IHl]; cbn in *; [discriminate|].
      destruct (Nat.eqb_spec j id); [left; assumption | right; auto].
  - destruct (IH Hd' _ H) as (id & I1 & I2). exists id. split; [assumption|].
    destruct (Nat.eqb_spec i id) as [->|]; [|assumption]. exfalso. apply Hni.
    clear - I2. induction l as [|[[j m] t] l IHl]; cbn in *; [discriminate|].
    destruct (Nat.eqb_spec j id); [left; assumption | right; auto].
Qed.

(** ** Outcomes *)
Lemma outs_cycle : forall p0 l st O,
  outs p0 (cycle l) st O = filter (fun st' => Nat.ltb p0 (fst st')) (enums l st).
Proof.
  unfold cycle. induction l as [|x l IH]; intros st O.
  - cbn. destruct (Nat.ltb p0 (fst st)); reflexivity.
  - cbn [map app outs]. rewrite enums_cons, filter_flat_map. apply flat_map_ext_all.
    intros st'. apply IH.
Qed.

Lemma outs_ahead : forall p0 l st O, outs p0 [AR (RSeq l); AEndAhead] st O = enums l st.
Proof. intros p0 l st O. cbn [outs]. rewrite enum_seq. apply flat_map_single. Qed.

Lemma outs_seq : forall p0 x xs tl st O,
  outs p0 (AR (RSeq (x :: xs)) :: tl) st O = outs p0 (AR x :: AR (RSeq xs) :: tl) st O.
Proof.
  intros. cbn [outs]. rewrite enum_seq, enums_cons, flat_map_flat. apply flat_map_ext_all.
  intros st'. rewrite enum_seq. reflexivity.
Qed.
Lemma outs_seq1 : forall p0 x tl st O,
  outs p0 (AR (RSeq [x]) :: tl) st O = outs p0 (AR x :: tl) st O.
Proof.
  intros. rewrite outs_seq. cbn [outs]. apply flat_map_ext_all. intros st'.
  rewrite enum_seq. cbn [Spec.enums]. apply flat_map_one.
Qed.
Lemma outs_cap : forall p0 id l tl st O,
  flat_map (fun st' => outs p0 tl st' O)
    (map (fun st' => (fst st', (id, (fst st, fst st')) :: snd st')) (enums l st))
  = outs p0 (AR (RSeq l) :: ANum id :: tl) st ((id, fst st) :: O).
Proof. intros. rewrite flat_map_map. cbn [outs]. rewrite enum_seq. reflexivity. Qed.

(** ** Loops under the discipline *)
Definition one (l : list re) (st : state) : list state :=
  firstn 1 (filter (advances st) (enums l st)).
Notation mand l := (mandatory true (enums l)).
Notation mg l := (more_greedy true (enums l)).
Notation mz l := (more_lazy true (enums l)).

Lemma mand_S : forall l k st, mand l (S k) st = flat_map (mand l k) (one l st).
Proof. reflexivity. Qed.

Lemma one_shape : forall l st, one l st = [] \/ exists st', one l st = [st'] /\ fst st < fst st'.
Proof.
  intros l st. unfold one. destruct (filter (advances st) (enums l st)) as [|x xs] eqn:E; [auto|].
  right. exists x. split; [reflexivity|].
  assert (In x (filter (advances st) (enums l st))) by (rewrite E; left; reflexivity).
  apply filter_In in H as [_ H]. apply Nat.ltb_lt in H. assumption.
Qed.

Lemma mg_S : forall l k b i st, mg l (S k) b i st =
  (if N.eqb b 0 || N.ltb i b then flat_map (mg l k b (N.succ i)) (one l st) else []) ++ [st].
Proof. reflexivity. Qed.
Lemma mz_S : forall l k b i st, mz l (S k) b i st =
  st :: (if N.eqb b 0 || N.ltb i b then flat_map (mz l k b (N.succ i)) (one l st) else []).
Proof. reflexivity. Qed.

(** Outcomes of a possessive repetition after [i] iterations. *)
Definition pv (l : list re) (a b i : N) (st : state) : list state :=
  flat_map (fun x => mg l (S (len - fst x)) b (N.max a i) x) (mand l (N.to_nat (a - i)) st).

Lemma mg_nonempty : forall l k b i st, mg l (S k) b i st <> [].
Proof. intros. rewrite mg_S. intros H. apply app_eq_nil in H as [_ H]. discriminate. Qed.

Lemma one_ok : forall l st st', st_ok st -> one l st = [st'] -> st_ok st' /\ fst st < fst st'.
Proof.
  intros l st st' Hs H. assert (Hin : In st' (one l st)) by (rewrite H; left; reflexivity).
  unfold one in Hin. apply firstn1_in in Hin. apply filter_In in Hin as [H1 H2].
  apply Nat.ltb_lt in H2. split; [|assumption].
  exact (proj1 (enums_forth _ _ _ _ _ _ _ _ H1 Hs)).
Qed.

Lemma firstn1_app : forall A (l1 l2 : list A), l1 <> [] -> firstn 1 (l1 ++ l2) = firstn 1 l1.
Proof. intros A [|x l1] l2 H; [congruence|reflexivity]. Qed.

Lemma pv_step : forall l a b i st st', st_ok st -> (b = 0 \/ a <= b)%N ->
  (N.eqb b 0 || N.ltb i b)%bool = true -> one l st = [st'] ->
  firstn 1 (pv l a b i st) = firstn 1 (pv l a b (N.succ i) st').
Proof.
  intros l a b i st st' Hs Hab Hlim H1. destruct (one_ok _ _ _ Hs H1) as [Hs' Hlt]. unfold pv.
  destruct (N.ltb_spec i a) as [Hi|Hi].
  - replace (N.to_nat (a - i)) with (S (N.to_nat (a - N.succ i))) by lia.
    rewrite mand_S, H1, flat_map_one.
    replace (N.max a i) with a by lia. replace (N.max a (N.succ i)) with a by lia. reflexivity.
  - replace (a - i)%N with 0%N by lia. replace (a - N.succ i)%N with 0%N by lia.
    replace (N.max a i) with i by lia. replace (N.max a (N.succ i)) with (N.succ i) by lia.
    cbn [N.to_nat mandatory]. rewrite !flat_map_one. rewrite mg_S, Hlim, H1, flat_map_one.
    assert (Hl : len - fst st = S (len - fst st - 1)) by (destruct Hs'; lia).
    rewrite firstn1_app by (rewrite Hl; apply mg_nonempty). f_equal.
    apply (greedy_fuel s names true); [apply enums_forth | assumption | destruct Hs'; lia | lia].
Qed.

Lemma pv_stop : forall l a b i st, (a <= i)%N ->
  ((N.eqb b 0 || N.ltb i b)%bool = false \/ one l st = []) -> pv l a b i st = [st].
Proof.
  intros l a b i st Hi H. unfold pv. replace (a - i)%N with 0%N by lia.
  replace (N.max a i) with i by lia. cbn [N.to_nat mandatory]. rewrite flat_map_one, mg_S.
  destruct H as [-> | ->]; [reflexivity|]. destruct (N.eqb b 0 || N.ltb i b)%bool; reflexivity.
Qed.
Lemma pv_fail : forall l a b i st, (i < a)%N -> one l st = [] -> pv l a b i st = [].
Proof.
  intros l a b i st Hi H. unfold pv.
  replace (N.to_nat (a - i)) with (S (N.to_nat (a - N.succ i))) by lia.
  rewrite mand_S, H. reflexivity.
Qed.

Lemma iterate_pv : forall k a b l st, (negb (N.eqb b 0) && N.ltb b a)%bool = false ->
  iterate s true (enums l) k a b st =
  match k with
  | Greedy => pv l a b 0 st
  | Possessive => firstn 1 (pv l a b 0 st)
  | Lazy => flat_map (fun x => mz l (S (len - fst x)) b a x) (mand l (N.to_nat a) st)
  end.
Proof.
  intros k a b l st H. unfold iterate, pv. rewrite H. rewrite N.sub_0_r.
  replace (N.max a 0) with a by lia. reflexivity.
Qed.

Lemma atomic_pv : forall l st, enum (RAtomic l) st = enum (RRep Possessive 1 1 l) st.
Proof.
  intros l st. rewrite enum_atomic, enum_rep, iterate_pv by reflexivity.
  unfold pv. change (N.to_nat (1 - 0)) with 1. change (N.max 1 0) with 1%N.
  cbn [mandatory keep progress]. rewrite flat_map_single.
  destruct (filter (advances st) (enums l st)) as [|x xs]; [reflexivity|].
  cbn [firstn flat_map]. reflexivity.
Qed.

(** ** Side conditions under unfolding *)
Fixpoint oseq (l : list re) (tl : list atom) : Prop :=
  match l with
  | [] => True
  | [x] => ow x tl
  | x :: xs => ow x (AR (RSeq xs) :: tl) /\ oseq xs tl
  end.
Fixpoint ocyc (l : list re) : Prop :=
  match l with
  | [] => True
  | x :: xs => ow x (map AR xs ++ [AEndCycle]) /\ ocyc xs
  end.
Lemma ow_seq : forall l tl, ow (RSeq l) tl = oseq l tl.
Proof. reflexivity. Qed.
Lemma ow_select : forall x xs tl, ow (RSelect (x :: xs)) tl = (ow x tl /\ ow (RSelect xs) tl).
Proof. reflexivity. Qed.
Lemma ow_rep : forall k a b l tl, ow (RRep k a b l) tl = (ocyc l /\ (k = Greedy -> opt_pair a b l tl)).
Proof. reflexivity. Qed.
Lemma ow_cap : forall id l tl, ow (RCap id l) tl = oseq l (ANum id :: tl).
Proof. reflexivity. Qed.
Lemma ow_ncap : forall id nm l tl, ow (RNCap id nm l) tl = oseq l (ANum id :: tl).
Proof. reflexivity. Qed.
Lemma ow_ahead : forall neg l tl, ow (RAhead neg l) tl = oseq l [AEndAhead].
Proof. reflexivity. Qed.
Lemma ow_atomic : forall l tl, ow (RAtomic l) tl = ocyc l.
Proof. reflexivity. Qed.

Lemma ows_cycle : forall l, ocyc l -> ows (cycle l).
Proof.
  unfold cycle. induction l as [|x l IH]; cbn [ocyc map app ows]; [tauto|].
  intros [H1 H2]. split; [assumption|auto].
Qed.
Lemma wfs_cycle : forall l O, forallb (wf (map fst O)) l = true -> wfs KCyc O (cycle l) O.
Proof.
  unfold cycle. induction l as [|x l IH]; cbn [forallb map app wfs]; intros O H; [auto|].
  apply andb_true_iff in H as [H1 H2]. split; auto.
Qed.
Lemma snonnull_cycle : forall l, snonnull (cycle l) = existsb nonnull l.
Proof. unfold cycle. induction l as [|x l IH]; cbn; [reflexivity|]. rewrite IH. reflexivity. Qed.
Lemma saccurate_cycle : forall l, saccurate (cycle l) = forallb accurate l.
Proof. unfold cycle. induction l as [|x l IH]; cbn; [reflexivity|]. rewrite IH. reflexivity. Qed.

Definition good (K : fkind) (O0 : list (nat * nat)) (l : list state) (x : res caps) : Prop :=
  match x with
  | Ok c' => exists st' rest, l = st' :: rest /\ sim O0 st' (unmatch c') /\
               (K <> KAhead -> s_end (c0 c') = Some (fst st'))
  | No => l = []
  | _ => True
  end.

Definition E (n : nat) : Prop := forall K p0 p L f c stk O O0,
  sim O (p, L) c -> wfs K O stk O0 -> ows stk -> J K p0 (f_block f) p stk ->
  f_ml f = ml -> f_ci f = ci ->
  good K O0 (outs p0 stk (p, L) O) (eval opt n v v p f c stk).

Definition rep_ok (O : list (nat * nat)) (l : list re) : Prop :=
  forallb (wf (map fst O)) l = true /\ body_ok l = true /\ ocyc l.

Lemma iter_ok : forall n, E n -> forall p L f c l O, sim O (p, L) c -> rep_ok O l ->
  f_ml f = ml -> f_ci f = ci ->
  match eval opt n v v p (not_empty_match f) c (cycle l) with
  | Ok c' => exists st', one l (p, L) = [st'] /\ sim O st' (unmatch c') /\
               s_end (c0 c') = Some (fst st') /\ p < fst st'
  | No => one l (p, L) = []
  | _ => True
  end.
Proof.
  intros n HE p L f c l O Hs (R1 & R2 & R3) Hml Hci.
  pose proof (HE KCyc p p L (not_empty_match f) c (cycle l) O O Hs (wfs_cycle l O R1)
                (ows_cycle l R3)) as H.
  assert (HJ : J KCyc p (f_block (not_empty_match f)) p (cycle l)).
  { intros _. split; [lia|]. split; [lia|]. intros _.
    rewrite snonnull_cycle, saccurate_cycle. unfold body_ok in R2.
    apply orb_true_iff in R2. cbn. tauto. }
  specialize (H HJ Hml Hci). rewrite outs_cycle in H. unfold good in H.
  change (filter (fun st' => Nat.ltb p (fst st')) (enums l (p, L)))
    with (filter (advances (p, L)) (enums l (p, L))) in H. unfold one.
  destruct (eval opt n v v p (not_empty_match f) c (cycle l)); auto.
  - destruct H as (st' & rest & H1 & H2 & H3). exists st'. rewrite H1.
    split; [reflexivity|]. split; [assumption|]. split; [apply H3; discriminate|].
    assert (Hin : In st' (filter (advances (p, L)) (enums l (p, L))))
      by (rewrite H1; left; reflexivity).
    apply filter_In in Hin as [_ Hin]. apply Nat.ltb_lt in Hin. exact Hin.
  - rewrite H. reflexivity.
Qed.

(** ** The loops, given the evaluator with less fuel *)
Lemma lt_spec : forall a i, less_than a i = N.ltb i a.
Proof. intros a i. unfold less_than. destruct (N.eqb_spec a 0); cbn; [subst; lia|reflexivity]. Qed.

Definition Req (n : nat) : Prop := forall p L f c a i l O,
  sim O (p, L) c -> rep_ok O l -> f_ml f = ml -> f_ci f = ci ->
  match req_loop opt n v v p f c a i l with
  | Ok (p', c') => exists L', mand l (N.to_nat (a - i)) (p, L) = [(p', L')] /\
      sim O (p', L') c' /\ p <= p' /\ ((i < a)%N -> p < p')
  | No => mand l (N.to_nat (a - i)) (p, L) = []
  | _ => True
  end.

Lemma sim_unmatch : forall O st c, sim O st (unmatch c) -> sim O st (unmatch (unmatch c)).
Proof. intros O st c H. eapply sim_c0; [exact H | reflexivity | reflexivity]. Qed.

Lemma req_step : forall n, E n -> Req n -> Req (S n).
Proof.
  intros n HE HR p L f c a i l O Hs Hl Hml Hci. cbn [req_loop]. rewrite lt_spec.
  destruct (N.ltb_spec i a) as [Hi|Hi].
  - replace (N.to_nat (a - i)) with (S (N.to_nat (a - N.succ i))) by lia. rewrite mand_S.
    pose proof (iter_ok n HE p L f c l O Hs Hl Hml Hci) as H.
    destruct (eval opt n v v p (not_empty_match f) c (cycle l)) as [c'| | | |]; auto.
    + destruct H as ([p' L'] & H1 & H2 & H3 & H4). cbn [fst] in *. rewrite H3. cbn [or_ub].
      rewrite H1, flat_map_one.
      specialize (HR p' L' f (unmatch c') a (N.succ i) l O H2 Hl Hml Hci).
      destruct (req_loop opt n v v p' f (unmatch c') a (N.succ i) l) as [[p2 c2]| | | |]; auto.
      destruct HR as (L2 & R1 & R2 & R3 & R4). exists L2. split; [assumption|].
      split; [assumption|]. split; lia.
    + rewrite H. reflexivity.
  - replace (a - i)%N with 0%N by lia. cbn. exists L. split; [reflexivity|]. split; [assumption|].
    split; lia.
Qed.

Notation outs_of p0 tl O := (fun st => outs p0 tl st O).

Definition Rec (n : nat) : Prop := forall K p0 p L f c b i l tl O O0 k,
  sim O (p, L) c -> rep_ok O l -> wfs K O tl O0 -> ows tl -> f_ml f = ml -> f_ci f = ci ->
  (K = KCyc -> p0 <= p /\ (p0 < p \/ snonnull tl = true)) -> len - p < k ->
  good K O0 (flat_map (outs_of p0 tl O) (mg l k b i (p, L))) (rec_loop opt n v v p f c b i l tl).

Lemma good_app : forall K O0 l1 l2 c, good K O0 l1 (Ok c) -> good K O0 (l1 ++ l2) (Ok c).
Proof.
  intros K O0 l1 l2 c (st' & rest & H1 & H2 & H3). exists st', (rest ++ l2). rewrite H1.
  split; [reflexivity|]. split; assumption.
Qed.

Lemma cs_ml : forall f b, f_ml f = ml -> f_ml (consumed_something f b) = ml.
Proof. intros f [] H; exact H. Qed.
Lemma cs_ci : forall f b, f_ci f = ci -> f_ci (consumed_something f b) = ci.
Proof. intros f [] H; exact H. Qed.
Lemma cs_true : forall f, f_block (consumed_something f true) = false.
Proof. reflexivity. Qed.

Lemma rec_step : forall n, E n -> Rec n -> Rec (S n).
Proof.
  intros n HE HR K p0 p L f c b i l tl O O0 k Hs Hl Hw Ho Hml Hci HK Hk.
  destruct k as [|k]; [lia|]. cbn [rec_loop]. rewrite mg_S, flat_map_app, flat_map_one.
  pose proof (HE K p0 p L (consumed_something f true) c tl O O0 Hs Hw Ho) as Ht.
  assert (HJ : J K p0 (f_block (consumed_something f true)) p tl).
  { intros HKc. destruct (HK HKc) as [H1 H2]. split; [assumption|]. split; [reflexivity|].
    intros ->. left. destruct H2; [lia|assumption]. }
  specialize (Ht HJ (cs_ml f true Hml) (cs_ci f true Hci)).
  unfold less_than_or_infinite. destruct (N.eqb b 0 || N.ltb i b)%bool; [|exact Ht].
  pose proof (iter_ok n HE p L f c l O Hs Hl Hml Hci) as H.
  destruct (eval opt n v v p (not_empty_match f) c (cycle l)) as [c'| | | |]; try exact I.
  - destruct H as ([p' L'] & H1 & H2 & H3 & H4). cbn [fst] in *. rewrite H3. cbn [or_ub].
    rewrite H1, flat_map_one.
    assert (Hk' : len - p' < k) by (pose proof (sim_pos _ _ _ _ H2); lia).
    specialize (HR K p0 p' L' f (unmatch c') b (N.succ i) l tl O O0 k H2 Hl Hw Ho Hml Hci).
    assert (HK' : K = KCyc -> p0 <= p' /\ (p0 < p' \/ snonnull tl = true)).
    { intros HKc. destruct (HK HKc). split; [lia|left; lia]. }
    specialize (HR HK' Hk').
    destruct (rec_loop opt n v v p' f (unmatch c') b (N.succ i) l tl) as [c2| | | |]; try exact I.
    + apply good_app. exact HR.
    + cbn [good] in HR. rewrite HR. exact Ht.
  - rewrite H. exact Ht.
Qed.

Definition Laz (n : nat) : Prop := forall K p0 p L f c b i l tl O O0 k,
  sim O (p, L) c -> rep_ok O l -> wfs K O tl O0 -> ows tl -> f_ml f = ml -> f_ci f = ci ->
  (K = KCyc -> p0 <= p /\ ((0 < i)%N -> p0 < p \/ snonnull tl = true)) -> len - p < k ->
  outs p0 tl (p, L) O = [] ->
  good K O0 (flat_map (outs_of p0 tl O) (mz l k b i (p, L))) (lazy_loop opt n v v p f c b i l tl).

Lemma laz_step : forall n, E n -> Laz n -> Laz (S n).
Proof.
  intros n HE HR K p0 p L f c b i l tl O O0 k Hs Hl Hw Ho Hml Hci HK Hk Hnil.
  destruct k as [|k]; [lia|]. cbn [lazy_loop]. rewrite mz_S. cbn [flat_map]. rewrite Hnil.
  cbn [app]. unfold less_than_or_infinite.
  destruct (N.eqb b 0 || N.ltb i b)%bool eqn:Elim.
  - pose proof (iter_ok n HE p L f c l O Hs Hl Hml Hci) as H.
    destruct (eval opt n v v p (not_empty_match f) c (cycle l)) as [c'| | | |]; try exact I.
    + destruct H as ([p' L'] & H1 & H2 & H3 & H4). cbn [fst] in *. rewrite H3. cbn [or_ub].
      rewrite H1, flat_map_one.
      assert (Hk' : len - p' < k) by (pose proof (sim_pos _ _ _ _ H2); lia).
      pose proof (HE K p0 p' L' (consumed_something f true) (unmatch c') tl O O0 H2 Hw Ho) as Ht.
      assert (HJ : J K p0 (f_block (consumed_something f true)) p' tl).
      { intros HKc. destruct (HK HKc) as [HH _]. split; [lia|]. split; [reflexivity|]. lia. }
      specialize (Ht HJ (cs_ml f true Hml) (cs_ci f true Hci)).
      destruct k as [|k]; [lia|].
      destruct (eval opt n v v p' (consumed_something f true) (unmatch c') tl) as [c2| | | |];
        try exact I.
      * rewrite mz_S. cbn [flat_map]. apply good_app. exact Ht.
      * cbn [good] in Ht.
        specialize (HR K p0 p' L' f (unmatch c') b (N.succ i) l tl O O0 (S k) H2 Hl Hw Ho Hml Hci).
        apply HR; auto. intros HKc. destruct (HK HKc). split; [lia|]. intros _. left. lia.
    + rewrite H. reflexivity.
  - pose proof (HE K p0 p L (consumed_something f true) c tl O O0 Hs Hw Ho) as Ht.
    assert (HJ : J K p0 (f_block (consumed_something f true)) p tl).
    { intros HKc. destruct (HK HKc) as [H1 H2]. split; [assumption|]. split; [reflexivity|].
      intros ->. left. destruct H2; [lia|lia|assumption]. }
    specialize (Ht HJ (cs_ml f true Hml) (cs_ci f true Hci)). rewrite Hnil in Ht. exact Ht.
Qed.

Definition Pos (n : nat) : Prop := forall K p0 start p L f c a b i l tl O O0,
  sim O (p, L) c -> rep_ok O l -> wfs K O tl O0 -> ows tl -> f_ml f = ml -> f_ci f = ci ->
  start <= p -> (start = p -> i = 0%N) ->
  J K p0 (f_block f) start (AR (RRep Possessive a b l) :: tl) -> (b = 0 \/ a <= b)%N ->
  good K O0 (flat_map (outs_of p0 tl O) (firstn 1 (pv l a b i (p, L))))
            (poss_loop opt n v v start p f c a b i l tl).

Lemma pos_step : forall n, E n -> Pos n -> Pos (S n).
Proof.
  intros n HE HR K p0 start p L f c a b i l tl O O0 Hs Hl Hw Ho Hml Hci Hle Hst HJ Hab.
  cbn [poss_loop].
  assert (Ht : (a <= i)%N ->
     good K O0 (outs p0 tl (p, L) O)
       (eval opt n v v p (consumed_something f (negb (Nat.eqb start p))) c tl)).
  { intros Hai. apply (HE K p0); auto; [|apply cs_ml; auto|apply cs_ci; auto].
    intros HKc. destruct (HJ HKc) as (J1 & J2 & J3). split; [lia|].
    destruct (Nat.eqb_spec start p) as [<-|Hne]; cbn [negb consumed_something].
    - split; [assumption|]. intros Hp. specialize (J3 Hp). rewrite (Hst eq_refl) in Hai.
      assert (a = 0%N) by lia. subst a. cbn [snonnull saccurate nonnull accurate andb] in J3.
      exact J3.
    - split; [reflexivity|]. lia. }
  unfold less_than_or_infinite. destruct (N.eqb b 0 || N.ltb i b)%bool eqn:Elim.
  - pose proof (iter_ok n HE p L f c l O Hs Hl Hml Hci) as H.
    destruct (eval opt n v v p (not_empty_match f) c (cycle l)) as [c'| | | |]; try exact I.
    + destruct H as ([p' L'] & H1 & H2 & H3 & H4). cbn [fst] in *. rewrite H3. cbn [or_ub].
      rewrite (pv_step l a b i (p, L) (p', L')); auto; [|apply (m_st _ _ _ Hs)].
      apply HR; auto; lia.
    + rewrite lt_spec. destruct (N.ltb_spec i a) as [Hi|Hi].
      * rewrite pv_fail by assumption. reflexivity.
      * rewrite pv_stop by auto. cbn [firstn]. rewrite flat_map_one. apply Ht. assumption.
  - rewrite pv_stop; [|lia|auto]. cbn [firstn]. rewrite flat_map_one. apply Ht. lia.
Qed.

(** ** The evaluator *)
Lemma J_drop : forall K p0 bl p r tl, J K p0 bl p (AR r :: tl) -> nonnull r = false ->
  J K p0 bl p tl.
Proof.
  intros K p0 bl p r tl H Hr HK. destruct (H HK) as (J1 & J2 & J3). split; [assumption|].
  split; [assumption|]. intros Hp. destruct (J3 Hp) as [H'|[H1 H2]].
  - cbn in H'. rewrite Hr in H'. left. assumption.
  - right. split; [assumption|]. cbn in H2. apply andb_true_iff in H2. tauto.
Qed.
Lemma J_moved : forall K p0 p p' f tl, (K = KCyc -> p0 <= p) -> p < p' ->
  J K p0 (f_block (consumed_something f true)) p' tl.
Proof.
  intros K p0 p p' f tl H Hlt HK. specialize (H HK). split; [lia|]. split; [reflexivity|]. lia.
Qed.
Lemma J_le : forall K p0 bl p stk, J K p0 bl p stk -> K = KCyc -> p0 <= p.
Proof. intros K p0 bl p stk H HK. apply (H HK). Qed.
Lemma J_other : forall K p0 bl p stk, K <> KCyc -> J K p0 bl p stk.
Proof. intros K p0 bl p stk H HK. congruence. Qed.
Lemma J_stk : forall K p0 bl p s1 s2, J K p0 bl p s1 ->
  (snonnull s1 = true -> snonnull s2 = true) ->
  (saccurate s1 = true -> snonnull s2 = true \/ saccurate s2 = true) -> J K p0 bl p s2.
Proof.
  intros K p0 bl p s1 s2 H H1 H2 HK. destruct (H HK) as (J1 & J2 & J3). split; [assumption|].
  split; [assumption|]. intros Hp. destruct (J3 Hp) as [H'|[H3 H4]]; [left; auto|].
  destruct (H2 H4); auto.
Qed.

Lemma back_case : forall n, E n -> forall K p0 p L f c r id sl tl O O0,
  sim O (p, L) c -> wfs K O tl O0 -> ows tl -> J K p0 (f_block f) p (AR r :: tl) ->
  f_ml f = ml -> f_ci f = ci -> not_in id (map fst O) = true -> nonnull r = false ->
  find_id id (cl c) = Some sl ->
  enum r (p, L) = match lookup id L with
        | Some (b, e) => if prefix_at s (text s b e) p then [(p + (e - b), L)] else []
        | None => []
        end ->
  good K O0 (outs p0 (AR r :: tl) (p, L) O)
   (if s_m sl then
      or_ub (s_beg sl) (fun b => or_ub (s_end sl) (fun e =>
      match match_range_loop n v p b e with
      | Ok (cur', true) =>
          eval opt n v v cur' (consumed_something f (negb (Nat.eqb b e))) c tl
      | Ok (_, false) => No
      | No => No | Fuel => Fuel | UB => UB | Ill => Ill
      end))
    else No).
Proof.
  intros n HE K p0 p L f c r id sl tl O O0 Hs Hw Ho HJ Hml Hci Hid Hnn Hf He.
  cbn [outs]. rewrite He. apply not_in_spec in Hid as [Hid0 Hid].
  pose proof (m_closed _ _ _ Hs id sl Hid Hf) as Hc. cbn [snd] in Hc.
  destruct (s_m sl).
  - destruct Hc as (b & e & E1 & E2 & E3). rewrite E1, E2, E3. cbn [or_ub].
    pose proof (m_st _ _ _ Hs) as [T1 T2]. cbn [fst snd] in *.
    rewrite Forall_forall in T2. pose proof (T2 _ (lookup_in _ _ _ E3)) as Hb. cbn in Hb.
    pose proof (match_range_prefix s n p b e T1 Hb) as M.
    destruct (match_range_loop n v p b e) as [[p' []]| | | |]; try exact I.
    + destruct M as (M1 & M2 & M3). rewrite M1, flat_map_one. subst p'.
      apply HE; auto; [| |apply cs_ml; auto | apply cs_ci; auto].
      * apply sim_move with p; [assumption|lia].
      * destruct (Nat.eqb_spec b e) as [->|Hne]; cbn [negb].
        -- rewrite Nat.sub_diag, Nat.add_0_r. apply J_drop with r; assumption.
        -- apply J_moved with p; [eapply J_le; eassumption | lia].
    + rewrite M. reflexivity.
    + contradiction.
  - rewrite Hc. reflexivity.
Qed.

Theorem refine_all : forall n, E n /\ Req n /\ Rec n /\ Laz n /\ Pos n.
Proof.
  induction n as [|n (HE & HRq & HRc & HLz & HPs)].
  { split; [|split; [|split; [|split]]]; repeat intro; exact I. }
  split; [|split; [|split; [|split]]];
    [|apply req_step; assumption | apply rec_step; assumption | apply laz_step; assumption
     |apply pos_step; assumption].
  intros K p0 p L f c stk O O0 Hs Hw Ho HJ Hml Hci.
  destruct stk as [|a tl]; [contradiction|].
  destruct a as [r| | | | | | |id].
  - (* AR *)
    cbn [wfs ows] in Hw, Ho. destruct Hw as [Hr Hw], Ho as [Hor Ho].
    assert (Hmv : forall p' c', p < p' -> p' <= len -> sim O (p, L) c' ->
      good K O0 (outs p0 tl (p', L) O) (eval opt n v v p' (consumed_something f true) c' tl)).
    { intros p' c' H1 H2 H3. apply HE; auto.
      - apply sim_move with p; [assumption|lia].
      - apply J_moved with p; [eapply J_le; eassumption | lia]. }
    assert (Hst : nonnull r = false ->
      good K O0 (outs p0 tl (p, L) O) (eval opt n v v p f c tl)).
    { intros Hn. apply HE; auto. apply J_drop with r; assumption. }
    pose proof (sim_pos _ _ _ _ Hs) as Hp.
    destruct r as
      [ k | | t | l | l | | | k a b l | id l | id nm l | id | nm
      | neg l | neg l | l | k | k | a | m ]; cbn [eval].
    + (* RCls *)
      cbn [outs]. cbn [Spec.enum]. unfold step. cbn [fst snd].
      cbn [arr_view vend vget vnext or_ub].
      destruct (Nat.eqb_spec p len) as [->|Hne].
      { replace (nth_error s len) with (@None Z) by (symmetry; apply nth_error_None; lia).
        reflexivity. }
      destruct (nth_error s p) as [x|] eqn:Ex; [|exfalso; apply nth_error_None in Ex; lia].
      cbn [or_ub]. rewrite Hci. cbn [EvalSem.wf] in Hr.
      rewrite match_cls_spec by (auto; eapply nth_val; eassumption).
      destruct (cls_has ci k x); [|reflexivity]. rewrite flat_map_one.
      destruct (Nat.ltb_spec p len); [|lia]. cbn [or_ub]. apply Hmv; auto; lia.
    + (* RAny *)
      cbn [outs]. cbn [Spec.enum]. unfold step. cbn [fst snd].
      cbn [arr_view vend vget vnext or_ub].
      destruct (Nat.eqb_spec p len) as [->|Hne].
      { replace (nth_error s len) with (@None Z) by (symmetry; apply nth_error_None; lia).
        reflexivity. }
      destruct (nth_error s p) as [x|] eqn:Ex; [|exfalso; apply nth_error_None in Ex; lia].
      destruct (Nat.ltb_spec p len); [|lia].
      rewrite Hml. unfold dot. destruct ml; cbn [option_map or_ub andb negb].
      * destruct (Z.eqb x 10); cbn [negb]; [reflexivity|]. rewrite flat_map_one. apply Hmv; auto; lia.
      * rewrite flat_map_one. apply Hmv; auto; lia.
    + (* RStr *)
      cbn [outs]. cbn [Spec.enum]. rewrite Hci. cbn [EvalSem.wf] in Hr.
      pose proof (match_string_walk s ci s_ok t p L Hr Hp) as M.
      destruct (match_string v ci t p) as [p'| | | |]; try exact I.
      * destruct M as (M1 & M2 & M3). rewrite M1, flat_map_one.
        destruct t as [|ch t]; cbn [length Nat.eqb negb consumed_something].
        -- cbn in M2. rewrite Nat.add_0_r in M2. subst p'. apply Hst. reflexivity.
        -- cbn in M2. apply Hmv; auto; lia.
      * rewrite M. reflexivity.
    + (* RSelect *)
      destruct l as [|x xs]; [reflexivity|].
      cbn [EvalSem.wf forallb] in Hr. apply andb_true_iff in Hr as [Hx Hxs].
      rewrite ow_select in Hor. destruct Hor as [Ox Oxs].
      replace (outs p0 (AR (RSelect (x :: xs)) :: tl) (p, L) O)
        with (outs p0 (AR x :: tl) (p, L) O ++ outs p0 (AR (RSelect xs) :: tl) (p, L) O)
        by (cbn [outs]; rewrite enum_select_cons, flat_map_app; reflexivity).
      assert (I1 := HE K p0 p L f c (AR x :: tl) O O0 Hs (conj Hx Hw) (conj Ox Ho)).
      assert (J1 : J K p0 (f_block f) p (AR x :: tl)).
      { eapply J_stk; [exact HJ| |]; cbn; intros H'; [|right].
        - apply orb_true_iff in H' as [H'|H']; [|rewrite H'; apply orb_true_r].
          apply andb_true_iff in H' as [-> _]. reflexivity.
        - apply andb_true_iff in H' as [H' ->]. apply andb_true_iff in H' as [-> _]. reflexivity. }
      specialize (I1 J1 Hml Hci).
      destruct (eval opt n v v p f c (AR x :: tl)) as [c'| | | |]; try exact I.
      * apply good_app. exact I1.
      * cbn [good] in I1. rewrite I1. cbn [app].
        apply HE; auto; [split; assumption | split; assumption|].
        eapply J_stk; [exact HJ| |]; cbn; intros H'; [|right].
        -- apply orb_true_iff in H' as [H'|H']; [|rewrite H'; apply orb_true_r].
           apply andb_true_iff in H' as [_ ->]. reflexivity.
        -- apply andb_true_iff in H' as [H' ->]. apply andb_true_iff in H' as [_ ->]. reflexivity.
    + (* RSeq *)
      destruct l as [|x xs]; [discriminate|]. cbn [EvalSem.wf nonempty andb forallb] in Hr.
      apply andb_true_iff in Hr as [Hx Hxs]. rewrite ow_seq in Hor.
      destruct xs as [|y ys].
      * rewrite outs_seq1. apply HE; auto; [split; assumption | split; assumption |].
        eapply J_stk; [exact HJ| |]; cbn; rewrite ?orb_false_r, ?andb_true_r; auto.
      * rewrite outs_seq. destruct Hor as [Ox Oy].
        apply HE; auto.
        -- split; [assumption|]. split; [exact Hxs | assumption].
        -- split; [exact Ox|]. split; [exact Oy | assumption].
        -- eapply J_stk; [exact HJ| |]; cbn; rewrite ?orb_assoc, ?andb_assoc; auto.
    + (* REmpty *) cbn [outs]. cbn [Spec.enum]. rewrite flat_map_one. apply Hst. reflexivity.
    + (* RReject *) reflexivity.
    + (* RRep *)
      cbn [EvalSem.wf] in Hr. apply andb_true_iff in Hr as [Hb Hl].
      rewrite ow_rep in Hor. destruct Hor as [Hoc Hop].
      assert (Hrep : rep_ok O l) by (split; [|split]; assumption).
      destruct (negb (N.eqb b 0) && N.ltb b a)%bool eqn:Eab.
      { cbn [outs]. rewrite enum_rep. unfold iterate. rewrite Eab. reflexivity. }
      assert (Hab : (b = 0 \/ a <= b)%N) by lia.
      assert (Hposs : good K O0 (outs p0 (AR (RRep Possessive a b l) :: tl) (p, L) O)
                (eval opt (S n) v v p f c (AR (RRep Possessive a b l) :: tl))
              ).
      { cbn [eval]. rewrite Eab. cbn [arr_view vconv negb].
        cbn [outs]. rewrite enum_rep, iterate_pv by assumption.
        apply HPs; auto. eapply J_stk; [exact HJ| |]; cbn [snonnull saccurate nonnull accurate andb]; auto.
        destruct k; cbn [andb]; auto. intros H'. apply andb_true_iff in H' as [_ H']. auto. }
      destruct k.
      * (* Greedy *)
        destruct (becomes_possessive opt l tl) as [[|]|] eqn:Ebp; [| |exact I].
        -- assert (I1 := HE K p0 p L f c (AR (RRep Possessive a b l) :: tl) O O0 Hs).
           assert (W : wfs K O (AR (RRep Possessive a b l) :: tl) O0).
           { split; [|assumption]. cbn [EvalSem.wf]. rewrite Hb, Hl. reflexivity. }
           assert (OW : ows (AR (RRep Possessive a b l) :: tl)).
           { split; [|assumption]. rewrite ow_rep. split; [assumption|discriminate]. }
           specialize (I1 W OW).
           assert (J1 : J K p0 (f_block f) p (AR (RRep Possessive a b l) :: tl)).
           { eapply J_stk; [exact HJ| |]; cbn [snonnull saccurate nonnull accurate andb]; auto.
             intros H'. apply andb_true_iff in H' as [_ H']. auto. }
           specialize (I1 J1 Hml Hci).
           assert (HO : Forall (fun e => snd e <= p) O).
           { apply Forall_forall. intros [i b'] Hin. apply (m_open _ _ _ Hs i b' Hin). }
           pose proof (Hop eq_refl Ebp p0 (p, L) O (m_st _ _ _ Hs) HO) as Hhd.
           destruct (eval opt n v v p f c (AR (RRep Possessive a b l) :: tl)) as [c'| | | |];
             try exact I.
           ++ destruct I1 as (st' & rest & E1 & E2 & E3). rewrite E1 in Hhd.
              destruct (outs p0 (AR (RRep Greedy a b l) :: tl) (p, L) O) as [|y ys]; [discriminate|].
              cbn in Hhd. injection Hhd as ->. exists st', ys. auto.
           ++ cbn [good] in *. rewrite I1 in Hhd.
              destruct (outs p0 (AR (RRep Greedy a b l) :: tl) (p, L) O); [reflexivity|discriminate].
        -- cbn [arr_view vconv negb]. fold v.
           cbn [outs]. rewrite enum_rep, iterate_pv by assumption. unfold pv.
           rewrite N.sub_0_r. replace (N.max a 0) with a by lia.
           pose proof (HRq p L f c a 0%N l O Hs Hrep Hml Hci) as Q. rewrite N.sub_0_r in Q.
           destruct (req_loop opt n v v p f c a 0 l) as [[p' c']| | | |]; try exact I.
           ++ destruct Q as (L' & Q1 & Q2 & Q3 & Q4). rewrite Q1, flat_map_one. cbn [fst].
              apply HRc; auto. intros HK. destruct (HJ HK) as (J1 & J2 & J3).
              split; [lia|]. destruct (N.eqb_spec a 0) as [->|Ha]; [|left; lia].
              destruct (Nat.eq_dec p' p0) as [->|]; [|left; lia]. right.
              assert (p = p0) by lia. destruct (J3 H) as [H'|[_ H']]; cbn in H'; [assumption|discriminate].
           ++ rewrite Q. reflexivity.
      * (* Lazy *)
        cbn [arr_view vconv negb]. fold v. cbn [outs]. rewrite enum_rep, iterate_pv by assumption.
        pose proof (HRq p L f c a 0%N l O Hs Hrep Hml Hci) as Q. rewrite N.sub_0_r in Q.
        destruct (req_loop opt n v v p f c a 0 l) as [[p' c']| | | |]; try exact I.
        -- destruct Q as (L' & Q1 & Q2 & Q3 & Q4). rewrite Q1, flat_map_one. cbn [fst].
           assert (I1 := HE K p0 p' L' (consumed_something f (negb (Nat.eqb p p'))) c' tl O O0 Q2 Hw Ho).
           assert (J1 : J K p0 (f_block (consumed_something f (negb (Nat.eqb p p')))) p' tl).
           { destruct (Nat.eqb_spec p p') as [<-|Hne]; cbn [negb].
             - assert (a = 0%N) by (destruct (N.eq_dec a 0); [assumption|lia]). subst a.
               apply J_drop with (RRep Lazy 0 b l); [assumption|reflexivity].
             - apply J_moved with p; [eapply J_le; eassumption | lia]. }
           specialize (I1 J1 (cs_ml _ _ Hml) (cs_ci _ _ Hci)).
           destruct (eval opt n v v p' (consumed_something f (negb (Nat.eqb p p'))) c' tl)
             as [c2| | | |]; try exact I.
           ++ rewrite mz_S. cbn [flat_map]. apply good_app. exact I1.
           ++ apply HLz; auto. intros HK. destruct (HJ HK) as (J1' & _ & _).
              split; [lia|]. intros Ha. left. lia.
        -- rewrite Q. reflexivity.
      * (* Possessive *)
        cbn [eval] in Hposs. rewrite Eab in Hposs. exact Hposs.
    + (* RCap *)
      cbn [EvalSem.wf] in Hr. apply andb_true_iff in Hr as [Hr Hl].
      apply andb_true_iff in Hr as [Hid Hne]. cbn [arr_view vconv]. fold v.
      destruct (start_capture id p c) as [c'|] eqn:Ec; [|exact I]. cbn [or_ill].
      cbn [outs]. rewrite enum_cap, outs_cap. cbn [fst].
      apply HE; auto.
      * apply sim_start with c; assumption.
      * cbn [wfs map fst EvalSem.wf]. rewrite Hne, Hl. auto.
      * cbn [ows]. rewrite ow_seq. rewrite ow_cap in Hor. auto.
    + (* RNCap *)
      cbn [EvalSem.wf] in Hr. apply andb_true_iff in Hr as [Hr Hl].
      apply andb_true_iff in Hr as [Hid Hne]. cbn [arr_view vconv]. fold v.
      destruct (start_capture id p c) as [c'|] eqn:Ec; [|exact I]. cbn [or_ill].
      cbn [outs]. rewrite enum_ncap, outs_cap. cbn [fst].
      apply HE; auto.
      * apply sim_start with c; assumption.
      * cbn [wfs map fst EvalSem.wf]. rewrite Hne, Hl. auto.
      * cbn [ows]. rewrite ow_seq. rewrite ow_ncap in Hor. auto.
    + (* RBack *)
      cbn [arr_view vsame negb]. fold v. cbn [EvalSem.wf] in Hr.
      pose proof (not_in_spec _ _ Hr) as [Hid _].
      unfold get_id. destruct (Nat.eqb_spec id 0) as [|_]; [contradiction|].
      destruct (find_id id (cl c)) as [sl|] eqn:Ef; [|exact I]. cbn [or_ill].
      eapply back_case; eauto.
    + (* RNBack *)
      cbn [arr_view vsame negb]. fold v. cbn [EvalSem.wf] in Hr.
      destruct (get_name nm (cl c)) as [sl|] eqn:Eg; [|exact I]. cbn [or_ill].
      destruct (names_find nm (cl c) sl (m_ids _ _ _ Hs) Eg) as (id & En & Ef). rewrite En in Hr.
      eapply back_case; eauto. cbn [Spec.enum fst snd]. rewrite En. reflexivity.
    + (* RAhead *)
      cbn [EvalSem.wf] in Hr. apply andb_true_iff in Hr as [Hne Hl]. rewrite ow_ahead in Hor.
      assert (I1 := HE KAhead p0 p L f c [AR (RSeq l); AEndAhead] O O Hs).
      assert (W : wfs KAhead O [AR (RSeq l); AEndAhead] O).
      { cbn [wfs EvalSem.wf]. rewrite Hne, Hl. auto. }
      assert (OW : ows [AR (RSeq l); AEndAhead]) by (cbn [ows]; rewrite ow_seq; auto).
      specialize (I1 W OW (J_other KAhead p0 (f_block f) p _ ltac:(discriminate)) Hml Hci).
      rewrite outs_ahead in I1. cbn [outs]. rewrite enum_ahead. destruct neg.
      * destruct (eval opt n v v p f c [AR (RSeq l); AEndAhead]) as [c'| | | |]; try exact I.
        -- destruct I1 as (st' & rest & E1 & _). rewrite E1. reflexivity.
        -- cbn [good] in I1. rewrite I1, flat_map_one. apply Hst. reflexivity.
      * destruct (eval opt n v v p f c [AR (RSeq l); AEndAhead]) as [c'| | | |]; try exact I.
        -- destruct I1 as ([p' L'] & rest & E1 & E2 & _). rewrite E1, flat_map_one. cbn [fst snd].
           apply HE; try assumption.
           (* the captures of the lookahead, at the old position *)
           destruct E2 as [S1 S2 S3 S4 S5 S6 S7]. constructor; auto.
           ++ destruct S1. split; assumption.
           ++ intros id b Hin. destruct (S7 id b Hin) as [_ H2]. split; [|assumption].
              apply (m_open _ _ _ Hs id b Hin).
        -- cbn [good] in I1. rewrite I1. reflexivity.
    + (* RBehind *)
      cbn [EvalSem.wf] in Hr. apply andb_true_iff in Hr as [Hne Hl].
      pose proof (behind_spec s ml ci s_ok opt n v p f c [RSeq l] Hml Hci) as B.
      cbn [forallb bwf] in B. rewrite Hne, Hl in B. specialize (B eq_refl Hp).
      cbn [map app] in B. rewrite bseq_cons, benum_seq in B.
      replace (flat_map (bseq s ml ci []) (bseq s ml ci l p)) with (bseq s ml ci l p) in B
        by (symmetry; apply flat_map_single).
      cbn [outs]. rewrite enum_behind. cbn [fst]. destruct neg.
      * destruct (eval opt n (rev_view v) v p f c [AR (RSeq l); AEndBehind]) as [c'| | | |];
          try exact I.
        -- destruct B as [_ B]. destruct (bseq s ml ci l p); [congruence|reflexivity].
        -- rewrite B, flat_map_one. apply Hst. reflexivity.
      * destruct (eval opt n (rev_view v) v p f c [AR (RSeq l); AEndBehind]) as [c'| | | |];
          try exact I.
        -- destruct B as [-> B]. destruct (bseq s ml ci l p); [congruence|]. rewrite flat_map_one.
           apply HE; try assumption.
           apply sim_c0 with c; auto.
        -- rewrite B. reflexivity.
    + (* RAtomic *)
      cbn [outs]. rewrite atomic_pv.
      cbn [EvalSem.wf] in Hr. rewrite ow_atomic in Hor.
      apply (HE K p0 p L f c (AR (RRep Possessive 1 1 l) :: tl)); auto.
      * split; [exact Hr | assumption].
      * split; [|assumption]. rewrite ow_rep. split; [assumption|discriminate].
    + (* RBound *)
      cbn [EvalSem.wf] in Hr. rewrite Hci, around_boundary by auto.
      cbn [outs]. cbn [Spec.enum]. unfold boundary. cbn [fst].
      destruct (char_before s (cls_has ci k) p), (char_after s (cls_has ci k) p);
        cbn [Bool.eqb xorb flat_map]; try reflexivity; rewrite app_nil_r; apply Hst; reflexivity.
    + (* RNotBound *)
      cbn [EvalSem.wf] in Hr. rewrite Hci, around_boundary by auto.
      cbn [outs]. cbn [Spec.enum]. unfold boundary. cbn [fst].
      destruct (char_before s (cls_has ci k) p), (char_after s (cls_has ci k) p);
        cbn [Bool.eqb xorb flat_map]; try reflexivity; rewrite app_nil_r; apply Hst; reflexivity.
    + (* RAssert *)
      rewrite Hml, assert_holds by auto. cbn [outs]. cbn [Spec.enum fst].
      destruct (holds s ml a p); [|reflexivity]. rewrite flat_map_one. apply Hst. reflexivity.
    + discriminate.
  - cbn in Hw. contradiction.
  - cbn in Hw. contradiction.
  - (* AEnd *)
    cbn [wfs] in Hw. destruct tl as [|[] [|]]; try contradiction. destruct Hw as [-> ->].
    cbn [eval arr_view vconv]. destruct n as [|n]; [exact I|]. cbn.
    exists (p, L), []. split; [reflexivity|]. split; [|reflexivity].
    eapply sim_c0; [exact Hs | reflexivity | reflexivity].
  - (* AEndCycle *)
    cbn [wfs] in Hw. destruct tl; [|contradiction]. destruct Hw as [-> ->].
    cbn [eval arr_view vconv negb outs fst].
    destruct (HJ eq_refl) as (J1 & J2 & J3).
    destruct (Nat.ltb_spec p0 p) as [Hlt|Hge].
    + rewrite (J2 Hlt). exists (p, L), []. split; [reflexivity|]. split; [|reflexivity].
      eapply sim_c0; [exact Hs | reflexivity | reflexivity].
    + destruct (J3 ltac:(lia)) as [H'|[-> _]]; [discriminate|]. reflexivity.
  - (* AEndAhead *)
    cbn [wfs] in Hw. destruct tl; [|contradiction]. destruct Hw as [-> ->].
    cbn [eval outs]. exists (p, L), []. split; [reflexivity|]. split; [|congruence].
    eapply sim_c0; [exact Hs | reflexivity | reflexivity].
  - cbn in Hw. destruct tl; contradiction.
  - (* ANum *)
    cbn [wfs ows] in Hw, Ho. destruct O as [|[i b] O']; [contradiction|]. destruct Hw as [-> Hw].
    cbn [eval arr_view vconv]. fold v.
    destruct (end_capture id p c) as [c'|] eqn:Ec; [|exact I]. cbn [or_ill].
    cbn [outs fst snd]. apply HE; auto. apply sim_end with c; assumption.
Qed.
End Refine.
