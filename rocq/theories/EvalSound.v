(** Soundness without restrictions on repetitions: whatever the evaluator accepts has a derivation in
    the declarative semantics, with or without the greedy optimisation. Only the contents of negative
    lookaheads have to be in the complete fragment. *)
From Coq Require Import List ZArith NArith Bool Lia Arith ZifyBool ZifyN ZifyNat.
From Verif Require Import Chars Syntax First View Eval Api Spec CharProofs EvalInv EvalSem SpecProps EvalRefine
  SpecCut ApiProofs EvalTop OptProofs Checks.
Import ListNotations.

(** Patterns covered by soundness. [O]: the groups that are open around [r]. *)
Fixpoint swf (opt ml ci : bool) (names : list Z -> option nat) (O : list nat) (r : re) : bool :=
  match r with
  | RCls c | RBound c | RNotBound c => cls_ok ci c
  | RStr t => forallb lit_ok t
  | RSelect l | RSeq l | RRep _ _ _ l | RAtomic l | RAhead false l => forallb (swf opt ml ci names O) l
  | RAhead true l =>
      wf ci names O (RSeq l) && forallb (tame_check ci) l && forallb plain_check l
      && ow_check opt ml ci (RSeq l) [AEndAhead]
  | RAny | REmpty | RReject | RAssert _ => true
  | RCap id l | RNCap id _ l => not_in id O && forallb (swf opt ml ci names (id :: O)) l
  | RBack id => not_in id O
  | RNBack nm => match names nm with Some id => not_in id O | None => true end
  | RBehind _ l => nonempty l && forallb (bwf ci) l
  | RMode _ => false
  end.

Lemma lt_spec' : forall a i, less_than a i = N.ltb i a.
Proof. intros a i. unfold less_than. destruct (N.eqb_spec a 0), (N.ltb_spec i a); cbn; try reflexivity; exfalso; lia. Qed.

Section Sound.
Variable opt : bool.
Variable s : list Z.
Variables ml ci : bool.
Variable G : list (nat * option (list Z)).
Hypothesis s_ok : forallb val_ok s = true.
Hypothesis G_dup : NoDup (map fst G).

Notation names := (name_number G).
Notation sem := (sem s ml ci names).
Notation sems := (sems s ml ci names).
Notation v := (arr_view s).
Notation len := (length s).
Notation swf := (swf opt ml ci names).
Notation sim := (sim s G).
Notation st_ok := (st_ok s).

Fixpoint runs (stk : list atom) (st : state) (O : list (nat * nat)) (st' : state) : Prop :=
  match stk with
  | AR r :: tl => exists m, sem r st m /\ runs tl m O st'
  | ANum id :: tl =>
      match O with
      | (i, b) :: O' => runs tl (fst st, (id, (b, fst st)) :: snd st) O' st'
      | [] => False
      end
  | AEnd :: tl => runs tl st O st'
  | [AAccept] | [AEndAhead] | [AEndCycle] => st' = st
  | _ => False
  end.

Fixpoint swfs (K : fkind) (O : list (nat * nat)) (stk : list atom) (O0 : list (nat * nat)) : Prop :=
  match stk with
  | AR r :: tl => swf (map fst O) r = true /\ swfs K O tl O0
  | ANum id :: tl => match O with (i, _) :: O' => i = id /\ swfs K O' tl O0 | [] => False end
  | [AEnd; AAccept] => K = KAcc /\ O = O0
  | [AEndCycle] => K = KCyc /\ O = O0
  | [AEndAhead] => K = KAhead /\ O = O0
  | _ => False
  end.

Definition fin_ok (K : fkind) (O0 : list (nat * nat)) (c' : caps) (st' : state) : Prop :=
  sim O0 st' (unmatch c') /\ (K <> KAhead -> s_end (c0 c') = Some (fst st')).

Definition SE (n : nat) : Prop := forall K p L f c stk O O0 c',
  sim O (p, L) c -> swfs K O stk O0 -> f_ml f = ml -> f_ci f = ci ->
  eval opt n v v p f c stk = Ok c' ->
  exists st', runs stk (p, L) O st' /\ fin_ok K O0 c' st'.

Lemma swfs_cycle : forall l O, forallb (swf (map fst O)) l = true -> swfs KCyc O (cycle l) O.
Proof.
  unfold cycle. induction l as [|x l IH]; cbn [forallb map app swfs]; intros O H; [auto|].
  apply andb_true_iff in H as [H1 H2]. split; auto.
Qed.
Lemma runs_cycle : forall l st O st', runs (cycle l) st O st' -> sems l st st'.
Proof.
  unfold cycle. induction l as [|x l IH]; cbn [map app runs Spec.sems]; intros st O st' H; [exact H|].
  destruct H as (m & H1 & H2). eauto.
Qed.

Lemma s_iter : forall n, SE n -> forall p L f c l O c', sim O (p, L) c ->
  forallb (swf (map fst O)) l = true -> f_ml f = ml -> f_ci f = ci ->
  eval opt n v v p (not_empty_match f) c (cycle l) = Ok c' ->
  exists p' L', sems l (p, L) (p', L') /\ sim O (p', L') (unmatch c') /\ s_end (c0 c') = Some p'.
Proof.
  intros n HE p L f c l O c' Hs Hl Hml Hci H.
  destruct (HE KCyc p L (not_empty_match f) c (cycle l) O O c' Hs (swfs_cycle l O Hl) Hml Hci H)
    as ([p' L'] & R1 & R2 & R3).
  exists p', L'. split; [eapply runs_cycle; exact R1|]. split; [assumption|]. apply R3. discriminate.
Qed.

Definition SReq (n : nat) : Prop := forall p L f c a i l O p' c', sim O (p, L) c ->
  forallb (swf (map fst O)) l = true -> f_ml f = ml -> f_ci f = ci ->
  req_loop opt n v v p f c a i l = Ok (p', c') ->
  exists L', iter (sems l) (N.to_nat (a - i)) (p, L) (p', L') /\ sim O (p', L') c'.

Lemma sreq_step : forall n, SE n -> SReq n -> SReq (S n).
Proof.
  intros n HE HR p L f c a i l O p' c' Hs Hl Hml Hci H. cbn [req_loop] in H. rewrite lt_spec' in H.
  destruct (N.ltb_spec i a) as [Hi|Hi].
  - replace (N.to_nat (a - i)) with (S (N.to_nat (a - N.succ i))) by lia.
    destruct (eval opt n v v p (not_empty_match f) c (cycle l)) as [c1| | | |] eqn:E1; try discriminate.
    destruct (s_iter n HE p L f c l O c1 Hs Hl Hml Hci E1) as (p1 & L1 & R1 & R2 & R3).
    rewrite R3 in H. cbn [or_ub] in H.
    destruct (HR p1 L1 f (unmatch c1) a (N.succ i) l O p' c' R2 Hl Hml Hci H) as (L2 & Q1 & Q2).
    exists L2. split; [|assumption]. exists (p1, L1). split; assumption.
  - injection H as <- <-. replace (a - i)%N with 0%N by lia. exists L. split; [reflexivity|assumption].
Qed.

(** Some further iterations and the rest. *)
Definition goes (lo b i : N) (l : list re) (tl : list atom) (K : fkind) (st : state) (O O0 : list (nat * nat))
  (c' : caps) : Prop :=
  exists j m st', (lo <= i + N.of_nat j)%N /\ (b = 0 \/ i + N.of_nat j <= b)%N /\
    iter (sems l) j st m /\ runs tl m O st' /\ fin_ok K O0 c' st'.

Lemma goes_now : forall lo b i l tl K st O O0 c', (lo <= i)%N -> (b = 0 \/ i <= b)%N ->
  (exists st', runs tl st O st' /\ fin_ok K O0 c' st') -> goes lo b i l tl K st O O0 c'.
Proof.
  intros lo b i l tl K st O O0 c' H1 H2 (st' & R1 & R2). exists 0, st, st'.
  split; [lia|]. split; [lia|]. split; [reflexivity|]. auto.
Qed.
Lemma goes_step : forall lo b i l tl K st m O O0 c', sems l st m ->
  goes lo b (N.succ i) l tl K m O O0 c' -> goes lo b i l tl K st O O0 c'.
Proof.
  intros lo b i l tl K st m O O0 c' Hm (j & x & st' & J1 & J2 & J3 & J4). exists (S j), x, st'.
  split; [lia|]. split; [lia|]. split; [exists m; auto|assumption].
Qed.

Lemma cs_ml' : forall f b, f_ml f = ml -> f_ml (consumed_something f b) = ml.
Proof. intros f [] H; exact H. Qed.
Lemma cs_ci' : forall f b, f_ci f = ci -> f_ci (consumed_something f b) = ci.
Proof. intros f [] H; exact H. Qed.

Definition SRec (n : nat) : Prop := forall K p L f c b i l tl O O0 c',
  sim O (p, L) c -> forallb (swf (map fst O)) l = true -> swfs K O tl O0 -> f_ml f = ml -> f_ci f = ci ->
  (b = 0 \/ i <= b)%N ->
  rec_loop opt n v v p f c b i l tl = Ok c' -> goes 0 b i l tl K (p, L) O O0 c'.

Lemma lim : forall b i, (N.eqb b 0 || N.ltb i b)%bool = true -> (b = 0 \/ N.succ i <= b)%N.
Proof. intros b i H. lia. Qed.

Lemma srec_step : forall n, SE n -> SRec n -> SRec (S n).
Proof.
  intros n HE HR K p L f c b i l tl O O0 c' Hs Hl Hw Hml Hci Hb H. cbn [rec_loop] in H.
  unfold less_than_or_infinite in H.
  assert (Now : eval opt n v v p (consumed_something f true) c tl = Ok c' -> goes 0 b i l tl K (p, L) O O0 c').
  { intros E1. apply goes_now; [lia|assumption|].
    apply (HE K p L (consumed_something f true) c tl O O0 c' Hs Hw (cs_ml' f true Hml) (cs_ci' f true Hci) E1). }
  destruct (N.eqb b 0 || N.ltb i b)%bool eqn:El; [|auto].
  destruct (eval opt n v v p (not_empty_match f) c (cycle l)) as [c1| | | |] eqn:E1; try discriminate; [|auto].
  destruct (s_iter n HE p L f c l O c1 Hs Hl Hml Hci E1) as (p1 & L1 & R1 & R2 & R3).
  rewrite R3 in H. cbn [or_ub] in H.
  destruct (rec_loop opt n v v p1 f (unmatch c1) b (N.succ i) l tl) as [c2| | | |] eqn:E2; try discriminate; [|auto].
  injection H as ->. apply goes_step with (p1, L1); [assumption|].
  apply (HR K p1 L1 f (unmatch c1) b (N.succ i) l tl O O0 c' R2 Hl Hw Hml Hci (lim _ _ El) E2).
Qed.

Definition SLaz (n : nat) : Prop := forall K p L f c b i l tl O O0 c',
  sim O (p, L) c -> forallb (swf (map fst O)) l = true -> swfs K O tl O0 -> f_ml f = ml -> f_ci f = ci ->
  (b = 0 \/ i <= b)%N ->
  lazy_loop opt n v v p f c b i l tl = Ok c' -> goes 0 b i l tl K (p, L) O O0 c'.

Lemma slaz_step : forall n, SE n -> SLaz n -> SLaz (S n).
Proof.
  intros n HE HR K p L f c b i l tl O O0 c' Hs Hl Hw Hml Hci Hb H. cbn [lazy_loop] in H.
  unfold less_than_or_infinite in H.
  destruct (N.eqb b 0 || N.ltb i b)%bool eqn:El.
  - destruct (eval opt n v v p (not_empty_match f) c (cycle l)) as [c1| | | |] eqn:E1; try discriminate.
    destruct (s_iter n HE p L f c l O c1 Hs Hl Hml Hci E1) as (p1 & L1 & R1 & R2 & R3).
    rewrite R3 in H. cbn [or_ub] in H. apply goes_step with (p1, L1); [assumption|].
    destruct (eval opt n v v p1 (consumed_something f true) (unmatch c1) tl) as [c2| | | |] eqn:E2; try discriminate.
    + injection H as ->. apply goes_now; [lia | apply lim; assumption|].
      apply (HE K p1 L1 _ _ tl O O0 c' R2 Hw (cs_ml' f true Hml) (cs_ci' f true Hci) E2).
    + apply (HR K p1 L1 f (unmatch c1) b (N.succ i) l tl O O0 c' R2 Hl Hw Hml Hci (lim _ _ El) H).
  - apply goes_now; [lia|assumption|].
    apply (HE K p L (consumed_something f true) c tl O O0 c' Hs Hw (cs_ml' f true Hml) (cs_ci' f true Hci) H).
Qed.

Definition SPos (n : nat) : Prop := forall K start p L f c a b i l tl O O0 c',
  sim O (p, L) c -> forallb (swf (map fst O)) l = true -> swfs K O tl O0 -> f_ml f = ml -> f_ci f = ci ->
  (b = 0 \/ i <= b)%N -> (b = 0 \/ a <= b)%N ->
  poss_loop opt n v v start p f c a b i l tl = Ok c' -> goes a b i l tl K (p, L) O O0 c'.

Lemma spos_step : forall n, SE n -> SPos n -> SPos (S n).
Proof.
  intros n HE HR K start p L f c a b i l tl O O0 c' Hs Hl Hw Hml Hci Hb Hab H. cbn [poss_loop] in H.
  unfold less_than_or_infinite in H.
  assert (Now : (a <= i)%N -> eval opt n v v p (consumed_something f (negb (Nat.eqb start p))) c tl = Ok c' ->
            goes a b i l tl K (p, L) O O0 c').
  { intros Ha E1. apply goes_now; [lia|assumption|].
    apply (HE K p L _ c tl O O0 c' Hs Hw (cs_ml' f _ Hml) (cs_ci' f _ Hci) E1). }
  destruct (N.eqb b 0 || N.ltb i b)%bool eqn:El; [|apply Now; [lia|assumption]].
  destruct (eval opt n v v p (not_empty_match f) c (cycle l)) as [c1| | | |] eqn:E1; try discriminate.
  - destruct (s_iter n HE p L f c l O c1 Hs Hl Hml Hci E1) as (p1 & L1 & R1 & R2 & R3).
    rewrite R3 in H. cbn [or_ub] in H. apply goes_step with (p1, L1); [assumption|].
    apply (HR K start p1 L1 f (unmatch c1) a b (N.succ i) l tl O O0 c' R2 Hl Hw Hml Hci (lim _ _ El) Hab H).
  - rewrite lt_spec' in H. destruct (N.ltb_spec i a); [discriminate|]. apply Now; assumption.
Qed.

Lemma goes_rep : forall k a b l tl K st m O O0 c', iter (sems l) (N.to_nat a) st m ->
  goes 0 b a l tl K m O O0 c' ->
  exists st', runs (AR (RRep k a b l) :: tl) st O st' /\ fin_ok K O0 c' st'.
Proof.
  intros k a b l tl K st m O O0 c' Hm (j & x & st' & J1 & J2 & J3 & J4 & J5). exists st'. split; [|assumption].
  exists x. split; [|assumption]. exists (N.to_nat a + j). split; [lia|]. split; [lia|].
  apply iter_add. exists m. split; assumption.
Qed.
Lemma goes_rep0 : forall k a b l tl K st O O0 c', goes a b 0 l tl K st O O0 c' ->
  exists st', runs (AR (RRep k a b l) :: tl) st O st' /\ fin_ok K O0 c' st'.
Proof.
  intros k a b l tl K st O O0 c' (j & x & st' & J1 & J2 & J3 & J4 & J5). exists st'. split; [|assumption].
  exists x. split; [|assumption]. exists j. split; [lia|]. split; [lia|]. assumption.
Qed.
Lemma runs_kind : forall k k' a b l tl st O st',
  runs (AR (RRep k a b l) :: tl) st O st' -> runs (AR (RRep k' a b l) :: tl) st O st'.
Proof. intros. assumption. Qed.


Lemma s_back : forall n, SE n -> forall K p L f c id sl tl O O0 c',
  sim O (p, L) c -> swfs K O tl O0 -> f_ml f = ml -> f_ci f = ci ->
  not_in id (map fst O) = true -> find_id id (cl c) = Some sl ->
  (if s_m sl then
      or_ub (s_beg sl) (fun b => or_ub (s_end sl) (fun e =>
      match match_range_loop n v p b e with
      | Ok (cur', true) =>
          eval opt n v v cur' (consumed_something f (negb (Nat.eqb b e))) c tl
      | Ok (_, false) => No
      | No => No | Fuel => Fuel | UB => UB | Ill => Ill
      end))
    else No) = Ok c' ->
  exists m st', back_sem s id (p, L) m /\ runs tl m O st' /\ fin_ok K O0 c' st'.
Proof.
  intros n HE K p L f c id sl tl O O0 c' Hs Hw Hml Hci Hid Hf H.
  apply not_in_spec in Hid as [Hid0 Hid].
  pose proof (m_closed _ _ _ _ _ Hs id sl Hid Hf) as Hc. cbn [snd] in Hc.
  destruct (s_m sl); [|discriminate].
  destruct Hc as (b & e & E1 & E2 & E3). rewrite E1, E2 in H. cbn [or_ub] in H.
  pose proof (m_st _ _ _ _ _ Hs) as Hst. destruct Hst as [T1 T2]. cbn [fst snd] in *.
  rewrite Forall_forall in T2. pose proof (T2 _ (lookup_in _ _ _ E3)) as Hb. cbn in Hb.
  pose proof (match_range_prefix s n p b e T1 Hb) as M.
  destruct (match_range_loop n v p b e) as [[p' []]| | | |]; try discriminate.
  destruct M as (M1 & M2 & M3). subst p'.
  apply (prefix_at_iff s names _ _ T1) in M1. destruct M1 as [M1 M2].
  assert (Hlen : length (text s b e) = e - b).
  { unfold text. rewrite firstn_length, skipn_length. lia. }
  rewrite Hlen in M1, M2.
  assert (Hmv : p <= p + (e - b) <= len) by lia.
  destruct (HE K (p + (e - b)) L _ c tl O O0 c' (sim_move _ _ _ _ _ _ _ Hs Hmv) Hw
    (cs_ml' f _ Hml) (cs_ci' f _ Hci) H) as (st' & R1 & R2).
  exists (p + (e - b), L), st'. split; [|split; assumption].
  exists b, e. cbn [fst snd]. split; [assumption|].
  split; [assumption|]. split; [lia|reflexivity].
Qed.

Theorem sound_all : forall n, SE n /\ SReq n /\ SRec n /\ SLaz n /\ SPos n.
Proof.
  induction n as [|n (HE & HRq & HRc & HLz & HPs)].
  { split; [|split; [|split; [|split]]]; repeat intro; discriminate. }
  split; [|split; [|split; [|split]]];
    [|apply sreq_step; assumption | apply srec_step; assumption | apply slaz_step; assumption
     |apply spos_step; assumption].
  intros K p L f c stk O O0 c' Hs Hw Hml Hci H.
  destruct stk as [|a tl]; [contradiction|].
  destruct a as [r| | | | | | |id].
  - cbn [swfs] in Hw. destruct Hw as [Hr Hw].
    assert (Hmv : forall p' f', p <= p' <= len -> f_ml f' = ml -> f_ci f' = ci -> sem r (p, L) (p', L) ->
      eval opt n v v p' f' c tl = Ok c' ->
      exists st', runs (AR r :: tl) (p, L) O st' /\ fin_ok K O0 c' st').
    { intros p' f' H1 H2 H3 H4 H5.
      destruct (HE K p' L f' c tl O O0 c' (sim_move _ _ _ _ _ _ _ Hs H1) Hw H2 H3 H5) as (st' & R1 & R2).
      exists st'. split; [|assumption]. exists (p', L). auto. }
    pose proof (sim_pos _ _ _ _ _ _ Hs) as Hp.
    pose proof (m_st _ _ _ _ _ Hs) as Hst.
    destruct r as
      [ k | | t | l | l | | | k a b l | id l | id nm l | id | nm
      | neg l | neg l | l | k | k | a | m ]; cbn [eval] in H; cbn [EvalSound.swf] in Hr.
    + (* RCls *)
      cbn [arr_view vend vget vnext or_ub] in H.
      destruct (Nat.eqb_spec p len) as [->|Hne]; [discriminate|].
      destruct (nth_error s p) as [x|] eqn:Ex; [|discriminate].
      cbn [or_ub] in H. rewrite Hci in H.
      rewrite match_cls_spec in H by (auto; eapply nth_val; eassumption).
      destruct (cls_has ci k x) eqn:Ec; [|discriminate].
      destruct (Nat.ltb_spec p len); [|discriminate]. cbn [or_ub] in H.
      apply (Hmv (S p) (consumed_something f true)); auto; try lia.
      exists x. auto.
    + (* RAny *)
      cbn [arr_view vend vget vnext or_ub] in H.
      destruct (Nat.eqb_spec p len) as [->|Hne]; [discriminate|].
      destruct (nth_error s p) as [x|] eqn:Ex; [|exfalso; apply nth_error_None in Ex; lia].
      destruct (Nat.ltb_spec p len); [|lia].
      rewrite Hml in H. destruct ml eqn:Eml; cbn [option_map or_ub] in H.
      * destruct (Z.eqb_spec x 10); [discriminate|].
        apply (Hmv (S p) (consumed_something f true)); auto; try lia.
        exists x. split; [assumption|]. split; [intros []; contradiction|reflexivity].
      * apply (Hmv (S p) (consumed_something f true)); auto; try lia.
        exists x. split; [assumption|]. split; [intros []; discriminate|reflexivity].
    + (* RStr *)
      rewrite Hci in H.
      pose proof (match_string_walk s ci s_ok t p L Hr Hp) as M.
      destruct (match_string v ci t p) as [p'| | | |]; try discriminate.
      destruct M as (M1 & M2 & M3).
      assert (Hin : In (p', L) (walk s ci t (p, L))) by (rewrite M1; left; reflexivity).
      apply (walk_iff s ci names) in Hin.
      eapply Hmv; [| | | |exact H]; [lia | apply cs_ml'; assumption | apply cs_ci'; assumption | exact Hin].
    + (* RSelect *)
      destruct l as [|x xs]; [discriminate|].
      cbn [forallb] in Hr. apply andb_true_iff in Hr as [Hx Hxs].
      destruct (eval opt n v v p f c (AR x :: tl)) as [c1| | | |] eqn:E1; try discriminate.
      * injection H as ->.
        destruct (HE K p L f c (AR x :: tl) O O0 c' Hs (conj Hx Hw) Hml Hci E1) as (st' & (m & R1 & R2) & R3).
        exists st'. split; [|assumption]. exists m. split; [left; assumption|assumption].
      * destruct (HE K p L f c (AR (RSelect xs) :: tl) O O0 c' Hs (conj Hxs Hw) Hml Hci H)
          as (st' & (m & R1 & R2) & R3).
        exists st'. split; [|assumption]. exists m. split; [right; assumption|assumption].
    + (* RSeq *)
      destruct l as [|x xs]; [discriminate|]. cbn [forallb] in Hr.
      apply andb_true_iff in Hr as [Hx Hxs].
      destruct xs as [|y ys].
      * destruct (HE K p L f c (AR x :: tl) O O0 c' Hs (conj Hx Hw) Hml Hci H) as (st' & (m & R1 & R2) & R3).
        exists st'. split; [|assumption]. exists m. split; [|assumption]. rewrite sem_seq. exists m. split; [assumption|reflexivity].
      * destruct (HE K p L f c (AR x :: AR (RSeq (y :: ys)) :: tl) O O0 c' Hs (conj Hx (conj Hxs Hw)) Hml Hci H)
          as (st' & (m & R1 & m2 & R2 & R2') & R3).
        exists st'. split; [|assumption]. exists m2. split; [|assumption]. rewrite sem_seq. exists m.
        rewrite sem_seq in R2. split; assumption.
    + (* REmpty *) apply (Hmv p f); auto. reflexivity.
    + (* RReject *) discriminate.
    + (* RRep *)
      destruct (negb (N.eqb b 0) && N.ltb b a)%bool eqn:Eab; [discriminate|].
      assert (Hab : (b = 0 \/ a <= b)%N) by lia.
      cbn [arr_view vconv negb] in H. fold v in H. destruct k.
      * destruct (becomes_possessive opt l tl) as [[|]|] eqn:Ebp; [| |discriminate].
        -- destruct (HE K p L f c (AR (RRep Possessive a b l) :: tl) O O0 c' Hs (conj Hr Hw) Hml Hci H)
             as (st' & R1 & R2). exists st'. split; assumption.
        -- destruct (req_loop opt n v v p f c a 0 l) as [[p' c1]| | | |] eqn:E1; try discriminate.
           destruct (HRq p L f c a 0%N l O p' c1 Hs Hr Hml Hci E1) as (L' & Q1 & Q2).
           rewrite N.sub_0_r in Q1. eapply goes_rep; [exact Q1|].
           apply (HRc K p' L' f c1 b a l tl O O0 c' Q2 Hr Hw Hml Hci Hab H).
      * destruct (req_loop opt n v v p f c a 0 l) as [[p' c1]| | | |] eqn:E1; try discriminate.
        destruct (HRq p L f c a 0%N l O p' c1 Hs Hr Hml Hci E1) as (L' & Q1 & Q2).
        rewrite N.sub_0_r in Q1. eapply goes_rep; [exact Q1|].
        destruct (eval opt n v v p' (consumed_something f (negb (Nat.eqb p p'))) c1 tl) as [c2| | | |] eqn:E2;
          try discriminate.
        -- injection H as ->. apply goes_now; [lia|lia|].
           apply (HE K p' L' _ c1 tl O O0 c' Q2 Hw (cs_ml' f _ Hml) (cs_ci' f _ Hci) E2).
        -- apply (HLz K p' L' f c1 b a l tl O O0 c' Q2 Hr Hw Hml Hci Hab H).
      * apply goes_rep0. apply (HPs K p p L f c a b 0%N l tl O O0 c' Hs Hr Hw Hml Hci ltac:(lia) Hab H).
    + (* RCap *)
      apply andb_true_iff in Hr as [Hid Hl]. cbn [arr_view vconv] in H. fold v in H.
      destruct (start_capture id p c) as [c1|] eqn:Ec; [|discriminate]. cbn [or_ill] in H.
      destruct (HE K p L f c1 (AR (RSeq l) :: ANum id :: tl) ((id, p) :: O) O0 c'
        (sim_start _ _ _ _ _ _ _ _ Hs Hid Ec) (conj Hl (conj eq_refl Hw)) Hml Hci H)
        as (st' & (m & R1 & R2) & R3).
      exists st'. split; [|assumption]. cbn [runs] in R2.
      eexists. split; [|exact R2]. rewrite sem_seq in R1. exists m. split; [assumption|reflexivity].
    + (* RNCap *)
      apply andb_true_iff in Hr as [Hid Hl]. cbn [arr_view vconv] in H. fold v in H.
      destruct (start_capture id p c) as [c1|] eqn:Ec; [|discriminate]. cbn [or_ill] in H.
      destruct (HE K p L f c1 (AR (RSeq l) :: ANum id :: tl) ((id, p) :: O) O0 c'
        (sim_start _ _ _ _ _ _ _ _ Hs Hid Ec) (conj Hl (conj eq_refl Hw)) Hml Hci H)
        as (st' & (m & R1 & R2) & R3).
      exists st'. split; [|assumption]. cbn [runs] in R2.
      eexists. split; [|exact R2]. rewrite sem_seq in R1. exists m. split; [assumption|reflexivity].
    + (* RBack *)
      cbn [arr_view vsame negb] in H. fold v in H. pose proof (not_in_spec _ _ Hr) as [Hid _].
      unfold get_id in H. destruct (Nat.eqb_spec id 0) as [|_]; [contradiction|].
      destruct (find_id id (cl c)) as [sl|] eqn:Ef; [|discriminate]. cbn [or_ill] in H.
      destruct (s_back n HE K p L f c id sl tl O O0 c' Hs Hw Hml Hci Hr Ef H) as (m & st' & R1 & R2 & R3).
      exists st'. split; [|assumption]. exists m. split; assumption.
    + (* RNBack *)
      cbn [arr_view vsame negb] in H. fold v in H.
      destruct (get_name nm (cl c)) as [sl|] eqn:Eg; [|discriminate]. cbn [or_ill] in H.
      destruct (names_find _ G_dup nm (cl c) sl (m_ids _ _ _ _ _ Hs) Eg) as (id & En & Ef). rewrite En in Hr.
      destruct (s_back n HE K p L f c id sl tl O O0 c' Hs Hw Hml Hci Hr Ef H) as (m & st' & R1 & R2 & R3).
      exists st'. split; [|assumption]. exists m. split; [exists id; split; assumption|assumption].
    + (* RAhead *)
      destruct neg.
      * apply andb_true_iff in Hr as [Hr Ho]. apply andb_true_iff in Hr as [Hr Hpl].
        apply andb_true_iff in Hr as [Hwf Htm].
        destruct (refine_all opt s ml ci G s_ok G_dup n) as (I1 & _).
        specialize (I1 KAhead p p L f c [AR (RSeq l); AEndAhead] O O Hs).
        assert (W : wfs ci G KAhead O [AR (RSeq l); AEndAhead] O).
        { split; [exact Hwf|]. split; reflexivity. }
        assert (OW : ows opt s ml ci G [AR (RSeq l); AEndAhead]).
        { split; [|exact I]. apply ow_check_sound; assumption. }
        specialize (I1 W OW (J_other KAhead p (f_block f) p _ ltac:(discriminate)) Hml Hci).
        destruct (eval opt n v v p f c [AR (RSeq l); AEndAhead]) as [c1| | | |]; try discriminate.
        cbn [good] in I1. rewrite outs_ahead in I1.
        apply (Hmv p f); auto. rewrite sem_ahead. split; [reflexivity|].
        intros m Hm.
        assert (Htame : tame s ml ci names (RSeq l)).
        { apply tame_check_sound; assumption. }
        assert (Hplain : plain s ml ci names (RSeq l)).
        { apply plain_check_sound; assumption. }
        pose proof (cut_agrees s ml ci names (RSeq l) Htame (p, L) Hst) as Hcut.
        destruct (enum_sem s ml ci names (RSeq l)) as (_ & _ & Hc).
        pose proof (Hc Hplain (p, L) m Hst) as Hc1. rewrite sem_seq in Hc1. specialize (Hc1 Hm).
        rewrite <- Hcut in Hc1. rewrite enum_seq in Hc1. rewrite I1 in Hc1. contradiction.
      * destruct (eval opt n v v p f c [AR (RSeq l); AEndAhead]) as [c1| | | |] eqn:E1; try discriminate.
        destruct (HE KAhead p L f c [AR (RSeq l); AEndAhead] O O c1 Hs (conj Hr (conj eq_refl eq_refl)) Hml Hci E1)
          as (m & (m' & R1 & R2) & R3 & _).
        cbn [runs] in R2. subst m'. destruct m as [p1 L1].
        assert (Hs' : sim O (p, L1) (unmatch c1)).
        { destruct R3 as [S1 S2 S3 S4 S5 S6 S7]. constructor; auto.
           - destruct S1. split; [exact Hp | assumption].
           - intros id b Hin. destruct (S7 id b Hin) as [_ H2]. split; [|assumption].
             apply (m_open _ _ _ _ _ Hs id b Hin). }
        destruct (HE K p L1 f (unmatch c1) tl O O0 c' Hs' Hw Hml Hci H) as (st' & Q1 & Q2).
        exists st'. split; [|assumption]. exists (p, L1). split; [|assumption].
        rewrite sem_ahead. rewrite sem_seq in R1. exists (p1, L1). split; [assumption|reflexivity].
    + (* RBehind *)
      apply andb_true_iff in Hr as [Hne Hl].
      pose proof (behind_spec s ml ci s_ok opt n v p f c [RSeq l] Hml Hci) as B.
      cbn [forallb bwf] in B. rewrite Hne, Hl in B. specialize (B eq_refl Hp).
      cbn [map app] in B. rewrite bseq_cons, benum_seq in B.
      replace (flat_map (bseq s ml ci []) (bseq s ml ci l p)) with (bseq s ml ci l p) in B
        by (symmetry; apply flat_map_single).
      destruct neg.
      * destruct (eval opt n (rev_view v) v p f c [AR (RSeq l); AEndBehind]) as [c1| | | |];
          try discriminate.
        apply (Hmv p f); auto. split; [reflexivity|exact B].
      * destruct (eval opt n (rev_view v) v p f c [AR (RSeq l); AEndBehind]) as [c1| | | |];
          try discriminate.
        destruct B as [-> B].
        assert (Hs' : sim O (p, L) (unmatch (set_matched c))) by (apply sim_c0 with c; auto).
        destruct (HE K p L f _ tl O O0 c' Hs' Hw Hml Hci H) as (st' & Q1 & Q2).
        exists st'. split; [|assumption]. exists (p, L). split; [|assumption]. split; [reflexivity|exact B].
    + (* RAtomic *)
      destruct (HE K p L f c (AR (RRep Possessive 1 1 l) :: tl) O O0 c' Hs (conj Hr Hw) Hml Hci H)
        as (st' & (m & R1 & R2) & R3).
      exists st'. split; [|assumption]. exists m. split; [|assumption].
      rewrite sem_rep in R1. destruct R1 as (k & K1 & K2 & K3).
      assert (k = 1) by lia. subst k. destruct K3 as (x & K3 & K4). cbn [iter] in K4. subst x.
      rewrite sem_atomic. assumption.
    + (* RBound *)
      rewrite Hci, around_boundary in H by auto.
      destruct (Bool.eqb _ _) eqn:Eb; [discriminate|]. apply (Hmv p f); auto.
      split; [reflexivity|]. unfold boundary. cbn [fst].
      destruct (char_before s (cls_has ci k) p), (char_after s (cls_has ci k) p); try discriminate; reflexivity.
    + (* RNotBound *)
      rewrite Hci, around_boundary in H by auto.
      destruct (Bool.eqb _ _) eqn:Eb; [|discriminate]. apply (Hmv p f); auto.
      split; [reflexivity|]. unfold boundary. cbn [fst].
      destruct (char_before s (cls_has ci k) p), (char_after s (cls_has ci k) p); try discriminate; reflexivity.
    + (* RAssert *)
      rewrite Hml, assert_holds in H by auto.
      destruct (holds s ml a p) eqn:Eh; [|discriminate]. apply (Hmv p f); auto. split; [reflexivity|exact Eh].
    + discriminate.
  - cbn in Hw. contradiction.
  - cbn in Hw. contradiction.
  - (* AEnd *)
    cbn [swfs] in Hw. destruct tl as [|[] [|]]; try contradiction. destruct Hw as [-> ->].
    cbn [eval arr_view vconv] in H. destruct n as [|n]; [discriminate|]. cbn in H. injection H as <-.
    exists (p, L). split; [reflexivity|]. split; [|reflexivity].
    eapply sim_c0; [exact Hs | reflexivity | reflexivity].
  - (* AEndCycle *)
    cbn [swfs] in Hw. destruct tl; [|contradiction]. destruct Hw as [-> ->].
    cbn [eval arr_view vconv negb] in H. destruct (f_block f); [discriminate|]. injection H as <-.
    exists (p, L). split; [reflexivity|]. split; [|reflexivity].
    eapply sim_c0; [exact Hs | reflexivity | reflexivity].
  - (* AEndAhead *)
    cbn [swfs] in Hw. destruct tl; [|contradiction]. destruct Hw as [-> ->].
    cbn [eval] in H. injection H as <-.
    exists (p, L). split; [reflexivity|]. split; [|congruence].
    eapply sim_c0; [exact Hs | reflexivity | reflexivity].
  - cbn in Hw. destruct tl; contradiction.
  - (* ANum *)
    cbn [swfs] in Hw. destruct O as [|[i b] O']; [contradiction|]. destruct Hw as [-> Hw].
    cbn [eval arr_view vconv] in H. fold v in H.
    destruct (end_capture id p c) as [c1|] eqn:Ec; [|discriminate]. cbn [or_ill] in H.
    destruct (HE K p ((id, (b, p)) :: L) f c1 tl O' O0 c' (sim_end _ _ _ _ _ _ _ _ _ Hs Ec) Hw Hml Hci H)
      as (st' & R1 & R2).
    exists st'. split; assumption.
Qed.
End Sound.
