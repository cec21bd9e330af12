(** Soundness for patterns with mode switches anywhere: whatever the evaluator accepts has a derivation
    in the mode-threading semantics of ModeSem.v. *)
From Coq Require Import List ZArith NArith Bool Lia Arith ZifyBool ZifyN ZifyNat.
From Verif Require Import Chars Syntax First View Eval Api Spec CharProofs EvalMono EvalInv EvalSem SpecProps
  EvalRefine SpecCut ApiProofs EvalTop OptProofs Checks EvalSound Match Mode ModeSem.
Import ListNotations.

Definition mode_eqb (x y : modes) : bool := Bool.eqb (fst x) (fst y) && Bool.eqb (snd x) (snd y).
Lemma mode_eqb_spec : forall x y, mode_eqb x y = true <-> x = y.
Proof. intros [[] []] [[] []]; cbn; split; congruence. Qed.
Definition in_modes (M : list modes) (x : modes) : bool := existsb (mode_eqb x) M.
Lemma in_modes_spec : forall M x, in_modes M x = true <-> In x M.
Proof.
  intros M x. unfold in_modes. rewrite existsb_exists. split.
  - intros (y & H1 & H2). apply mode_eqb_spec in H2. congruence.
  - intros H. exists x. split; [assumption|]. apply mode_eqb_spec. reflexivity.
Qed.

(** Patterns covered. [M]: the modes that can be in effect in [r]; [O]: the groups that are open around
    [r]. The content of a negative lookahead is in the complete fragment, which has no switches. *)
Fixpoint mswf (opt : bool) (M : list modes) (names : list Z -> option nat) (O : list nat) (r : re) : bool :=
  match r with
  | RCls c | RBound c | RNotBound c => forallb (fun m => cls_ok (snd m) c) M
  | RStr t => forallb lit_ok t
  | RSelect l | RSeq l | RRep _ _ _ l | RAtomic l | RAhead false l => forallb (mswf opt M names O) l
  | RAhead true l =>
      forallb (fun m =>
        wf (snd m) names O (RSeq l) && forallb (tame_check (snd m)) l && forallb plain_check l
        && ow_check opt (fst m) (snd m) (RSeq l) [AEndAhead]) M
  | RAny | REmpty | RReject | RAssert _ => true
  | RCap id l | RNCap id _ l => not_in id O && forallb (mswf opt M names (id :: O)) l
  | RBack id => not_in id O
  | RNBack nm => match names nm with Some id => not_in id O | None => true end
  | RBehind _ l => nonempty l && forallb (fun m => forallb (bwf (snd m)) l) M
  | RMode k => forallb (fun m => in_modes M (switch k m)) M
  end.

Lemma wf_no_switch : forall ci names r O, wf ci names O r = true -> no_switch r = true.
Proof.
  intros ci names.
  induction r as
    [ | r l IHr IHl | c | | t | l IH | l IH | | | kd a b l IH | id l IH | id nm l IH | id | nm
    | neg l IH | neg l IH | l IH | c | c | a | md ]
    using re_ind2 with (Q := fun l => forall O, forallb (wf ci names O) l = true -> forallb no_switch l = true);
    intros O H; try reflexivity.
  - cbn [forallb] in *. apply andb_true_iff in H as [H1 H2]. rewrite (IHr O H1). exact (IHl O H2).
  - exact (IH O H).
  - cbn [EvalSem.wf] in H. apply andb_true_iff in H as [_ H]. exact (IH O H).
  - cbn [EvalSem.wf] in H. apply andb_true_iff in H as [_ H]. exact (IH O H).
  - cbn [EvalSem.wf] in H. apply andb_true_iff in H as [_ H]. exact (IH _ H).
  - cbn [EvalSem.wf] in H. apply andb_true_iff in H as [_ H]. exact (IH _ H).
  - cbn [EvalSem.wf] in H. apply andb_true_iff in H as [_ H]. exact (IH O H).
  - cbn [EvalSem.wf] in H. apply andb_true_iff in H as [_ H]. exact (IH O H).
  - discriminate.
Qed.

Lemma lim : forall b i, (N.eqb b 0 || N.ltb i b)%bool = true -> (b = 0 \/ N.succ i <= b)%N.
Proof. intros b i H. lia. Qed.

Section Sound.
Variable opt : bool.
Variable s : list Z.
Variable M : list modes.
Variable G : list (nat * option (list Z)).
Hypothesis s_ok : forallb val_ok s = true.
Hypothesis G_dup : NoDup (map fst G).

Notation names := (name_number G).
Notation msem := (msem s names).
Notation msems := (msems s names).
Notation mround := (mround s names).
Notation v := (arr_view s).
Notation len := (length s).
Notation mswf := (mswf opt M names).
Notation sim := (sim s G).
Notation st_ok := (st_ok s).

Fixpoint mruns (stk : list atom) (x : mstate) (O : list (nat * nat)) (y : mstate) : Prop :=
  match stk with
  | AR r :: tl => exists z, msem r x z /\ mruns tl z O y
  | ANum id :: tl =>
      match O with
      | (i, b) :: O' => mruns tl (fst x, (fst (snd x), (id, (b, fst (snd x))) :: snd (snd x))) O' y
      | [] => False
      end
  | AEnd :: tl => mruns tl x O y
  | [AAccept] | [AEndAhead] | [AEndCycle] => y = x
  | _ => False
  end.

Fixpoint mswfs (K : fkind) (O : list (nat * nat)) (stk : list atom) (O0 : list (nat * nat)) : Prop :=
  match stk with
  | AR r :: tl => mswf (map fst O) r = true /\ mswfs K O tl O0
  | ANum id :: tl => match O with (i, _) :: O' => i = id /\ mswfs K O' tl O0 | [] => False end
  | [AEnd; AAccept] => K = KAcc /\ O = O0
  | [AEndCycle] => K = KCyc /\ O = O0
  | [AEndAhead] => K = KAhead /\ O = O0
  | _ => False
  end.

Notation fin_ok := (fin_ok s G).

Definition SE (n : nat) : Prop := forall K p L f c stk O O0 c' m,
  sim O (p, L) c -> mswfs K O stk O0 -> mode_of f = m -> In m M ->
  eval opt n v v p f c stk = Ok c' ->
  exists y, mruns stk (m, (p, L)) O y /\ fin_ok K O0 c' (snd y).

Lemma mswfs_cycle : forall l O, forallb (mswf (map fst O)) l = true -> mswfs KCyc O (cycle l) O.
Proof.
  unfold cycle. induction l as [|x l IH]; cbn [forallb map app mswfs]; intros O H; [auto|].
  apply andb_true_iff in H as [H1 H2]. split; auto.
Qed.
Lemma mruns_cycle : forall l x O y, mruns (cycle l) x O y -> msems l x y.
Proof.
  unfold cycle. induction l as [|r l IH]; cbn [map app mruns ModeSem.msems]; intros x O y H; [exact H|].
  destruct H as (z & H1 & H2). eauto.
Qed.

Lemma cs_mode : forall f b m, mode_of f = m -> mode_of (consumed_something f b) = m.
Proof. intros f [] m H; exact H. Qed.

Lemma s_iter : forall n, SE n -> forall p L f c l O c' m, sim O (p, L) c ->
  forallb (mswf (map fst O)) l = true -> mode_of f = m -> In m M ->
  eval opt n v v p (not_empty_match f) c (cycle l) = Ok c' ->
  exists p' L', mround l m (p, L) (p', L') /\ sim O (p', L') (unmatch c') /\ s_end (c0 c') = Some p'.
Proof.
  intros n HE p L f c l O c' m Hs Hl Hm HM H.
  destruct (HE KCyc p L (not_empty_match f) c (cycle l) O O c' m Hs (mswfs_cycle l O Hl) Hm HM H)
    as ([m' [p' L']] & R1 & R2 & R3).
  exists p', L'. split; [exists m'; eapply mruns_cycle; exact R1|]. split; [assumption|]. apply R3. discriminate.
Qed.

Definition SReq (n : nat) : Prop := forall p L f c a i l O p' c' m, sim O (p, L) c ->
  forallb (mswf (map fst O)) l = true -> mode_of f = m -> In m M ->
  req_loop opt n v v p f c a i l = Ok (p', c') ->
  exists L', iter (mround l m) (N.to_nat (a - i)) (p, L) (p', L') /\ sim O (p', L') c'.

Lemma sreq_step : forall n, SE n -> SReq n -> SReq (S n).
Proof.
  intros n HE HR p L f c a i l O p' c' m Hs Hl Hm HM H. cbn [req_loop] in H. rewrite lt_spec' in H.
  destruct (N.ltb_spec i a) as [Hi|Hi].
  - replace (N.to_nat (a - i)) with (S (N.to_nat (a - N.succ i))) by lia.
    destruct (eval opt n v v p (not_empty_match f) c (cycle l)) as [c1| | | |] eqn:E1; try discriminate.
    destruct (s_iter n HE p L f c l O c1 m Hs Hl Hm HM E1) as (p1 & L1 & R1 & R2 & R3).
    rewrite R3 in H. cbn [or_ub] in H.
    destruct (HR p1 L1 f (unmatch c1) a (N.succ i) l O p' c' m R2 Hl Hm HM H) as (L2 & Q1 & Q2).
    exists L2. split; [|assumption]. exists (p1, L1). split; assumption.
  - injection H as <- <-. replace (a - i)%N with 0%N by lia. exists L. split; [reflexivity|assumption].
Qed.

(** Some further iterations and the rest. *)
Definition goes (lo b i : N) (l : list re) (tl : list atom) (K : fkind) (m : modes) (st : state)
  (O O0 : list (nat * nat)) (c' : caps) : Prop :=
  exists j x y, (lo <= i + N.of_nat j)%N /\ (b = 0 \/ i + N.of_nat j <= b)%N /\
    iter (mround l m) j st x /\ mruns tl (m, x) O y /\ fin_ok K O0 c' (snd y).

Lemma goes_now : forall lo b i l tl K m st O O0 c', (lo <= i)%N -> (b = 0 \/ i <= b)%N ->
  (exists y, mruns tl (m, st) O y /\ fin_ok K O0 c' (snd y)) -> goes lo b i l tl K m st O O0 c'.
Proof.
  intros lo b i l tl K m st O O0 c' H1 H2 (y & R1 & R2). exists 0, st, y.
  split; [lia|]. split; [lia|]. split; [reflexivity|]. auto.
Qed.
Lemma goes_step : forall lo b i l tl K m st st1 O O0 c', mround l m st st1 ->
  goes lo b (N.succ i) l tl K m st1 O O0 c' -> goes lo b i l tl K m st O O0 c'.
Proof.
  intros lo b i l tl K m st st1 O O0 c' Hm (j & x & y & J1 & J2 & J3 & J4). exists (S j), x, y.
  split; [lia|]. split; [lia|]. split; [exists st1; auto|assumption].
Qed.

Definition SRec (n : nat) : Prop := forall K p L f c b i l tl O O0 c' m,
  sim O (p, L) c -> forallb (mswf (map fst O)) l = true -> mswfs K O tl O0 -> mode_of f = m -> In m M ->
  (b = 0 \/ i <= b)%N ->
  rec_loop opt n v v p f c b i l tl = Ok c' -> goes 0 b i l tl K m (p, L) O O0 c'.

Lemma srec_step : forall n, SE n -> SRec n -> SRec (S n).
Proof.
  intros n HE HR K p L f c b i l tl O O0 c' m Hs Hl Hw Hm HM Hb H. cbn [rec_loop] in H.
  unfold less_than_or_infinite in H.
  assert (Now : eval opt n v v p (consumed_something f true) c tl = Ok c' -> goes 0 b i l tl K m (p, L) O O0 c').
  { intros E1. apply goes_now; [lia|assumption|].
    apply (HE K p L (consumed_something f true) c tl O O0 c' m Hs Hw (cs_mode f true m Hm) HM E1). }
  destruct (N.eqb b 0 || N.ltb i b)%bool eqn:El; [|auto].
  destruct (eval opt n v v p (not_empty_match f) c (cycle l)) as [c1| | | |] eqn:E1; try discriminate; [|auto].
  destruct (s_iter n HE p L f c l O c1 m Hs Hl Hm HM E1) as (p1 & L1 & R1 & R2 & R3).
  rewrite R3 in H. cbn [or_ub] in H.
  destruct (rec_loop opt n v v p1 f (unmatch c1) b (N.succ i) l tl) as [c2| | | |] eqn:E2; try discriminate; [|auto].
  injection H as ->. apply goes_step with (p1, L1); [assumption|].
  apply (HR K p1 L1 f (unmatch c1) b (N.succ i) l tl O O0 c' m R2 Hl Hw Hm HM (lim _ _ El) E2).
Qed.

Definition SLaz (n : nat) : Prop := forall K p L f c b i l tl O O0 c' m,
  sim O (p, L) c -> forallb (mswf (map fst O)) l = true -> mswfs K O tl O0 -> mode_of f = m -> In m M ->
  (b = 0 \/ i <= b)%N ->
  lazy_loop opt n v v p f c b i l tl = Ok c' -> goes 0 b i l tl K m (p, L) O O0 c'.

Lemma slaz_step : forall n, SE n -> SLaz n -> SLaz (S n).
Proof.
  intros n HE HR K p L f c b i l tl O O0 c' m Hs Hl Hw Hm HM Hb H. cbn [lazy_loop] in H.
  unfold less_than_or_infinite in H.
  destruct (N.eqb b 0 || N.ltb i b)%bool eqn:El.
  - destruct (eval opt n v v p (not_empty_match f) c (cycle l)) as [c1| | | |] eqn:E1; try discriminate.
    destruct (s_iter n HE p L f c l O c1 m Hs Hl Hm HM E1) as (p1 & L1 & R1 & R2 & R3).
    rewrite R3 in H. cbn [or_ub] in H. apply goes_step with (p1, L1); [assumption|].
    destruct (eval opt n v v p1 (consumed_something f true) (unmatch c1) tl) as [c2| | | |] eqn:E2; try discriminate.
    + injection H as ->. apply goes_now; [lia | apply lim; assumption|].
      apply (HE K p1 L1 _ _ tl O O0 c' m R2 Hw (cs_mode f true m Hm) HM E2).
    + apply (HR K p1 L1 f (unmatch c1) b (N.succ i) l tl O O0 c' m R2 Hl Hw Hm HM (lim _ _ El) H).
  - apply goes_now; [lia|assumption|].
    apply (HE K p L (consumed_something f true) c tl O O0 c' m Hs Hw (cs_mode f true m Hm) HM H).
Qed.

Definition SPos (n : nat) : Prop := forall K start p L f c a b i l tl O O0 c' m,
  sim O (p, L) c -> forallb (mswf (map fst O)) l = true -> mswfs K O tl O0 -> mode_of f = m -> In m M ->
  (b = 0 \/ i <= b)%N -> (b = 0 \/ a <= b)%N ->
  poss_loop opt n v v start p f c a b i l tl = Ok c' -> goes a b i l tl K m (p, L) O O0 c'.

Lemma spos_step : forall n, SE n -> SPos n -> SPos (S n).
Proof.
  intros n HE HR K start p L f c a b i l tl O O0 c' m Hs Hl Hw Hm HM Hb Hab H. cbn [poss_loop] in H.
  unfold less_than_or_infinite in H.
  assert (Now : (a <= i)%N -> eval opt n v v p (consumed_something f (negb (Nat.eqb start p))) c tl = Ok c' ->
            goes a b i l tl K m (p, L) O O0 c').
  { intros Ha E1. apply goes_now; [lia|assumption|].
    apply (HE K p L _ c tl O O0 c' m Hs Hw (cs_mode f _ m Hm) HM E1). }
  destruct (N.eqb b 0 || N.ltb i b)%bool eqn:El; [|apply Now; [lia|assumption]].
  destruct (eval opt n v v p (not_empty_match f) c (cycle l)) as [c1| | | |] eqn:E1; try discriminate.
  - destruct (s_iter n HE p L f c l O c1 m Hs Hl Hm HM E1) as (p1 & L1 & R1 & R2 & R3).
    rewrite R3 in H. cbn [or_ub] in H. apply goes_step with (p1, L1); [assumption|].
    apply (HR K start p1 L1 f (unmatch c1) a b (N.succ i) l tl O O0 c' m R2 Hl Hw Hm HM (lim _ _ El) Hab H).
  - rewrite lt_spec' in H. destruct (N.ltb_spec i a); [discriminate|]. apply Now; assumption.
Qed.

Lemma goes_rep : forall k a b l tl K m st st1 O O0 c', iter (mround l m) (N.to_nat a) st st1 ->
  goes 0 b a l tl K m st1 O O0 c' ->
  exists y, mruns (AR (RRep k a b l) :: tl) (m, st) O y /\ fin_ok K O0 c' (snd y).
Proof.
  intros k a b l tl K m st st1 O O0 c' Hm (j & x & y & J1 & J2 & J3 & J4 & J5). exists y. split; [|assumption].
  exists (m, x). split; [|assumption]. exists (N.to_nat a + j). split; [lia|]. split; [lia|]. split; [reflexivity|].
  apply iter_add. exists st1. split; assumption.
Qed.
Lemma goes_rep0 : forall k a b l tl K m st O O0 c', goes a b 0 l tl K m st O O0 c' ->
  exists y, mruns (AR (RRep k a b l) :: tl) (m, st) O y /\ fin_ok K O0 c' (snd y).
Proof.
  intros k a b l tl K m st O O0 c' (j & x & y & J1 & J2 & J3 & J4 & J5). exists y. split; [|assumption].
  exists (m, x). split; [|assumption]. exists j. split; [lia|]. split; [lia|]. split; [reflexivity|]. assumption.
Qed.

Lemma s_back : forall n, SE n -> forall K p L f c id sl tl O O0 c' m,
  sim O (p, L) c -> mswfs K O tl O0 -> mode_of f = m -> In m M ->
  not_in id (map fst O) = true -> find_id id (cl c) = Some sl ->
  (if s_m sl then
      or_ub (s_beg sl) (fun b => or_ub (s_end sl) (fun e =>
      match match_range_loop n v p b e with
      | Ok (cur', true) =>
          eval opt n v v cur' (consumed_something f (negb (Nat.eqb b e))) c tl
      | Ok (_, false) => No
      | No => No | Fuel => Fuel | UB => UB | Ill => Ill
      end))
    else No) = Ok c' ->
  exists x y, back_sem s id (p, L) x /\ mruns tl (m, x) O y /\ fin_ok K O0 c' (snd y).
Proof.
  intros n HE K p L f c id sl tl O O0 c' m Hs Hw Hm HM Hid Hf H.
  apply not_in_spec in Hid as [Hid0 Hid].
  pose proof (m_closed _ _ _ _ _ Hs id sl Hid Hf) as Hc. cbn [snd] in Hc.
  destruct (s_m sl); [|discriminate].
  destruct Hc as (b & e & E1 & E2 & E3). rewrite E1, E2 in H. cbn [or_ub] in H.
  pose proof (m_st _ _ _ _ _ Hs) as Hst. destruct Hst as [T1 T2]. cbn [fst snd] in *.
  rewrite Forall_forall in T2. pose proof (T2 _ (lookup_in _ _ _ E3)) as Hb. cbn in Hb.
  pose proof (match_range_prefix s n p b e T1 Hb) as MR.
  destruct (match_range_loop n v p b e) as [[p' []]| | | |]; try discriminate.
  destruct MR as (M1 & M2 & M3). subst p'.
  apply (prefix_at_iff s names _ _ T1) in M1. destruct M1 as [M1 M2].
  assert (Hlen : length (text s b e) = e - b).
  { unfold text. rewrite firstn_length, skipn_length. lia. }
  rewrite Hlen in M1, M2.
  assert (Hmv : p <= p + (e - b) <= len) by lia.
  destruct (HE K (p + (e - b)) L _ c tl O O0 c' m (sim_move _ _ _ _ _ _ _ Hs Hmv) Hw
    (cs_mode f _ m Hm) HM H) as (y & R1 & R2).
  exists (p + (e - b), L), y. split; [|split; assumption].
  exists b, e. cbn [fst snd]. split; [assumption|].
  split; [assumption|]. split; [lia|reflexivity].
Qed.

Theorem msound_all : forall n, SE n /\ SReq n /\ SRec n /\ SLaz n /\ SPos n.
Proof.
  induction n as [|n (HE & HRq & HRc & HLz & HPs)].
  { split; [|split; [|split; [|split]]]; repeat intro; discriminate. }
  split; [|split; [|split; [|split]]];
    [|apply sreq_step; assumption | apply srec_step; assumption | apply slaz_step; assumption
     |apply spos_step; assumption].
  intros K p L f c stk O O0 c' m Hs Hw Hm HM H.
  assert (Hml : f_ml f = fst m) by (subst m; reflexivity).
  assert (Hci : f_ci f = snd m) by (subst m; reflexivity).
  destruct stk as [|a tl]; [contradiction|].
  destruct a as [r| | | | | | |id].
  - cbn [mswfs] in Hw. destruct Hw as [Hr Hw].
    assert (Hmv : forall p' f', p <= p' <= len -> mode_of f' = m -> msem r (m, (p, L)) (m, (p', L)) ->
      eval opt n v v p' f' c tl = Ok c' ->
      exists y, mruns (AR r :: tl) (m, (p, L)) O y /\ fin_ok K O0 c' (snd y)).
    { intros p' f' H1 H2 H4 H5.
      destruct (HE K p' L f' c tl O O0 c' m (sim_move _ _ _ _ _ _ _ Hs H1) Hw H2 HM H5) as (y & R1 & R2).
      exists y. split; [|assumption]. exists (m, (p', L)). auto. }
    pose proof (sim_pos _ _ _ _ _ _ Hs) as Hp.
    pose proof (m_st _ _ _ _ _ Hs) as Hst.
    destruct r as
      [ k | | t | l | l | | | k a b l | id l | id nm l | id | nm
      | neg l | neg l | l | k | k | a | md ]; cbn [eval] in H; cbn [ModeSound.mswf] in Hr.
    + (* RCls *)
      rewrite forallb_forall in Hr. specialize (Hr m HM). cbn beta in Hr.
      cbn [arr_view vend vget vnext or_ub] in H.
      destruct (Nat.eqb_spec p len) as [->|Hne]; [discriminate|].
      destruct (nth_error s p) as [x|] eqn:Ex; [|discriminate].
      cbn [or_ub] in H. rewrite Hci in H.
      rewrite match_cls_spec in H by (auto; eapply nth_val; eassumption).
      destruct (cls_has (snd m) k x) eqn:Ec; [|discriminate].
      destruct (Nat.ltb_spec p len); [|discriminate]. cbn [or_ub] in H.
      apply (Hmv (S p) (consumed_something f true)); auto; try lia.
      split; [reflexivity|]. exists x. auto.
    + (* RAny *)
      cbn [arr_view vend vget vnext or_ub] in H.
      destruct (Nat.eqb_spec p len) as [->|Hne]; [discriminate|].
      destruct (nth_error s p) as [x|] eqn:Ex; [|exfalso; apply nth_error_None in Ex; lia].
      destruct (Nat.ltb_spec p len); [|lia].
      rewrite Hml in H. destruct (fst m) eqn:Eml; cbn [option_map or_ub] in H.
      * destruct (Z.eqb_spec x 10); [discriminate|].
        apply (Hmv (S p) (consumed_something f true)); auto; try lia.
        split; [reflexivity|]. exists x. split; [assumption|]. split; [intros []; contradiction|reflexivity].
      * apply (Hmv (S p) (consumed_something f true)); auto; try lia.
        split; [reflexivity|]. exists x. split; [assumption|]. split; [cbn [fst]; intros []; congruence|reflexivity].
    + (* RStr *)
      rewrite Hci in H.
      pose proof (match_string_walk s (snd m) s_ok t p L Hr Hp) as MS.
      destruct (match_string v (snd m) t p) as [p'| | | |]; try discriminate.
      destruct MS as (M1 & M2 & M3).
      assert (Hin : In (p', L) (walk s (snd m) t (p, L))) by (rewrite M1; left; reflexivity).
      apply (walk_iff s (snd m) names) in Hin.
      eapply Hmv; [| | |exact H]; [lia | apply cs_mode; assumption | split; [reflexivity|exact Hin]].
    + (* RSelect *)
      destruct l as [|x xs]; [discriminate|].
      cbn [forallb] in Hr. apply andb_true_iff in Hr as [Hx Hxs].
      destruct (eval opt n v v p f c (AR x :: tl)) as [c1| | | |] eqn:E1; try discriminate.
      * injection H as ->.
        destruct (HE K p L f c (AR x :: tl) O O0 c' m Hs (conj Hx Hw) Hm HM E1) as (y & (z & R1 & R2) & R3).
        exists y. split; [|assumption]. exists z. split; [left; assumption|assumption].
      * destruct (HE K p L f c (AR (RSelect xs) :: tl) O O0 c' m Hs (conj Hxs Hw) Hm HM H)
          as (y & (z & R1 & R2) & R3).
        exists y. split; [|assumption]. exists z. split; [right; assumption|assumption].
    + (* RSeq *)
      destruct l as [|x xs]; [discriminate|]. cbn [forallb] in Hr.
      apply andb_true_iff in Hr as [Hx Hxs].
      destruct xs as [|y ys].
      * destruct (HE K p L f c (AR x :: tl) O O0 c' m Hs (conj Hx Hw) Hm HM H) as (y & (z & R1 & R2) & R3).
        exists y. split; [|assumption]. exists z. split; [|assumption]. rewrite msem_seq. exists z. split; [assumption|reflexivity].
      * destruct (HE K p L f c (AR x :: AR (RSeq (y :: ys)) :: tl) O O0 c' m Hs (conj Hx (conj Hxs Hw)) Hm HM H)
          as (z & (z1 & R1 & z2 & R2 & R2') & R3).
        exists z. split; [|assumption]. exists z2. split; [|assumption]. rewrite msem_seq. exists z1.
        rewrite msem_seq in R2. split; assumption.
    + (* REmpty *) apply (Hmv p f); auto. split; reflexivity.
    + (* RReject *) discriminate.
    + (* RRep *)
      destruct (negb (N.eqb b 0) && N.ltb b a)%bool eqn:Eab; [discriminate|].
      assert (Hab : (b = 0 \/ a <= b)%N) by lia.
      cbn [arr_view vconv negb] in H. fold v in H. destruct k.
      * destruct (becomes_possessive opt l tl) as [[|]|] eqn:Ebp; [| |discriminate].
        -- destruct (HE K p L f c (AR (RRep Possessive a b l) :: tl) O O0 c' m Hs (conj Hr Hw) Hm HM H)
             as (y & R1 & R2). exists y. split; assumption.
        -- destruct (req_loop opt n v v p f c a 0 l) as [[p' c1]| | | |] eqn:E1; try discriminate.
           destruct (HRq p L f c a 0%N l O p' c1 m Hs Hr Hm HM E1) as (L' & Q1 & Q2).
           rewrite N.sub_0_r in Q1. eapply goes_rep; [exact Q1|].
           apply (HRc K p' L' f c1 b a l tl O O0 c' m Q2 Hr Hw Hm HM Hab H).
      * destruct (req_loop opt n v v p f c a 0 l) as [[p' c1]| | | |] eqn:E1; try discriminate.
        destruct (HRq p L f c a 0%N l O p' c1 m Hs Hr Hm HM E1) as (L' & Q1 & Q2).
        rewrite N.sub_0_r in Q1. eapply goes_rep; [exact Q1|].
        destruct (eval opt n v v p' (consumed_something f (negb (Nat.eqb p p'))) c1 tl) as [c2| | | |] eqn:E2;
          try discriminate.
        -- injection H as ->. apply goes_now; [lia|lia|].
           apply (HE K p' L' _ c1 tl O O0 c' m Q2 Hw (cs_mode f _ m Hm) HM E2).
        -- apply (HLz K p' L' f c1 b a l tl O O0 c' m Q2 Hr Hw Hm HM Hab H).
      * apply goes_rep0. apply (HPs K p p L f c a b 0%N l tl O O0 c' m Hs Hr Hw Hm HM ltac:(lia) Hab H).
    + (* RCap *)
      apply andb_true_iff in Hr as [Hid Hl]. cbn [arr_view vconv] in H. fold v in H.
      destruct (start_capture id p c) as [c1|] eqn:Ec; [|discriminate]. cbn [or_ill] in H.
      destruct (HE K p L f c1 (AR (RSeq l) :: ANum id :: tl) ((id, p) :: O) O0 c' m
        (sim_start _ _ _ _ _ _ _ _ Hs Hid Ec) (conj Hl (conj eq_refl Hw)) Hm HM H)
        as (y & ([m1 [p1 L1]] & R1 & R2) & R3).
      exists y. split; [|assumption]. cbn [mruns] in R2.
      eexists. split; [|exact R2]. rewrite msem_cap. rewrite msem_seq in R1. exists m1, p1, L1.
      split; [assumption|reflexivity].
    + (* RNCap *)
      apply andb_true_iff in Hr as [Hid Hl]. cbn [arr_view vconv] in H. fold v in H.
      destruct (start_capture id p c) as [c1|] eqn:Ec; [|discriminate]. cbn [or_ill] in H.
      destruct (HE K p L f c1 (AR (RSeq l) :: ANum id :: tl) ((id, p) :: O) O0 c' m
        (sim_start _ _ _ _ _ _ _ _ Hs Hid Ec) (conj Hl (conj eq_refl Hw)) Hm HM H)
        as (y & ([m1 [p1 L1]] & R1 & R2) & R3).
      exists y. split; [|assumption]. cbn [mruns] in R2.
      eexists. split; [|exact R2]. rewrite msem_ncap. rewrite msem_seq in R1. exists m1, p1, L1.
      split; [assumption|reflexivity].
    + (* RBack *)
      cbn [arr_view vsame negb] in H. fold v in H. pose proof (not_in_spec _ _ Hr) as [Hid _].
      unfold get_id in H. destruct (Nat.eqb_spec id 0) as [|_]; [contradiction|].
      destruct (find_id id (cl c)) as [sl|] eqn:Ef; [|discriminate]. cbn [or_ill] in H.
      destruct (s_back n HE K p L f c id sl tl O O0 c' m Hs Hw Hm HM Hr Ef H) as (x & y & R1 & R2 & R3).
      exists y. split; [|assumption]. exists (m, x). split; [split; [reflexivity|exact R1]|assumption].
    + (* RNBack *)
      cbn [arr_view vsame negb] in H. fold v in H.
      destruct (get_name nm (cl c)) as [sl|] eqn:Eg; [|discriminate]. cbn [or_ill] in H.
      destruct (names_find _ G_dup nm (cl c) sl (m_ids _ _ _ _ _ Hs) Eg) as (id & En & Ef). rewrite En in Hr.
      destruct (s_back n HE K p L f c id sl tl O O0 c' m Hs Hw Hm HM Hr Ef H) as (x & y & R1 & R2 & R3).
      exists y. split; [|assumption]. exists (m, x). split; [split; [reflexivity|exists id; split; assumption]|assumption].
    + (* RAhead *)
      destruct neg.
      * rewrite forallb_forall in Hr. specialize (Hr m HM). cbn beta in Hr.
        apply andb_true_iff in Hr as [Hr Ho]. apply andb_true_iff in Hr as [Hr Hpl].
        apply andb_true_iff in Hr as [Hwf Htm].
        destruct (refine_all opt s (fst m) (snd m) G s_ok G_dup n) as (I1 & _).
        specialize (I1 KAhead p p L f c [AR (RSeq l); AEndAhead] O O Hs).
        assert (W : wfs (snd m) G KAhead O [AR (RSeq l); AEndAhead] O).
        { split; [exact Hwf|]. split; reflexivity. }
        assert (OW : ows opt s (fst m) (snd m) G [AR (RSeq l); AEndAhead]).
        { split; [|exact I]. apply ow_check_sound; assumption. }
        specialize (I1 W OW (J_other KAhead p (f_block f) p _ ltac:(discriminate)) Hml Hci).
        destruct (eval opt n v v p f c [AR (RSeq l); AEndAhead]) as [c1| | | |]; try discriminate.
        cbn [good] in I1. rewrite outs_ahead in I1.
        apply (Hmv p f); auto. rewrite msem_ahead. split; [reflexivity|].
        intros [m1 x] Hx.
        apply (msems_plain s names l (wf_no_switch _ _ (RSeq l) _ Hwf)) in Hx as [_ Hx].
        assert (Htame : tame s (fst m) (snd m) names (RSeq l)).
        { apply tame_check_sound; assumption. }
        assert (Hplain : plain s (fst m) (snd m) names (RSeq l)).
        { apply plain_check_sound; assumption. }
        pose proof (cut_agrees s (fst m) (snd m) names (RSeq l) Htame (p, L) Hst) as Hcut.
        destruct (enum_sem s (fst m) (snd m) names (RSeq l)) as (_ & _ & Hc).
        pose proof (Hc Hplain (p, L) x Hst) as Hc1. rewrite sem_seq in Hc1. specialize (Hc1 Hx).
        rewrite <- Hcut in Hc1. rewrite enum_seq in Hc1. rewrite I1 in Hc1. contradiction.
      * destruct (eval opt n v v p f c [AR (RSeq l); AEndAhead]) as [c1| | | |] eqn:E1; try discriminate.
        destruct (HE KAhead p L f c [AR (RSeq l); AEndAhead] O O c1 m Hs (conj Hr (conj eq_refl eq_refl)) Hm HM E1)
          as (y & (z & R1 & R2) & R3 & _).
        cbn [mruns] in R2. subst z. destruct y as [m1 [p1 L1]]. cbn [snd] in R3.
        assert (Hs' : sim O (p, L1) (unmatch c1)).
        { destruct R3 as [S1 S2 S3 S4 S5 S6 S7]. constructor; auto.
           - destruct S1. split; [exact Hp | assumption].
           - intros id b Hin. destruct (S7 id b Hin) as [_ H2]. split; [|assumption].
             apply (m_open _ _ _ _ _ Hs id b Hin). }
        destruct (HE K p L1 f (unmatch c1) tl O O0 c' m Hs' Hw Hm HM H) as (y & Q1 & Q2).
        exists y. split; [|assumption]. exists (m, (p, L1)). split; [|assumption].
        rewrite msem_ahead. rewrite msem_seq in R1. exists m1, p1, L1. split; [assumption|reflexivity].
    + (* RBehind *)
      apply andb_true_iff in Hr as [Hne Hl]. rewrite forallb_forall in Hl. specialize (Hl m HM). cbn beta in Hl.
      pose proof (behind_spec s (fst m) (snd m) s_ok opt n v p f c [RSeq l] Hml Hci) as B.
      cbn [forallb bwf] in B. rewrite Hne, Hl in B. specialize (B eq_refl Hp).
      cbn [map app] in B. rewrite bseq_cons, benum_seq in B.
      replace (flat_map (bseq s (fst m) (snd m) []) (bseq s (fst m) (snd m) l p)) with (bseq s (fst m) (snd m) l p) in B
        by (symmetry; apply flat_map_single).
      destruct neg.
      * destruct (eval opt n (rev_view v) v p f c [AR (RSeq l); AEndBehind]) as [c1| | | |];
          try discriminate.
        apply (Hmv p f); auto. split; [reflexivity|]. split; [reflexivity|exact B].
      * destruct (eval opt n (rev_view v) v p f c [AR (RSeq l); AEndBehind]) as [c1| | | |];
          try discriminate.
        destruct B as [-> B].
        assert (Hs' : sim O (p, L) (unmatch (set_matched c))) by (apply sim_c0 with c; auto).
        destruct (HE K p L f _ tl O O0 c' m Hs' Hw Hm HM H) as (y & Q1 & Q2).
        exists y. split; [|assumption]. exists (m, (p, L)). split; [|assumption].
        split; [reflexivity|]. split; [reflexivity|exact B].
    + (* RAtomic *)
      destruct (HE K p L f c (AR (RRep Possessive 1 1 l) :: tl) O O0 c' m Hs (conj Hr Hw) Hm HM H)
        as (y & (z & R1 & R2) & R3).
      exists y. split; [|assumption]. exists z. split; [|assumption].
      rewrite msem_rep in R1. destruct R1 as (k & K1 & K2 & K3 & K4).
      assert (k = 1) by lia. subst k. destruct K4 as (x & K4 & K5). cbn [iter] in K5. subst x.
      rewrite msem_atomic. split; assumption.
    + (* RBound *)
      rewrite forallb_forall in Hr. specialize (Hr m HM). cbn beta in Hr.
      rewrite Hci, around_boundary in H by auto.
      destruct (Bool.eqb _ _) eqn:Eb; [discriminate|]. apply (Hmv p f); auto.
      split; [reflexivity|]. split; [reflexivity|]. unfold boundary. cbn [fst snd].
      destruct (char_before s (cls_has (snd m) k) p), (char_after s (cls_has (snd m) k) p); try discriminate; reflexivity.
    + (* RNotBound *)
      rewrite forallb_forall in Hr. specialize (Hr m HM). cbn beta in Hr.
      rewrite Hci, around_boundary in H by auto.
      destruct (Bool.eqb _ _) eqn:Eb; [|discriminate]. apply (Hmv p f); auto.
      split; [reflexivity|]. split; [reflexivity|]. unfold boundary. cbn [fst snd].
      destruct (char_before s (cls_has (snd m) k) p), (char_after s (cls_has (snd m) k) p); try discriminate; reflexivity.
    + (* RAssert *)
      rewrite Hml, assert_holds in H by auto.
      destruct (holds s (fst m) a p) eqn:Eh; [|discriminate]. apply (Hmv p f); auto.
      split; [reflexivity|]. split; [reflexivity|exact Eh].
    + (* RMode *)
      rewrite forallb_forall in Hr. specialize (Hr m HM). apply in_modes_spec in Hr.
      assert (Hm' : mode_of (add_mode f md) = switch md m) by (rewrite mode_add, Hm; reflexivity).
      destruct (HE K p L (add_mode f md) c tl O O0 c' (switch md m) Hs Hw Hm' Hr H) as (y & R1 & R2).
      exists y. split; [|assumption]. exists (switch md m, (p, L)). split; [reflexivity|assumption].
  - cbn in Hw. contradiction.
  - cbn in Hw. contradiction.
  - (* AEnd *)
    cbn [mswfs] in Hw. destruct tl as [|[] [|]]; try contradiction. destruct Hw as [-> ->].
    cbn [eval arr_view vconv] in H. destruct n as [|n]; [discriminate|]. cbn in H. injection H as <-.
    exists (m, (p, L)). split; [reflexivity|]. split; [|reflexivity].
    eapply sim_c0; [exact Hs | reflexivity | reflexivity].
  - (* AEndCycle *)
    cbn [mswfs] in Hw. destruct tl; [|contradiction]. destruct Hw as [-> ->].
    cbn [eval arr_view vconv negb] in H. destruct (f_block f); [discriminate|]. injection H as <-.
    exists (m, (p, L)). split; [reflexivity|]. split; [|reflexivity].
    eapply sim_c0; [exact Hs | reflexivity | reflexivity].
  - (* AEndAhead *)
    cbn [mswfs] in Hw. destruct tl; [|contradiction]. destruct Hw as [-> ->].
    cbn [eval] in H. injection H as <-.
    exists (m, (p, L)). split; [reflexivity|]. split; [|congruence].
    eapply sim_c0; [exact Hs | reflexivity | reflexivity].
  - cbn in Hw. destruct tl; contradiction.
  - (* ANum *)
    cbn [mswfs] in Hw. destruct O as [|[i b] O']; [contradiction|]. destruct Hw as [-> Hw].
    cbn [eval arr_view vconv] in H. fold v in H.
    destruct (end_capture id p c) as [c1|] eqn:Ec; [|discriminate]. cbn [or_ill] in H.
    destruct (HE K p ((id, (b, p)) :: L) f c1 tl O' O0 c' m (sim_end _ _ _ _ _ _ _ _ _ Hs Ec) Hw Hm HM H)
      as (y & R1 & R2).
    exists y. split; assumption.
Qed.
End Sound.
