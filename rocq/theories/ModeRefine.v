(** Refinement for patterns with mode switches anywhere: on a contiguous subject the evaluator returns the
    first outcome of [ModeEnum.menum] with the library's discipline, or fails exactly when there is
    none. The argument is the one of EvalRefine.v with the mode in the state. *)
From Coq Require Import List ZArith NArith Bool Lia Arith ZifyBool ZifyN ZifyNat.
From Verif Require Import Chars Syntax First View Eval Api Spec CharProofs EvalMono EvalInv EvalSem SpecProps
  EvalRefine SpecCut Mode ModeSem ModeSound ModeEnum.
Import ListNotations.

(** Patterns covered. [M]: the modes that can be in effect; otherwise as in [EvalSem.wf]. *)
Fixpoint mwf (M : list modes) (names : list Z -> option nat) (O : list nat) (r : re) : bool :=
  match r with
  | RCls c | RBound c | RNotBound c => forallb (fun m => cls_ok (snd m) c) M
  | RStr t => forallb lit_ok t
  | RSelect l => forallb (mwf M names O) l
  | RSeq l | RAhead _ l => nonempty l && forallb (mwf M names O) l
  | RAny | REmpty | RReject | RAssert _ => true
  | RRep _ _ _ l | RAtomic l => body_ok l && forallb (mwf M names O) l
  | RCap id l | RNCap id _ l => not_in id O && nonempty l && forallb (mwf M names (id :: O)) l
  | RBack id => not_in id O
  | RNBack nm => match names nm with Some id => not_in id O | None => true end
  | RBehind _ l => nonempty l && forallb (fun m => forallb (bwf (snd m)) l) M
  | RMode k => forallb (fun m => in_modes M (switch k m)) M
  end.

(** * Loops over any body *)
Section Loops.
Variable s : list Z.
Variable G : list (nat * option (list Z)).
Notation names := (name_number G).
Notation len := (length s).
Notation st_ok := (st_ok s).
Variable bd : state -> list state.
Hypothesis bd_forth : forall st st', In st' (bd st) -> forth s st st'.

Definition one (st : state) : list state := firstn 1 (filter (advances st) (bd st)).
Notation mand := (mandatory true bd).
Notation mg := (more_greedy true bd).
Notation mz := (more_lazy true bd).

Lemma mand_S : forall k st, mand (S k) st = flat_map (mand k) (one st).
Proof. reflexivity. Qed.

Lemma one_shape : forall st, one st = [] \/ exists st', one st = [st'] /\ fst st < fst st'.
Proof.
  clear bd_forth.
  intros st. unfold one. destruct (filter (advances st) (bd st)) as [|x xs] eqn:E; [auto|].
  right. exists x. split; [reflexivity|].
  assert (In x (filter (advances st) (bd st))) by (rewrite E; left; reflexivity).
  apply filter_In in H as [_ H]. apply Nat.ltb_lt in H. assumption.
Qed.

Lemma mg_S : forall k b i st, mg (S k) b i st =
  (if N.eqb b 0 || N.ltb i b then flat_map (mg k b (N.succ i)) (one st) else []) ++ [st].
Proof. reflexivity. Qed.
Lemma mz_S : forall k b i st, mz (S k) b i st =
  st :: (if N.eqb b 0 || N.ltb i b then flat_map (mz k b (N.succ i)) (one st) else []).
Proof. reflexivity. Qed.

(** Outcomes of a possessive repetition after [i] iterations. *)
Definition pv (a b i : N) (st : state) : list state :=
  flat_map (fun x => mg (S (len - fst x)) b (N.max a i) x) (mand (N.to_nat (a - i)) st).

Lemma mg_nonempty : forall k b i st, mg (S k) b i st <> [].
Proof.
  clear bd_forth. intros. rewrite mg_S. intros H. apply app_eq_nil in H as [_ H]. discriminate. Qed.

Lemma one_ok : forall st st', st_ok st -> one st = [st'] -> st_ok st' /\ fst st < fst st'.
Proof.
  intros st st' Hs H. assert (Hin : In st' (one st)) by (rewrite H; left; reflexivity).
  unfold one in Hin. apply firstn1_in in Hin. apply filter_In in Hin as [H1 H2].
  apply Nat.ltb_lt in H2. split; [|assumption].
  exact (proj1 (bd_forth _ _ H1 Hs)).
Qed.


Lemma pv_step : forall a b i st st', st_ok st -> (b = 0 \/ a <= b)%N ->
  (N.eqb b 0 || N.ltb i b)%bool = true -> one st = [st'] ->
  firstn 1 (pv a b i st) = firstn 1 (pv a b (N.succ i) st').
Proof.
  intros a b i st st' Hs Hab Hlim H1. destruct (one_ok _ _ Hs H1) as [Hs' Hlt]. unfold pv.
  destruct (N.ltb_spec i a) as [Hi|Hi].
  - replace (N.to_nat (a - i)) with (S (N.to_nat (a - N.succ i))) by lia.
    rewrite mand_S, H1, flat_map_one.
    replace (N.max a i) with a by lia. replace (N.max a (N.succ i)) with a by lia. reflexivity.
  - replace (a - i)%N with 0%N by lia. replace (a - N.succ i)%N with 0%N by lia.
    replace (N.max a i) with i by lia. replace (N.max a (N.succ i)) with (N.succ i) by lia.
    cbn [N.to_nat mandatory]. rewrite !flat_map_one. rewrite mg_S, Hlim, H1, flat_map_one.
    assert (Hl : len - fst st = S (len - fst st - 1)) by (destruct Hs'; lia).
    rewrite firstn1_app by (rewrite Hl; apply mg_nonempty). f_equal.
    apply (greedy_fuel s names true); [exact bd_forth | assumption | destruct Hs'; lia | lia].
Qed.

Lemma pv_stop : forall a b i st, (a <= i)%N ->
  ((N.eqb b 0 || N.ltb i b)%bool = false \/ one st = []) -> pv a b i st = [st].
Proof.
  clear bd_forth.
  intros a b i st Hi H. unfold pv. replace (a - i)%N with 0%N by lia.
  replace (N.max a i) with i by lia. cbn [N.to_nat mandatory]. rewrite flat_map_one, mg_S.
  destruct H as [-> | ->]; [reflexivity|]. destruct (N.eqb b 0 || N.ltb i b)%bool; reflexivity.
Qed.
Lemma pv_fail : forall a b i st, (i < a)%N -> one st = [] -> pv a b i st = [].
Proof.
  clear bd_forth.
  intros a b i st Hi H. unfold pv.
  replace (N.to_nat (a - i)) with (S (N.to_nat (a - N.succ i))) by lia.
  rewrite mand_S, H. reflexivity.
Qed.

Lemma iterate_pv : forall k a b st, (negb (N.eqb b 0) && N.ltb b a)%bool = false ->
  iterate s true bd k a b st =
  match k with
  | Greedy => pv a b 0 st
  | Possessive => firstn 1 (pv a b 0 st)
  | Lazy => flat_map (fun x => mz (S (len - fst x)) b a x) (mand (N.to_nat a) st)
  end.
Proof.
  clear bd_forth.
  intros k a b st H. unfold iterate, pv. rewrite H. rewrite N.sub_0_r.
  replace (N.max a 0) with a by lia. reflexivity.
Qed.

End Loops.

Section Refine.
Variable opt : bool.
Variable s : list Z.
Variable M : list modes.
Variable G : list (nat * option (list Z)).
Hypothesis s_ok : forallb val_ok s = true.
Hypothesis G_dup : NoDup (map fst G).

Notation names := (name_number G).
Notation enum := (menum s names true).
Notation enums := (menums s names true).
Notation B := (mbody s names true).
Notation v := (arr_view s).
Notation len := (length s).
Notation wf := (mwf M names).
Notation sim := (sim s G).
Notation good := (good s G).
Notation st_ok := (st_ok s).
Notation ms m p L := (@pair modes state m (p, L)).
Notation one l m := (one (B l m)).
Notation mand l m := (mandatory true (B l m)).
Notation mg l m := (more_greedy true (B l m)).
Notation mz l m := (more_lazy true (B l m)).
Notation pv l m := (pv s (B l m)).

(** Final outcomes of a stack, without the final mode. *)
Fixpoint mouts (p0 : nat) (stk : list atom) (x : mstate) (O : list (nat * nat)) : list state :=
  match stk with
  | AR r :: tl => flat_map (fun y => mouts p0 tl y O) (enum r x)
  | ANum id :: tl =>
      match O with
      | (i, b) :: O' => mouts p0 tl (fst x, (fst (snd x), (id, (b, fst (snd x))) :: snd (snd x))) O'
      | [] => []
      end
  | AEnd :: tl => mouts p0 tl x O
  | [AAccept] | [AEndAhead] => [snd x]
  | [AEndCycle] => if Nat.ltb p0 (fst (snd x)) then [snd x] else []
  | _ => []
  end.

(** The greedy optimisation at one repetition with content [l] before the stack [tl], in every mode. *)
Definition mopt_pair (a b : N) (l : list re) (tl : list atom) : Prop :=
  becomes_possessive opt l tl = Some true ->
  forall p0 m st O, In m M -> st_ok st -> Forall (fun e => snd e <= fst st) O ->
    hd_error (mouts p0 (AR (RRep Greedy a b l) :: tl) (m, st) O)
    = hd_error (mouts p0 (AR (RRep Possessive a b l) :: tl) (m, st) O).

(** ... at every repetition inside [r], evaluated before [tl]. *)
Fixpoint mow (r : re) (tl : list atom) : Prop :=
  let oseq := fix oseq (l : list re) (tl : list atom) : Prop :=
    match l with
    | [] => True
    | [x] => mow x tl
    | x :: xs => mow x (AR (RSeq xs) :: tl) /\ oseq xs tl
    end in
  let ocyc := fix ocyc (l : list re) : Prop :=
    match l with
    | [] => True
    | x :: xs => mow x (map AR xs ++ [AEndCycle]) /\ ocyc xs
    end in
  match r with
  | RSelect l => (fix oall (l : list re) : Prop :=
                    match l with [] => True | x :: xs => mow x tl /\ oall xs end) l
  | RSeq l => oseq l tl
  | RRep k a b l => ocyc l /\ (k = Greedy -> mopt_pair a b l tl)
  | RCap id l | RNCap id _ l => oseq l (ANum id :: tl)
  | RAhead _ l => oseq l [AEndAhead]
  | RAtomic l => ocyc l
  | _ => True
  end.
Fixpoint mows (stk : list atom) : Prop :=
  match stk with
  | [] => True
  | AR r :: tl => mow r tl /\ mows tl
  | _ :: tl => mows tl
  end.

(** Well-formed stacks; [O0]: groups open after the stack. *)
Fixpoint mwfs (K : fkind) (O : list (nat * nat)) (stk : list atom) (O0 : list (nat * nat)) : Prop :=
  match stk with
  | AR r :: tl => wf (map fst O) r = true /\ mwfs K O tl O0
  | ANum id :: tl => match O with (i, _) :: O' => i = id /\ mwfs K O' tl O0 | [] => False end
  | [AEnd; AAccept] => K = KAcc /\ O = O0
  | [AEndCycle] => K = KCyc /\ O = O0
  | [AEndAhead] => K = KAhead /\ O = O0
  | _ => False
  end.

(** ** Outcomes *)
Lemma flat_map_pair : forall A (g : mstate -> list A) (m : modes) l,
  flat_map g (map (pair m) l) = flat_map (fun st => g (@pair modes state m st)) l.
Proof. intros A g m l. apply flat_map_map. Qed.

Lemma outs_cycle : forall p0 l x O,
  mouts p0 (cycle l) x O = filter (fun st' => Nat.ltb p0 (fst st')) (map snd (enums l x)).
Proof.
  unfold cycle. induction l as [|r l IH]; intros x O.
  - cbn. destruct (Nat.ltb p0 (fst (snd x))); reflexivity.
  - cbn [map app mouts]. rewrite menums_cons.
    induction (enum r x) as [|y ys IHy]; [reflexivity|]. cbn [flat_map]. rewrite map_app, filter_app, IHy, IH. reflexivity.
Qed.

Lemma outs_ahead : forall p0 l x O, mouts p0 [AR (RSeq l); AEndAhead] x O = map snd (enums l x).
Proof.
  intros p0 l x O. cbn [mouts]. rewrite menum_seq. induction (enums l x) as [|y ys IH]; [reflexivity|].
  cbn [flat_map map app]. rewrite IH. reflexivity.
Qed.

Lemma outs_seq : forall p0 x xs tl st O,
  mouts p0 (AR (RSeq (x :: xs)) :: tl) st O = mouts p0 (AR x :: AR (RSeq xs) :: tl) st O.
Proof.
  intros. cbn [mouts]. rewrite menum_seq, menums_cons, flat_map_flat. apply flat_map_ext_all.
  intros st'. rewrite menum_seq. reflexivity.
Qed.
Lemma outs_seq1 : forall p0 x tl st O,
  mouts p0 (AR (RSeq [x]) :: tl) st O = mouts p0 (AR x :: tl) st O.
Proof.
  intros. rewrite outs_seq. cbn [mouts]. apply flat_map_ext_all. intros st'.
  rewrite menum_seq. cbn [menums]. apply flat_map_one.
Qed.
Lemma outs_cap : forall p0 id l tl x O,
  flat_map (fun y => mouts p0 tl y O)
    (map (fun y => (fst y, (fst (snd y), (id, (fst (snd x), fst (snd y))) :: snd (snd y)))) (enums l x))
  = mouts p0 (AR (RSeq l) :: ANum id :: tl) x ((id, fst (snd x)) :: O).
Proof. intros. rewrite flat_map_map. cbn [mouts]. rewrite menum_seq. reflexivity. Qed.

Lemma atomic_pv : forall l x, enum (RAtomic l) x = enum (RRep Possessive 1 1 l) x.
Proof.
  intros l [m st]. rewrite menum_atomic, menum_rep. cbn [fst snd]. f_equal. rewrite iterate_pv by reflexivity.
  unfold ModeRefine.pv. change (N.to_nat (1 - 0)) with 1. change (N.max 1 0) with 1%N.
  cbn [mandatory keep progress]. rewrite flat_map_single.
  destruct (filter (advances st) (B l m st)) as [|x xs]; [reflexivity|].
  cbn [firstn flat_map]. reflexivity.
Qed.

(** ** Side conditions under unfolding *)
Fixpoint oseq (l : list re) (tl : list atom) : Prop :=
  match l with
  | [] => True
  | [x] => mow x tl
  | x :: xs => mow x (AR (RSeq xs) :: tl) /\ oseq xs tl
  end.
Fixpoint ocyc (l : list re) : Prop :=
  match l with
  | [] => True
  | x :: xs => mow x (map AR xs ++ [AEndCycle]) /\ ocyc xs
  end.
Lemma ow_seq : forall l tl, mow (RSeq l) tl = oseq l tl.
Proof. reflexivity. Qed.
Lemma ow_select : forall x xs tl, mow (RSelect (x :: xs)) tl = (mow x tl /\ mow (RSelect xs) tl).
Proof. reflexivity. Qed.
Lemma ow_rep : forall k a b l tl, mow (RRep k a b l) tl = (ocyc l /\ (k = Greedy -> mopt_pair a b l tl)).
Proof. reflexivity. Qed.
Lemma ow_cap : forall id l tl, mow (RCap id l) tl = oseq l (ANum id :: tl).
Proof. reflexivity. Qed.
Lemma ow_ncap : forall id nm l tl, mow (RNCap id nm l) tl = oseq l (ANum id :: tl).
Proof. reflexivity. Qed.
Lemma ow_ahead : forall neg l tl, mow (RAhead neg l) tl = oseq l [AEndAhead].
Proof. reflexivity. Qed.
Lemma ow_atomic : forall l tl, mow (RAtomic l) tl = ocyc l.
Proof. reflexivity. Qed.

Lemma ows_cycle : forall l, ocyc l -> mows (cycle l).
Proof.
  unfold cycle. induction l as [|x l IH]; cbn [ocyc map app mows]; [tauto|].
  intros [H1 H2]. split; [assumption|auto].
Qed.
Lemma wfs_cycle : forall l O, forallb (wf (map fst O)) l = true -> mwfs KCyc O (cycle l) O.
Proof.
  unfold cycle. induction l as [|x l IH]; cbn [forallb map app mwfs]; intros O H; [auto|].
  apply andb_true_iff in H as [H1 H2]. split; auto.
Qed.
Definition E (n : nat) : Prop := forall K p0 p L f m c stk O O0,
  sim O (p, L) c -> mwfs K O stk O0 -> mows stk -> J K p0 (f_block f) p stk ->
  mode_of f = m -> In m M ->
  good K O0 (mouts p0 stk (ms m p L) O) (eval opt n v v p f c stk).

Definition rep_ok (O : list (nat * nat)) (l : list re) : Prop :=
  forallb (wf (map fst O)) l = true /\ body_ok l = true /\ ocyc l.

Lemma iter_ok : forall n, E n -> forall p L f m c l O, sim O (p, L) c -> rep_ok O l ->
  mode_of f = m -> In m M ->
  match eval opt n v v p (not_empty_match f) c (cycle l) with
  | Ok c' => exists st', one l m (p, L) = [st'] /\ sim O st' (unmatch c') /\
               s_end (c0 c') = Some (fst st') /\ p < fst st'
  | No => one l m (p, L) = []
  | _ => True
  end.
Proof.
  intros n HE p L f m c l O Hs (R1 & R2 & R3) Hml Hci.
  pose proof (HE KCyc p p L (not_empty_match f) m c (cycle l) O O Hs (wfs_cycle l O R1)
                (ows_cycle l R3)) as H.
  assert (HJ : J KCyc p (f_block (not_empty_match f)) p (cycle l)).
  { intros _. split; [lia|]. split; [lia|]. intros _.
    rewrite snonnull_cycle, saccurate_cycle. unfold body_ok in R2.
    apply orb_true_iff in R2. cbn. tauto. }
  specialize (H HJ Hml Hci). rewrite outs_cycle in H. unfold EvalRefine.good in H.
  change (filter (fun st' => Nat.ltb p (fst st')) (map snd (enums l (ms m p L))))
    with (filter (advances (p, L)) (B l m (p, L))) in H. unfold ModeRefine.one.
  destruct (eval opt n v v p (not_empty_match f) c (cycle l)); auto.
  - destruct H as (st' & rest & H1 & H2 & H3). exists st'. rewrite H1.
    split; [reflexivity|]. split; [assumption|]. split; [apply H3; discriminate|].
    assert (Hin : In st' (filter (advances (p, L)) (B l m (p, L))))
      by (rewrite H1; left; reflexivity).
    apply filter_In in Hin as [_ Hin]. apply Nat.ltb_lt in Hin. exact Hin.
  - rewrite H. reflexivity.
Qed.

(** ** The loops, given the evaluator with less fuel *)

Definition Req (n : nat) : Prop := forall p L f m c a i l O,
  sim O (p, L) c -> rep_ok O l -> mode_of f = m -> In m M ->
  match req_loop opt n v v p f c a i l with
  | Ok (p', c') => exists L', mand l m (N.to_nat (a - i)) (p, L) = [(p', L')] /\
      sim O (p', L') c' /\ p <= p' /\ ((i < a)%N -> p < p')
  | No => mand l m (N.to_nat (a - i)) (p, L) = []
  | _ => True
  end.


Lemma req_step : forall n, E n -> Req n -> Req (S n).
Proof.
  intros n HE HR p L f m c a i l O Hs Hl Hml Hci. cbn [req_loop]. rewrite (lt_spec s).
  destruct (N.ltb_spec i a) as [Hi|Hi].
  - replace (N.to_nat (a - i)) with (S (N.to_nat (a - N.succ i))) by lia. rewrite mand_S.
    pose proof (iter_ok n HE p L f m c l O Hs Hl Hml Hci) as H.
    destruct (eval opt n v v p (not_empty_match f) c (cycle l)) as [c'| | | |]; try exact I.
    + destruct H as ([p' L'] & H1 & H2 & H3 & H4). cbn [fst] in *. rewrite H3. cbn [or_ub].
      rewrite H1, flat_map_one.
      specialize (HR p' L' f m (unmatch c') a (N.succ i) l O H2 Hl Hml Hci).
      destruct (req_loop opt n v v p' f (unmatch c') a (N.succ i) l) as [[p2 c2]| | | |]; try exact I; [|exact HR].
      destruct HR as (L2 & R1 & R2 & R3 & R4). exists L2. split; [assumption|].
      split; [assumption|]. split; lia.
    + rewrite H. reflexivity.
  - replace (a - i)%N with 0%N by lia. cbn. exists L. split; [reflexivity|]. split; [assumption|].
    split; lia.
Qed.

Notation outs_of p0 tl O m := (fun st => mouts p0 tl (m, st) O).

Definition Rec (n : nat) : Prop := forall K p0 p L f m c b i l tl O O0 k,
  sim O (p, L) c -> rep_ok O l -> mwfs K O tl O0 -> mows tl -> mode_of f = m -> In m M ->
  (K = KCyc -> p0 <= p /\ (p0 < p \/ snonnull tl = true)) -> len - p < k ->
  good K O0 (flat_map (outs_of p0 tl O m) (mg l m k b i (p, L))) (rec_loop opt n v v p f c b i l tl).


Lemma cs_mode : forall f b m, mode_of f = m -> mode_of (consumed_something f b) = m.
Proof. intros f [] m H; exact H. Qed.

Lemma rec_step : forall n, E n -> Rec n -> Rec (S n).
Proof.
  intros n HE HR K p0 p L f m c b i l tl O O0 k Hs Hl Hw Ho Hml Hci HK Hk.
  destruct k as [|k]; [lia|]. cbn [rec_loop]. rewrite mg_S, flat_map_app, flat_map_one.
  pose proof (HE K p0 p L (consumed_something f true) m c tl O O0 Hs Hw Ho) as Ht.
  assert (HJ : J K p0 (f_block (consumed_something f true)) p tl).
  { intros HKc. destruct (HK HKc) as [H1 H2]. split; [assumption|]. split; [reflexivity|].
    intros ->. left. destruct H2; [lia|assumption]. }
  specialize (Ht HJ (cs_mode f true m Hml) Hci).
  unfold less_than_or_infinite. destruct (N.eqb b 0 || N.ltb i b)%bool; [|exact Ht].
  pose proof (iter_ok n HE p L f m c l O Hs Hl Hml Hci) as H.
  destruct (eval opt n v v p (not_empty_match f) c (cycle l)) as [c'| | | |]; try exact I.
  - destruct H as ([p' L'] & H1 & H2 & H3 & H4). cbn [fst] in *. rewrite H3. cbn [or_ub].
    rewrite H1, flat_map_one.
    assert (Hk' : len - p' < k) by (pose proof (sim_pos _ _ _ _ _ _ H2); lia).
    specialize (HR K p0 p' L' f m (unmatch c') b (N.succ i) l tl O O0 k H2 Hl Hw Ho Hml Hci).
    assert (HK' : K = KCyc -> p0 <= p' /\ (p0 < p' \/ snonnull tl = true)).
    { intros HKc. destruct (HK HKc). split; [lia|left; lia]. }
    specialize (HR HK' Hk').
    destruct (rec_loop opt n v v p' f (unmatch c') b (N.succ i) l tl) as [c2| | | |]; try exact I.
    + apply good_app. exact HR.
    + cbn [EvalRefine.good] in HR. rewrite HR. exact Ht.
  - rewrite H. exact Ht.
Qed.

Definition Laz (n : nat) : Prop := forall K p0 p L f m c b i l tl O O0 k,
  sim O (p, L) c -> rep_ok O l -> mwfs K O tl O0 -> mows tl -> mode_of f = m -> In m M ->
  (K = KCyc -> p0 <= p /\ ((0 < i)%N -> p0 < p \/ snonnull tl = true)) -> len - p < k ->
  mouts p0 tl (ms m p L) O = [] ->
  good K O0 (flat_map (outs_of p0 tl O m) (mz l m k b i (p, L))) (lazy_loop opt n v v p f c b i l tl).

Lemma laz_step : forall n, E n -> Laz n -> Laz (S n).
Proof.
  intros n HE HR K p0 p L f m c b i l tl O O0 k Hs Hl Hw Ho Hml Hci HK Hk Hnil.
  destruct k as [|k]; [lia|]. cbn [lazy_loop]. rewrite mz_S. cbn [flat_map]. rewrite Hnil.
  cbn [app]. unfold less_than_or_infinite.
  destruct (N.eqb b 0 || N.ltb i b)%bool eqn:Elim.
  - pose proof (iter_ok n HE p L f m c l O Hs Hl Hml Hci) as H.
    destruct (eval opt n v v p (not_empty_match f) c (cycle l)) as [c'| | | |]; try exact I.
    + destruct H as ([p' L'] & H1 & H2 & H3 & H4). cbn [fst] in *. rewrite H3. cbn [or_ub].
      rewrite H1, flat_map_one.
      assert (Hk' : len - p' < k) by (pose proof (sim_pos _ _ _ _ _ _ H2); lia).
      pose proof (HE K p0 p' L' (consumed_something f true) m (unmatch c') tl O O0 H2 Hw Ho) as Ht.
      assert (HJ : J K p0 (f_block (consumed_something f true)) p' tl).
      { intros HKc. destruct (HK HKc) as [HH _]. split; [lia|]. split; [reflexivity|]. lia. }
      specialize (Ht HJ (cs_mode f true m Hml) Hci).
      destruct k as [|k]; [lia|].
      destruct (eval opt n v v p' (consumed_something f true) (unmatch c') tl) as [c2| | | |];
        try exact I.
      * rewrite mz_S. cbn [flat_map]. apply good_app. exact Ht.
      * cbn [EvalRefine.good] in Ht.
        specialize (HR K p0 p' L' f m (unmatch c') b (N.succ i) l tl O O0 (S k) H2 Hl Hw Ho Hml Hci).
        apply HR; auto. intros HKc. destruct (HK HKc). split; [lia|]. intros _. left. lia.
    + rewrite H. reflexivity.
  - pose proof (HE K p0 p L (consumed_something f true) m c tl O O0 Hs Hw Ho) as Ht.
    assert (HJ : J K p0 (f_block (consumed_something f true)) p tl).
    { intros HKc. destruct (HK HKc) as [H1 H2]. split; [assumption|]. split; [reflexivity|].
      intros ->. left. destruct H2; [lia|lia|assumption]. }
    specialize (Ht HJ (cs_mode f true m Hml) Hci). rewrite Hnil in Ht. exact Ht.
Qed.

Definition Pos (n : nat) : Prop := forall K p0 start p L f m c a b i l tl O O0,
  sim O (p, L) c -> rep_ok O l -> mwfs K O tl O0 -> mows tl -> mode_of f = m -> In m M ->
  start <= p -> (start = p -> i = 0%N) ->
  J K p0 (f_block f) start (AR (RRep Possessive a b l) :: tl) -> (b = 0 \/ a <= b)%N ->
  good K O0 (flat_map (outs_of p0 tl O m) (firstn 1 (pv l m a b i (p, L))))
            (poss_loop opt n v v start p f c a b i l tl).

Lemma pos_step : forall n, E n -> Pos n -> Pos (S n).
Proof.
  intros n HE HR K p0 start p L f m c a b i l tl O O0 Hs Hl Hw Ho Hml Hci Hle Hst HJ Hab.
  cbn [poss_loop].
  assert (Ht : (a <= i)%N ->
     good K O0 (mouts p0 tl (ms m p L) O)
       (eval opt n v v p (consumed_something f (negb (Nat.eqb start p))) c tl)).
  { intros Hai. apply (HE K p0); auto; [|apply cs_mode; auto].
    intros HKc. destruct (HJ HKc) as (J1 & J2 & J3). split; [lia|].
    destruct (Nat.eqb_spec start p) as [<-|Hne]; cbn [negb consumed_something].
    - split; [assumption|]. intros Hp. specialize (J3 Hp). rewrite (Hst eq_refl) in Hai.
      assert (a = 0%N) by lia. subst a. cbn [snonnull saccurate nonnull accurate andb] in J3.
      exact J3.
    - split; [reflexivity|]. lia. }
  unfold less_than_or_infinite. destruct (N.eqb b 0 || N.ltb i b)%bool eqn:Elim.
  - pose proof (iter_ok n HE p L f m c l O Hs Hl Hml Hci) as H.
    destruct (eval opt n v v p (not_empty_match f) c (cycle l)) as [c'| | | |]; try exact I.
    + destruct H as ([p' L'] & H1 & H2 & H3 & H4). cbn [fst] in *. rewrite H3. cbn [or_ub].
      rewrite (pv_step s G (B l m) (mbody_forth s names true l m) a b i (p, L) (p', L')); auto; [|apply (m_st _ _ _ _ _ Hs)].
      apply HR; auto; lia.
    + rewrite (lt_spec s). destruct (N.ltb_spec i a) as [Hi|Hi].
      * rewrite pv_fail by assumption. reflexivity.
      * rewrite pv_stop by auto. cbn [firstn]. rewrite flat_map_one. apply Ht. assumption.
  - rewrite pv_stop; [|lia|auto]. cbn [firstn]. rewrite flat_map_one. apply Ht. lia.
Qed.

(** ** The evaluator *)

Lemma back_case : forall n, E n -> forall K p0 p L f m c r id sl tl O O0,
  sim O (p, L) c -> mwfs K O tl O0 -> mows tl -> J K p0 (f_block f) p (AR r :: tl) ->
  mode_of f = m -> In m M -> not_in id (map fst O) = true -> nonnull r = false ->
  find_id id (cl c) = Some sl ->
  enum r (ms m p L) = map (pair m) match lookup id L with
        | Some (b, e) => if prefix_at s (text s b e) p then [(p + (e - b), L)] else []
        | None => []
        end ->
  good K O0 (mouts p0 (AR r :: tl) (ms m p L) O)
   (if s_m sl then
      or_ub (s_beg sl) (fun b => or_ub (s_end sl) (fun e =>
      match match_range_loop n v p b e with
      | Ok (cur', true) =>
          eval opt n v v cur' (consumed_something f (negb (Nat.eqb b e))) c tl
      | Ok (_, false) => No
      | No => No | Fuel => Fuel | UB => UB | Ill => Ill
      end))
    else No).
Proof.
  intros n HE K p0 p L f m c r id sl tl O O0 Hs Hw Ho HJ Hml Hci Hid Hnn Hf He.
  cbn [mouts]. rewrite He, flat_map_pair. apply not_in_spec in Hid as [Hid0 Hid].
  pose proof (m_closed _ _ _ _ _ Hs id sl Hid Hf) as Hc. cbn [snd] in Hc.
  destruct (s_m sl).
  - destruct Hc as (b & e & E1 & E2 & E3). rewrite E1, E2, E3. cbn [or_ub].
    pose proof (m_st _ _ _ _ _ Hs) as [T1 T2]. cbn [fst snd] in *.
    rewrite Forall_forall in T2. pose proof (T2 _ (lookup_in _ _ _ E3)) as Hb. cbn in Hb.
    pose proof (match_range_prefix s n p b e T1 Hb) as W.
    destruct (match_range_loop n v p b e) as [[p' []]| | | |]; try exact I.
    + destruct W as (M1 & M2 & M3). rewrite M1, flat_map_one. subst p'.
      apply HE; auto; [| |apply cs_mode; auto].
      * apply sim_move with p; [assumption|lia].
      * destruct (Nat.eqb_spec b e) as [->|Hne]; cbn [negb].
        -- rewrite Nat.sub_diag, Nat.add_0_r. apply J_drop with r; assumption.
        -- apply (J_moved s) with p; [eapply J_le; eassumption | lia].
    + rewrite W. reflexivity.
    + contradiction.
  - rewrite Hc. reflexivity.
Qed.

Theorem mrefine_all : forall n, E n /\ Req n /\ Rec n /\ Laz n /\ Pos n.
Proof.
  induction n as [|n (HE & HRq & HRc & HLz & HPs)].
  { split; [|split; [|split; [|split]]]; repeat intro; exact I. }
  split; [|split; [|split; [|split]]];
    [|apply req_step; assumption | apply rec_step; assumption | apply laz_step; assumption
     |apply pos_step; assumption].
  intros K p0 p L f m c stk O O0 Hs Hw Ho HJ Hml Hci.
  assert (Hml' : f_ml f = fst m) by (subst m; reflexivity).
  assert (Hci' : f_ci f = snd m) by (subst m; reflexivity).
  destruct stk as [|a tl]; [contradiction|].
  destruct a as [r| | | | | | |id].
  - (* AR *)
    cbn [mwfs mows] in Hw, Ho. destruct Hw as [Hr Hw], Ho as [Hor Ho].
    assert (Hmv : forall p' c', p < p' -> p' <= len -> sim O (p, L) c' ->
      good K O0 (mouts p0 tl (ms m p' L) O) (eval opt n v v p' (consumed_something f true) c' tl)).
    { intros p' c' H1 H2 H3. apply HE; auto.
      - apply sim_move with p; [assumption|lia].
      - apply (J_moved s) with p; [eapply J_le; eassumption | lia]. }
    assert (Hst : nonnull r = false ->
      good K O0 (mouts p0 tl (ms m p L) O) (eval opt n v v p f c tl)).
    { intros Hn. apply HE; auto. apply J_drop with r; assumption. }
    pose proof (sim_pos _ _ _ _ _ _ Hs) as Hp.
    destruct r as
      [ k | | t | l | l | | | k a b l | id l | id nm l | id | nm
      | neg l | neg l | l | k | k | a | md ]; cbn [eval].
    + (* RCls *)
      cbn [mouts]. cbn [menum fst snd]. cbn [Spec.enum]. rewrite flat_map_pair. unfold step. cbn [fst snd].
      cbn [arr_view vend vget vnext or_ub].
      destruct (Nat.eqb_spec p len) as [->|Hne].
      { replace (nth_error s len) with (@None Z) by (symmetry; apply nth_error_None; lia).
        reflexivity. }
      destruct (nth_error s p) as [x|] eqn:Ex; [|exfalso; apply nth_error_None in Ex; lia].
      cbn [or_ub]. rewrite Hci'. cbn [mwf] in Hr. rewrite forallb_forall in Hr. specialize (Hr m Hci).
      rewrite match_cls_spec by (auto; eapply nth_val; eassumption).
      destruct (cls_has (snd m) k x); [|reflexivity]. rewrite flat_map_one.
      destruct (Nat.ltb_spec p len); [|lia]. cbn [or_ub]. apply Hmv; auto; lia.
    + (* RAny *)
      cbn [mouts]. cbn [menum fst snd]. cbn [Spec.enum]. rewrite flat_map_pair. unfold step. cbn [fst snd].
      cbn [arr_view vend vget vnext or_ub].
      destruct (Nat.eqb_spec p len) as [->|Hne].
      { replace (nth_error s len) with (@None Z) by (symmetry; apply nth_error_None; lia).
        reflexivity. }
      destruct (nth_error s p) as [x|] eqn:Ex; [|exfalso; apply nth_error_None in Ex; lia].
      destruct (Nat.ltb_spec p len); [|lia].
      rewrite Hml'. unfold dot. destruct (fst m); cbn [option_map or_ub andb negb].
      * destruct (Z.eqb x 10); cbn [negb]; [reflexivity|]. rewrite flat_map_one. apply Hmv; auto; lia.
      * rewrite flat_map_one. apply Hmv; auto; lia.
    + (* RStr *)
      cbn [mouts]. cbn [menum fst snd]. cbn [Spec.enum]. rewrite flat_map_pair, Hci'. cbn [mwf] in Hr.
      pose proof (match_string_walk s (snd m) s_ok t p L Hr Hp) as W.
      destruct (match_string v (snd m) t p) as [p'| | | |]; try exact I.
      * destruct W as (M1 & M2 & M3). rewrite M1, flat_map_one.
        destruct t as [|ch t]; cbn [length Nat.eqb negb consumed_something].
        -- cbn in M2. rewrite Nat.add_0_r in M2. subst p'. apply Hst. reflexivity.
        -- cbn in M2. apply Hmv; auto; lia.
      * rewrite W. reflexivity.
    + (* RSelect *)
      destruct l as [|x xs]; [reflexivity|].
      cbn [mwf forallb] in Hr. apply andb_true_iff in Hr as [Hx Hxs].
      rewrite ow_select in Hor. destruct Hor as [Ox Oxs].
      replace (mouts p0 (AR (RSelect (x :: xs)) :: tl) (ms m p L) O)
        with (mouts p0 (AR x :: tl) (ms m p L) O ++ mouts p0 (AR (RSelect xs) :: tl) (ms m p L) O)
        by (cbn [mouts]; rewrite menum_select_cons, flat_map_app; reflexivity).
      assert (I1 := HE K p0 p L f m c (AR x :: tl) O O0 Hs (conj Hx Hw) (conj Ox Ho)).
      assert (J1 : J K p0 (f_block f) p (AR x :: tl)).
      { eapply J_stk; [exact HJ| |]; cbn; intros H'; [|right].
        - apply orb_true_iff in H' as [H'|H']; [|rewrite H'; apply orb_true_r].
          apply andb_true_iff in H' as [-> _]. reflexivity.
        - apply andb_true_iff in H' as [H' ->]. apply andb_true_iff in H' as [-> _]. reflexivity. }
      specialize (I1 J1 Hml Hci).
      destruct (eval opt n v v p f c (AR x :: tl)) as [c'| | | |]; try exact I.
      * apply good_app. exact I1.
      * cbn [EvalRefine.good] in I1. rewrite I1. cbn [app].
        apply HE; auto; [split; assumption | split; assumption|].
        eapply J_stk; [exact HJ| |]; cbn; intros H'; [|right].
        -- apply orb_true_iff in H' as [H'|H']; [|rewrite H'; apply orb_true_r].
           apply andb_true_iff in H' as [_ ->]. reflexivity.
        -- apply andb_true_iff in H' as [H' ->]. apply andb_true_iff in H' as [_ ->]. reflexivity.
    + (* RSeq *)
      destruct l as [|x xs]; [discriminate|]. cbn [mwf nonempty andb forallb] in Hr.
      apply andb_true_iff in Hr as [Hx Hxs]. rewrite ow_seq in Hor.
      destruct xs as [|y ys].
      * rewrite outs_seq1. apply HE; auto; [split; assumption | split; assumption |].
        eapply J_stk; [exact HJ| |]; cbn; rewrite ?orb_false_r, ?andb_true_r; auto.
      * rewrite outs_seq. destruct Hor as [Ox Oy].
        apply HE; auto.
        -- split; [assumption|]. split; [exact Hxs | assumption].
        -- split; [exact Ox|]. split; [exact Oy | assumption].
        -- eapply J_stk; [exact HJ| |]; cbn; rewrite ?orb_assoc, ?andb_assoc; auto.
    + (* REmpty *) cbn [mouts]. cbn [menum fst snd]. cbn [Spec.enum]. rewrite flat_map_pair, flat_map_one. apply Hst. reflexivity.
    + (* RReject *) reflexivity.
    + (* RRep *)
      cbn [mwf] in Hr. apply andb_true_iff in Hr as [Hb Hl].
      rewrite ow_rep in Hor. destruct Hor as [Hoc Hop].
      assert (Hrep : rep_ok O l) by (split; [|split]; assumption).
      destruct (negb (N.eqb b 0) && N.ltb b a)%bool eqn:Eab.
      { cbn [mouts]. rewrite menum_rep. unfold iterate. rewrite Eab. reflexivity. }
      assert (Hab : (b = 0 \/ a <= b)%N) by lia.
      assert (Hposs : good K O0 (mouts p0 (AR (RRep Possessive a b l) :: tl) (ms m p L) O)
                (eval opt (S n) v v p f c (AR (RRep Possessive a b l) :: tl))
              ).
      { cbn [eval]. rewrite Eab. cbn [arr_view vconv negb].
        cbn [mouts]. rewrite menum_rep, flat_map_pair. cbn [fst snd]. rewrite iterate_pv by assumption.
        apply HPs; auto. eapply J_stk; [exact HJ| |]; cbn [snonnull saccurate nonnull accurate andb]; auto.
        destruct k; cbn [andb]; auto. intros H'. apply andb_true_iff in H' as [_ H']. auto. }
      destruct k.
      * (* Greedy *)
        destruct (becomes_possessive opt l tl) as [[|]|] eqn:Ebp; [| |exact I].
        -- assert (I1 := HE K p0 p L f m c (AR (RRep Possessive a b l) :: tl) O O0 Hs).
           assert (W : mwfs K O (AR (RRep Possessive a b l) :: tl) O0).
           { split; [|assumption]. cbn [mwf]. rewrite Hb, Hl. reflexivity. }
           assert (OW : mows (AR (RRep Possessive a b l) :: tl)).
           { split; [|assumption]. rewrite ow_rep. split; [assumption|discriminate]. }
           specialize (I1 W OW).
           assert (J1 : J K p0 (f_block f) p (AR (RRep Possessive a b l) :: tl)).
           { eapply J_stk; [exact HJ| |]; cbn [snonnull saccurate nonnull accurate andb]; auto.
             intros H'. apply andb_true_iff in H' as [_ H']. auto. }
           specialize (I1 J1 Hml Hci).
           assert (HO : Forall (fun e => snd e <= p) O).
           { apply Forall_forall. intros [i b'] Hin. apply (m_open _ _ _ _ _ Hs i b' Hin). }
           pose proof (Hop eq_refl Ebp p0 m (p, L) O Hci (m_st _ _ _ _ _ Hs) HO) as Hhd.
           destruct (eval opt n v v p f c (AR (RRep Possessive a b l) :: tl)) as [c'| | | |];
             try exact I.
           ++ destruct I1 as (st' & rest & E1 & E2 & E3). rewrite E1 in Hhd.
              destruct (mouts p0 (AR (RRep Greedy a b l) :: tl) (ms m p L) O) as [|y ys]; [discriminate|].
              cbn in Hhd. injection Hhd as ->. exists st', ys. auto.
           ++ cbn [EvalRefine.good] in *. rewrite I1 in Hhd.
              destruct (mouts p0 (AR (RRep Greedy a b l) :: tl) (ms m p L) O); [reflexivity|discriminate].
        -- cbn [arr_view vconv negb]. fold v.
           cbn [mouts]. rewrite menum_rep, flat_map_pair. cbn [fst snd]. rewrite iterate_pv by assumption. unfold ModeRefine.pv.
           rewrite N.sub_0_r. replace (N.max a 0) with a by lia.
           pose proof (HRq p L f m c a 0%N l O Hs Hrep Hml Hci) as Q. rewrite N.sub_0_r in Q.
           destruct (req_loop opt n v v p f c a 0 l) as [[p' c']| | | |]; try exact I.
           ++ destruct Q as (L' & Q1 & Q2 & Q3 & Q4). rewrite Q1, flat_map_one. cbn [fst].
              apply HRc; auto. intros HK. destruct (HJ HK) as (J1 & J2 & J3).
              split; [lia|]. destruct (N.eqb_spec a 0) as [->|Ha]; [|left; lia].
              destruct (Nat.eq_dec p' p0) as [->|]; [|left; lia]. right.
              assert (p = p0) by lia. destruct (J3 H) as [H'|[_ H']]; cbn in H'; [assumption|discriminate].
           ++ rewrite Q. reflexivity.
      * (* Lazy *)
        cbn [arr_view vconv negb]. fold v. cbn [mouts]. rewrite menum_rep, flat_map_pair. cbn [fst snd]. rewrite iterate_pv by assumption.
        pose proof (HRq p L f m c a 0%N l O Hs Hrep Hml Hci) as Q. rewrite N.sub_0_r in Q.
        destruct (req_loop opt n v v p f c a 0 l) as [[p' c']| | | |]; try exact I.
        -- destruct Q as (L' & Q1 & Q2 & Q3 & Q4). rewrite Q1, flat_map_one. cbn [fst].
           assert (I1 := HE K p0 p' L' (consumed_something f (negb (Nat.eqb p p'))) m c' tl O O0 Q2 Hw Ho).
           assert (J1 : J K p0 (f_block (consumed_something f (negb (Nat.eqb p p')))) p' tl).
           { destruct (Nat.eqb_spec p p') as [<-|Hne]; cbn [negb].
             - assert (a = 0%N) by (destruct (N.eq_dec a 0); [assumption|lia]). subst a.
               apply J_drop with (RRep Lazy 0 b l); [assumption|reflexivity].
             - apply (J_moved s) with p; [eapply J_le; eassumption | lia]. }
           specialize (I1 J1 (cs_mode _ _ m Hml) Hci).
           destruct (eval opt n v v p' (consumed_something f (negb (Nat.eqb p p'))) c' tl)
             as [c2| | | |]; try exact I.
           ++ rewrite mz_S. cbn [flat_map]. apply good_app. exact I1.
           ++ apply HLz; auto. intros HK. destruct (HJ HK) as (J1' & _ & _).
              split; [lia|]. intros Ha. left. lia.
        -- rewrite Q. reflexivity.
      * (* Possessive *)
        cbn [eval] in Hposs. rewrite Eab in Hposs. exact Hposs.
    + (* RCap *)
      cbn [mwf] in Hr. apply andb_true_iff in Hr as [Hr Hl].
      apply andb_true_iff in Hr as [Hid Hne]. cbn [arr_view vconv]. fold v.
      destruct (start_capture id p c) as [c'|] eqn:Ec; [|exact I]. cbn [or_ill].
      cbn [mouts]. rewrite menum_cap, outs_cap. cbn [fst snd].
      apply HE; auto.
      * apply sim_start with c; assumption.
      * cbn [mwfs map fst mwf]. rewrite Hne, Hl. auto.
      * cbn [mows]. rewrite ow_seq. rewrite ow_cap in Hor. auto.
    + (* RNCap *)
      cbn [mwf] in Hr. apply andb_true_iff in Hr as [Hr Hl].
      apply andb_true_iff in Hr as [Hid Hne]. cbn [arr_view vconv]. fold v.
      destruct (start_capture id p c) as [c'|] eqn:Ec; [|exact I]. cbn [or_ill].
      cbn [mouts]. rewrite menum_ncap, outs_cap. cbn [fst snd].
      apply HE; auto.
      * apply sim_start with c; assumption.
      * cbn [mwfs map fst mwf]. rewrite Hne, Hl. auto.
      * cbn [mows]. rewrite ow_seq. rewrite ow_ncap in Hor. auto.
    + (* RBack *)
      cbn [arr_view vsame negb]. fold v. cbn [mwf] in Hr.
      pose proof (not_in_spec _ _ Hr) as [Hid _].
      unfold get_id. destruct (Nat.eqb_spec id 0) as [|_]; [contradiction|].
      destruct (find_id id (cl c)) as [sl|] eqn:Ef; [|exact I]. cbn [or_ill].
      eapply back_case; eauto.
    + (* RNBack *)
      cbn [arr_view vsame negb]. fold v. cbn [mwf] in Hr.
      destruct (get_name nm (cl c)) as [sl|] eqn:Eg; [|exact I]. cbn [or_ill].
      destruct (names_find G G_dup nm (cl c) sl (m_ids _ _ _ _ _ Hs) Eg) as (id & En & Ef). rewrite En in Hr.
      eapply back_case; eauto. cbn [menum fst snd]. cbn [Spec.enum fst snd]. rewrite En. reflexivity.
    + (* RAhead *)
      cbn [mwf] in Hr. apply andb_true_iff in Hr as [Hne Hl]. rewrite ow_ahead in Hor.
      assert (I1 := HE KAhead p0 p L f m c [AR (RSeq l); AEndAhead] O O Hs).
      assert (W : mwfs KAhead O [AR (RSeq l); AEndAhead] O).
      { cbn [mwfs mwf]. rewrite Hne, Hl. auto. }
      assert (OW : mows [AR (RSeq l); AEndAhead]) by (cbn [mows]; rewrite ow_seq; auto).
      specialize (I1 W OW (J_other KAhead p0 (f_block f) p _ ltac:(discriminate)) Hml Hci).
      rewrite outs_ahead in I1. cbn [mouts]. rewrite menum_ahead. destruct neg.
      * destruct (eval opt n v v p f c [AR (RSeq l); AEndAhead]) as [c'| | | |]; try exact I.
        -- destruct I1 as (st' & rest & E1 & _). destruct (enums l (ms m p L)); [discriminate|reflexivity].
        -- cbn [EvalRefine.good] in I1. apply map_eq_nil in I1. rewrite I1, flat_map_one. apply Hst. reflexivity.
      * destruct (eval opt n v v p f c [AR (RSeq l); AEndAhead]) as [c'| | | |]; try exact I.
        -- destruct I1 as ([p' L'] & rest & E1 & E2 & _).
           destruct (enums l (ms m p L)) as [|[m' st'] ys]; [discriminate|]. cbn [map snd] in E1. injection E1 as -> _.
           rewrite flat_map_one. cbn [fst snd].
           apply HE; try assumption.
           (* the captures of the lookahead, at the old position *)
           destruct E2 as [S1 S2 S3 S4 S5 S6 S7]. constructor; auto.
           ++ destruct S1. split; assumption.
           ++ intros id b Hin. destruct (S7 id b Hin) as [_ H2]. split; [|assumption].
              apply (m_open _ _ _ _ _ Hs id b Hin).
        -- cbn [EvalRefine.good] in I1. apply map_eq_nil in I1. rewrite I1. reflexivity.
    + (* RBehind *)
      cbn [mwf] in Hr. apply andb_true_iff in Hr as [Hne Hl].
      rewrite forallb_forall in Hl. specialize (Hl m Hci).
      pose proof (behind_spec s (fst m) (snd m) s_ok opt n v p f c [RSeq l] Hml' Hci') as Z.
      cbn [forallb bwf] in Z. rewrite Hne, Hl in Z. specialize (Z eq_refl Hp).
      cbn [map app] in Z. rewrite bseq_cons, benum_seq in Z.
      replace (flat_map (bseq s (fst m) (snd m) []) (bseq s (fst m) (snd m) l p)) with (bseq s (fst m) (snd m) l p) in Z
        by (symmetry; apply flat_map_single).
      cbn [mouts]. cbn [menum fst snd]. rewrite enum_behind, flat_map_pair. cbn [fst]. destruct neg.
      * destruct (eval opt n (rev_view v) v p f c [AR (RSeq l); AEndBehind]) as [c'| | | |];
          try exact I.
        -- destruct Z as [_ Z]. destruct (bseq s (fst m) (snd m) l p); [congruence|reflexivity].
        -- rewrite Z, flat_map_one. apply Hst. reflexivity.
      * destruct (eval opt n (rev_view v) v p f c [AR (RSeq l); AEndBehind]) as [c'| | | |];
          try exact I.
        -- destruct Z as [-> Z]. destruct (bseq s (fst m) (snd m) l p); [congruence|]. rewrite flat_map_one.
           apply HE; try assumption.
           apply sim_c0 with c; auto.
        -- rewrite Z. reflexivity.
    + (* RAtomic *)
      cbn [mouts]. rewrite atomic_pv.
      cbn [mwf] in Hr. rewrite ow_atomic in Hor.
      apply (HE K p0 p L f m c (AR (RRep Possessive 1 1 l) :: tl)); auto.
      * split; [exact Hr | assumption].
      * split; [|assumption]. rewrite ow_rep. split; [assumption|discriminate].
    + (* RBound *)
      cbn [mwf] in Hr. rewrite forallb_forall in Hr. specialize (Hr m Hci). rewrite Hci', around_boundary by auto.
      cbn [mouts]. cbn [menum fst snd]. cbn [Spec.enum]. rewrite flat_map_pair. unfold boundary. cbn [fst].
      destruct (char_before s (cls_has (snd m) k) p), (char_after s (cls_has (snd m) k) p);
        cbn [Bool.eqb xorb flat_map]; try reflexivity; rewrite app_nil_r; apply Hst; reflexivity.
    + (* RNotBound *)
      cbn [mwf] in Hr. rewrite forallb_forall in Hr. specialize (Hr m Hci). rewrite Hci', around_boundary by auto.
      cbn [mouts]. cbn [menum fst snd]. cbn [Spec.enum]. rewrite flat_map_pair. unfold boundary. cbn [fst].
      destruct (char_before s (cls_has (snd m) k) p), (char_after s (cls_has (snd m) k) p);
        cbn [Bool.eqb xorb flat_map]; try reflexivity; rewrite app_nil_r; apply Hst; reflexivity.
    + (* RAssert *)
      rewrite Hml', assert_holds by auto. cbn [mouts]. cbn [menum fst snd]. cbn [Spec.enum fst].
      rewrite flat_map_pair. destruct (holds s (fst m) a p); [|reflexivity]. rewrite flat_map_one. apply Hst. reflexivity.
    + (* RMode *)
      cbn [mouts menum]. rewrite flat_map_one. cbn [fst snd]. cbn [mwf] in Hr. rewrite forallb_forall in Hr.
      apply HE; auto.
      * apply J_drop with (RMode md); [|reflexivity]. destruct md; exact HJ.
      * rewrite mode_add, Hml. reflexivity.
      * apply in_modes_spec. apply Hr. assumption.
  - cbn in Hw. contradiction.
  - cbn in Hw. contradiction.
  - (* AEnd *)
    cbn [mwfs] in Hw. destruct tl as [|[] [|]]; try contradiction. destruct Hw as [-> ->].
    cbn [eval arr_view vconv]. destruct n as [|n]; [exact I|]. cbn.
    exists (p, L), []. split; [reflexivity|]. split; [|reflexivity].
    eapply sim_c0; [exact Hs | reflexivity | reflexivity].
  - (* AEndCycle *)
    cbn [mwfs] in Hw. destruct tl; [|contradiction]. destruct Hw as [-> ->].
    cbn [eval arr_view vconv negb mouts fst snd].
    destruct (HJ eq_refl) as (J1 & J2 & J3).
    destruct (Nat.ltb_spec p0 p) as [Hlt|Hge].
    + rewrite (J2 Hlt). exists (p, L), []. split; [reflexivity|]. split; [|reflexivity].
      eapply sim_c0; [exact Hs | reflexivity | reflexivity].
    + destruct (J3 ltac:(lia)) as [H'|[-> _]]; [discriminate|]. reflexivity.
  - (* AEndAhead *)
    cbn [mwfs] in Hw. destruct tl; [|contradiction]. destruct Hw as [-> ->].
    cbn [eval mouts]. exists (p, L), []. split; [reflexivity|]. split; [|congruence].
    eapply sim_c0; [exact Hs | reflexivity | reflexivity].
  - cbn in Hw. destruct tl; contradiction.
  - (* ANum *)
    cbn [mwfs mows] in Hw, Ho. destruct O as [|[i b] O']; [contradiction|]. destruct Hw as [-> Hw].
    cbn [eval arr_view vconv]. fold v.
    destruct (end_capture id p c) as [c'|] eqn:Ec; [|exact I]. cbn [or_ill].
    cbn [mouts fst snd]. apply HE; auto. apply sim_end with c; assumption.
Qed.
End Refine.
