(** Without the greedy optimisation the evaluator returns the first outcome of [Committed.xenum], or fails
    exactly when there is none. The argument is the one of ModeRefine.v with the flag in the state: nothing
    is asked of the bodies of bounded repetitions. *)
From Coq Require Import List ZArith NArith Bool Lia Arith ZifyBool ZifyN ZifyNat.
From Verif Require Import Chars Syntax First View Eval Api Spec CharProofs EvalMono EvalInv EvalSem SpecProps
  EvalRefine SpecCut Mode ModeSem ModeSound ModeEnum Term Committed.
Import ListNotations.

(** Patterns covered: as [ModeRefine.mwf], but the only demand on the body of a repetition is that it
    consumes when there is no limit. *)
Fixpoint xwf (M : list modes) (names : list Z -> option nat) (O : list nat) (r : re) : bool :=
  match r with
  | RCls c | RBound c | RNotBound c => forallb (fun m => cls_ok (snd m) c) M
  | RStr t => forallb lit_ok t
  | RSelect l => forallb (xwf M names O) l
  | RSeq l | RAhead _ l => nonempty l && forallb (xwf M names O) l
  | RAny | REmpty | RReject | RAssert _ => true
  | RRep _ _ b l => (negb (N.eqb b 0) || body_eats l) && forallb (xwf M names O) l
  | RAtomic l => forallb (xwf M names O) l
  | RCap id l | RNCap id _ l => not_in id O && nonempty l && forallb (xwf M names (id :: O)) l
  | RBack id => not_in id O
  | RNBack nm => match names nm with Some id => not_in id O | None => true end
  | RBehind _ l => nonempty l && forallb (fun m => forallb (bwf (snd m)) l) M
  | RMode k => forallb (fun m => in_modes M (switch k m)) M
  end.

Section Refine.
Variable s : list Z.
Variable M : list modes.
Variable G : list (nat * option (list Z)).
Hypothesis s_ok : forallb val_ok s = true.
Hypothesis G_dup : NoDup (map fst G).

Notation names := (name_number G).
Notation xenum := (xenum s names).
Notation xenums := (xenums s names).
Notation B := (xbody s names).
Notation v := (arr_view s).
Notation len := (length s).
Notation wf := (xwf M names).
Notation sim := (EvalRefine.sim s G).
Notation good := (EvalRefine.good s G).
Notation st_ok := (st_ok s).
Notation xst m k p L := (@pair modes (bool * state) m (@pair bool state k (p, L))).

(** Final outcomes of a stack. *)
Fixpoint xouts (stk : list atom) (x : xstate) (O : list (nat * nat)) : list state :=
  match stk with
  | AR r :: tl => flat_map (fun y => xouts tl y O) (xenum r x)
  | ANum id :: tl =>
      match O with
      | (i, b) :: O' => xouts tl (log_group id b x) O'
      | [] => []
      end
  | AEnd :: tl => xouts tl x O
  | [AAccept] | [AEndAhead] => [snd (snd x)]
  | [AEndCycle] => if fst (snd x) then [] else [snd (snd x)]
  | _ => []
  end.

(** Well-formed stacks; [O0]: groups open after the stack. *)
Fixpoint xwfs (K : fkind) (O : list (nat * nat)) (stk : list atom) (O0 : list (nat * nat)) : Prop :=
  match stk with
  | AR r :: tl => wf (map fst O) r = true /\ xwfs K O tl O0
  | ANum id :: tl => match O with (i, _) :: O' => i = id /\ xwfs K O' tl O0 | [] => False end
  | [AEnd; AAccept] => K = KAcc /\ O = O0
  | [AEndCycle] => K = KCyc /\ O = O0
  | [AEndAhead] => K = KAhead /\ O = O0
  | _ => False
  end.

(** ** Outcomes *)
Lemma outs_cycle : forall l x O,
  xouts (cycle l) x O = map snd (filter (fun y => negb (fst y)) (map snd (xenums l x))).
Proof.
  unfold cycle. induction l as [|r l IH]; intros x O.
  - destruct x as [m [[] st]]; reflexivity.
  - cbn [map app xouts]. rewrite xenums_cons.
    induction (xenum r x) as [|y ys IHy]; [reflexivity|]. cbn [flat_map]. rewrite !map_app, filter_app, map_app, IHy, IH. reflexivity.
Qed.
Lemma outs_ahead : forall l x O, xouts [AR (RSeq l); AEndAhead] x O = map (fun y => snd (snd y)) (xenums l x).
Proof.
  intros l x O. cbn [xouts]. rewrite xenum_seq. induction (xenums l x) as [|y ys IH]; [reflexivity|].
  cbn [flat_map map app]. rewrite IH. reflexivity.
Qed.
Lemma outs_seq : forall x xs tl st O,
  xouts (AR (RSeq (x :: xs)) :: tl) st O = xouts (AR x :: AR (RSeq xs) :: tl) st O.
Proof.
  intros. cbn [xouts]. rewrite xenum_seq, xenums_cons, flat_map_flat. apply flat_map_ext_all.
  intros st'. rewrite xenum_seq. reflexivity.
Qed.
Lemma outs_seq1 : forall x tl st O, xouts (AR (RSeq [x]) :: tl) st O = xouts (AR x :: tl) st O.
Proof.
  intros. rewrite outs_seq. cbn [xouts]. apply flat_map_ext_all. intros st'.
  rewrite xenum_seq. cbn [Committed.xenums]. apply flat_map_one.
Qed.
Lemma outs_cap : forall id l tl x O,
  flat_map (fun y => xouts tl y O) (map (log_group id (fst (snd (snd x)))) (xenums l x))
  = xouts (AR (RSeq l) :: ANum id :: tl) x ((id, fst (snd (snd x))) :: O).
Proof. intros. rewrite flat_map_map. cbn [xouts]. rewrite xenum_seq. reflexivity. Qed.

Lemma find_once : forall l m st, hd_error (xouts (cycle l) (m, (true, st)) []) = once (B l m) st.
Proof.
  intros l m st. rewrite outs_cycle. unfold once, xbody.
  induction (map snd (xenums l (m, (true, st)))) as [|[[] y] ys IH]; [reflexivity|exact IH|reflexivity].
Qed.

Lemma wfs_cycle : forall l O, forallb (wf (map fst O)) l = true -> xwfs KCyc O (cycle l) O.
Proof.
  unfold cycle. induction l as [|x l IH]; cbn [forallb map app xwfs]; intros O H; [auto|].
  apply andb_true_iff in H as [H1 H2]. split; auto.
Qed.

Lemma atomic_rep : forall l x, xenum (RAtomic l) x = xenum (RRep Possessive 1 1 l) x.
Proof.
  intros l [m [k st]]. rewrite xenum_atomic, xenum_rep. unfold repeated. cbn [N.eqb negb andb N.ltb N.compare].
  change (negb (N.eqb 1 0) && N.ltb 1 1)%bool with false. cbn iota.
  change (N.to_nat 1) with 1. cbn [times]. destruct (once (B l m) st) as [st'|]; reflexivity.
Qed.

Definition E (n : nat) : Prop := forall K p L f m c stk O O0,
  sim O (p, L) c -> xwfs K O stk O0 -> mode_of f = m -> In m M ->
  good K O0 (xouts stk (xst m (f_block f) p L) O) (eval false n v v p f c stk).

Definition rep_ok (O : list (nat * nat)) (b : N) (l : list re) : Prop :=
  forallb (wf (map fst O)) l = true /\ (b = 0%N -> body_eats l = true).

Lemma iter_ok : forall n, E n -> forall p L f m c l O, sim O (p, L) c -> forallb (wf (map fst O)) l = true ->
  mode_of f = m -> In m M ->
  match eval false n v v p (not_empty_match f) c (cycle l) with
  | Ok c' => exists st', once (B l m) (p, L) = Some st' /\ sim O st' (unmatch c') /\ s_end (c0 c') = Some (fst st')
  | No => once (B l m) (p, L) = None
  | _ => True
  end.
Proof.
  intros n HE p L f m c l O Hs R1 Hml Hci.
  pose proof (HE KCyc p L (not_empty_match f) m c (cycle l) O O Hs (wfs_cycle l O R1) Hml Hci) as H.
  change (f_block (not_empty_match f)) with true in H.
  pose proof (find_once l m (p, L)) as F. rewrite outs_cycle in F. rewrite outs_cycle in H. unfold EvalRefine.good in H.
  destruct (eval false n v v p (not_empty_match f) c (cycle l)); auto.
  - destruct H as (st' & rest & H1 & H2 & H3). rewrite H1 in F. exists st'. split; [symmetry; exact F|].
    split; [assumption|]. apply H3. discriminate.
  - rewrite H in F. symmetry. exact F.
Qed.

(** ** The loops, given the evaluator with less fuel *)
Definition Req (n : nat) : Prop := forall p L f m c a i l O,
  sim O (p, L) c -> forallb (wf (map fst O)) l = true -> mode_of f = m -> In m M ->
  match req_loop false n v v p f c a i l with
  | Ok (p', c') => exists L', times (B l m) (N.to_nat (a - i)) (p, L) = Some (p', L') /\ sim O (p', L') c'
  | No => times (B l m) (N.to_nat (a - i)) (p, L) = None
  | _ => True
  end.

Lemma req_step : forall n, E n -> Req n -> Req (S n).
Proof.
  intros n HE HR p L f m c a i l O Hs Hl Hml Hci. cbn [req_loop]. rewrite (lt_spec s).
  destruct (N.ltb_spec i a) as [Hi|Hi].
  - replace (N.to_nat (a - i)) with (S (N.to_nat (a - N.succ i))) by lia. cbn [times].
    pose proof (iter_ok n HE p L f m c l O Hs Hl Hml Hci) as H.
    destruct (eval false n v v p (not_empty_match f) c (cycle l)) as [c'| | | |]; try exact I.
    + destruct H as ([p' L'] & H1 & H2 & H3). cbn [fst] in *. rewrite H3. cbn [or_ub]. rewrite H1.
      exact (HR p' L' f m (unmatch c') a (N.succ i) l O H2 Hl Hml Hci).
    + rewrite H. reflexivity.
  - replace (a - i)%N with 0%N by lia. cbn. exists L. split; [reflexivity|]. assumption.
Qed.

(** [k]: room for further iterations after [i]. *)
Definition roomy (b i : N) (p k : nat) : Prop := if N.eqb b 0 then len - p <= k else k = N.to_nat (b - i).
Lemma roomy_room : forall a b st, roomy b a (fst st) (room s a b st).
Proof. intros a b st. unfold roomy, room. destruct (N.eqb b 0); [lia|reflexivity]. Qed.
Lemma roomy_step : forall b i p p' k l m L L', roomy b i p (S k) -> rep_ok [] b l -> st_ok (p, L) ->
  once (B l m) (p, L) = Some (p', L') -> roomy b (N.succ i) p' k.
Proof.
  intros b i p p' k l m L L' H R Hs Ho. unfold roomy in *. destruct (N.eqb_spec b 0) as [Hb|Hb]; [|lia].
  pose proof (once_eats s _ _ (xbody_eats s names l m) (proj2 R Hb) _ _ Hs Ho) as H1. cbn [fst] in H1. lia.
Qed.

Notation outs_of tl O m := (fun st => xouts tl (m, (false, st)) O).

Definition Rec (n : nat) : Prop := forall K p L f m c b i l tl O O0 k,
  sim O (p, L) c -> rep_ok O b l -> xwfs K O tl O0 -> mode_of f = m -> In m M -> roomy b i p k ->
  good K O0 (flat_map (outs_of tl O m) (greedily (B l m) k (p, L))) (rec_loop false n v v p f c b i l tl).

Lemma cs_mode : forall f b m, mode_of f = m -> mode_of (consumed_something f b) = m.
Proof. intros f [] m H; exact H. Qed.
Lemma cs_block : forall f, f_block (consumed_something f true) = false.
Proof. reflexivity. Qed.

(** When there is room there may be an iteration; without a limit the last one leaves none. *)
Lemma no_room : forall b i p m l O L p' L', rep_ok O b l -> roomy b i p 0 -> st_ok (p, L) ->
  (N.eqb b 0 || N.ltb i b)%bool = true -> once (B l m) (p, L) <> Some (p', L').
Proof.
  intros b i p m l O L p' L' R Hk Hs Hlim Ho. unfold roomy in Hk. destruct (N.eqb_spec b 0) as [Hb|Hb]; [|lia].
  pose proof (once_eats s _ _ (xbody_eats s names l m) (proj2 R Hb) _ _ Hs Ho) as H1.
  destruct (once_forth s _ (xbody_forth s names l m) _ _ Ho Hs) as [[H2 _] _]. cbn [fst] in *. lia.
Qed.
Lemma at_limit : forall b i p k, roomy b i p k -> (N.eqb b 0 || N.ltb i b)%bool = false -> k = 0.
Proof. intros b i p k H Hl. unfold roomy in H. destruct (N.eqb b 0); [discriminate|]. cbn in Hl. lia. Qed.
Lemma room_next : forall b i p k m l O L p' L', rep_ok O b l -> roomy b i p (S k) -> st_ok (p, L) ->
  once (B l m) (p, L) = Some (p', L') -> roomy b (N.succ i) p' k.
Proof.
  intros b i p k m l O L p' L' R H Hs Ho. unfold roomy in *. destruct (N.eqb_spec b 0) as [Hb|Hb]; [|lia].
  pose proof (once_eats s _ _ (xbody_eats s names l m) (proj2 R Hb) _ _ Hs Ho) as H1. cbn [fst] in H1. lia.
Qed.

Lemma rec_step : forall n, E n -> Rec n -> Rec (S n).
Proof.
  intros n HE HR K p L f m c b i l tl O O0 k Hs Hl Hw Hml Hci Hk. cbn [rec_loop].
  pose proof (HE K p L (consumed_something f true) m c tl O O0 Hs Hw (cs_mode f true m Hml) Hci) as Ht. rewrite cs_block in Ht.
  unfold less_than_or_infinite. destruct (N.eqb b 0 || N.ltb i b)%bool eqn:Elim.
  - pose proof (iter_ok n HE p L f m c l O Hs (proj1 Hl) Hml Hci) as H.
    destruct (eval false n v v p (not_empty_match f) c (cycle l)) as [c'| | | |]; try exact I.
    + destruct H as ([p' L'] & H1 & H2 & H3). cbn [fst] in *. rewrite H3. cbn [or_ub].
      destruct k as [|k].
      { exfalso. exact (no_room _ _ _ _ _ _ _ _ _ Hl Hk (m_st _ _ _ _ _ Hs) Elim H1). }
      cbn [greedily]. rewrite H1, flat_map_app, flat_map_one.
      specialize (HR K p' L' f m (unmatch c') b (N.succ i) l tl O O0 k H2 Hl Hw Hml Hci
        (room_next _ _ _ _ _ _ _ _ _ _ Hl Hk (m_st _ _ _ _ _ Hs) H1)).
      destruct (rec_loop false n v v p' f (unmatch c') b (N.succ i) l tl) as [c2| | | |]; try exact I.
      * apply good_app. exact HR.
      * cbn [EvalRefine.good] in HR. rewrite HR. exact Ht.
    + destruct k as [|k]; cbn [greedily]; [|rewrite H]; cbn [app]; rewrite flat_map_one; exact Ht.
  - rewrite (at_limit _ _ _ _ Hk Elim). cbn [greedily]. rewrite flat_map_one. exact Ht.
Qed.

Definition Laz (n : nat) : Prop := forall K p L f m c b i l tl O O0 k,
  sim O (p, L) c -> rep_ok O b l -> xwfs K O tl O0 -> mode_of f = m -> In m M -> roomy b i p k ->
  good K O0 (flat_map (outs_of tl O m) (if (N.eqb b 0 || N.ltb i b)%bool then lazily (B l m) k (p, L) else [(p, L)]))
    (lazy_loop false n v v p f c b i l tl).

Lemma laz_step : forall n, E n -> Laz n -> Laz (S n).
Proof.
  intros n HE HR K p L f m c b i l tl O O0 k Hs Hl Hw Hml Hci Hk. cbn [lazy_loop]. unfold less_than_or_infinite.
  destruct (N.eqb b 0 || N.ltb i b)%bool eqn:Elim.
  - pose proof (iter_ok n HE p L f m c l O Hs (proj1 Hl) Hml Hci) as H.
    destruct (eval false n v v p (not_empty_match f) c (cycle l)) as [c'| | | |]; try exact I.
    + destruct H as ([p' L'] & H1 & H2 & H3). cbn [fst] in *. rewrite H3. cbn [or_ub].
      destruct k as [|k].
      { exfalso. exact (no_room _ _ _ _ _ _ _ _ _ Hl Hk (m_st _ _ _ _ _ Hs) Elim H1). }
      cbn [lazily]. rewrite H1. cbn [flat_map].
      pose proof (HE K p' L' (consumed_something f true) m (unmatch c') tl O O0 H2 Hw (cs_mode f true m Hml) Hci) as Ht.
      rewrite cs_block in Ht.
      destruct (eval false n v v p' (consumed_something f true) (unmatch c') tl) as [c2| | | |]; try exact I.
      * apply good_app. exact Ht.
      * cbn [EvalRefine.good] in Ht. rewrite Ht. cbn [app].
        pose proof (room_next _ _ _ _ _ _ _ _ _ _ Hl Hk (m_st _ _ _ _ _ Hs) H1) as Hk'.
        specialize (HR K p' L' f m (unmatch c') b (N.succ i) l tl O O0 k H2 Hl Hw Hml Hci Hk').
        destruct (N.eqb b 0 || N.ltb (N.succ i) b)%bool eqn:E2; [exact HR|].
        rewrite (at_limit _ _ _ _ Hk' E2). cbn [lazily flat_map]. cbn [flat_map] in HR. rewrite Ht in HR. exact HR.
    + destruct k as [|k]; cbn [lazily]; [|rewrite H]; reflexivity.
  - rewrite flat_map_one.
    pose proof (HE K p L (consumed_something f true) m c tl O O0 Hs Hw (cs_mode f true m Hml) Hci) as Ht.
    rewrite cs_block in Ht. exact Ht.
Qed.

(** The possessive loop after [i] iterations. *)
Definition run (l : list re) (m : modes) (a b i : N) (st : state) : option state :=
  match times (B l m) (N.to_nat (a - i)) st with
  | None => None
  | Some x => Some (furthest (B l m) (room s (N.max a i) b x) x)
  end.

Lemma run_step : forall l m a b i st st' O, rep_ok O b l -> st_ok st -> (b = 0 \/ a <= b)%N ->
  (N.eqb b 0 || N.ltb i b)%bool = true -> once (B l m) st = Some st' -> run l m a b i st = run l m a b (N.succ i) st'.
Proof.
  intros l m a b i st st' O R Hs Hab Hlim H1. unfold run. destruct (N.ltb_spec i a) as [Hi|Hi].
  - replace (N.to_nat (a - i)) with (S (N.to_nat (a - N.succ i))) by lia. cbn [times]. rewrite H1.
    replace (N.max a i) with a by lia. replace (N.max a (N.succ i)) with a by lia. reflexivity.
  - replace (a - i)%N with 0%N by lia. replace (a - N.succ i)%N with 0%N by lia.
    replace (N.max a i) with i by lia. replace (N.max a (N.succ i)) with (N.succ i) by lia.
    cbn [N.to_nat times]. f_equal. unfold room. destruct (N.eqb_spec b 0) as [Hb|Hb].
    + pose proof (once_eats s _ _ (xbody_eats s names l m) (proj2 R Hb) _ _ Hs H1) as H2.
      destruct (once_forth s _ (xbody_forth s names l m) _ _ H1 Hs) as [Hs' _]. pose proof (proj1 Hs') as H3.
      replace (len - fst st) with (S (len - fst st - 1)) by lia. cbn [furthest]. rewrite H1.
      apply (furthest_enough s names (B l m) (body_eats l) (xbody_forth s names l m) (xbody_eats s names l m) (proj2 R Hb)); [assumption|lia|lia].
    + cbn [orb] in Hlim. replace (N.to_nat (b - i)) with (S (N.to_nat (b - N.succ i))) by lia. cbn [furthest]. rewrite H1. reflexivity.
Qed.
Lemma run_stop : forall l m a b i st, (a <= i)%N ->
  ((N.eqb b 0 || N.ltb i b)%bool = false \/ once (B l m) st = None) -> run l m a b i st = Some st.
Proof.
  intros l m a b i st Hi H. unfold run. replace (a - i)%N with 0%N by lia.
  replace (N.max a i) with i by lia. cbn [N.to_nat times]. f_equal.
  destruct H as [H|H]; [|destruct (room s i b st); cbn [furthest]; [|rewrite H]; reflexivity].
  unfold room. destruct (N.eqb b 0); [discriminate|]. replace (N.to_nat (b - i)) with 0 by lia. reflexivity.
Qed.
Lemma run_fail : forall l m a b i st, (i < a)%N -> once (B l m) st = None -> run l m a b i st = None.
Proof.
  intros l m a b i st Hi H. unfold run. replace (N.to_nat (a - i)) with (S (N.to_nat (a - N.succ i))) by lia.
  cbn [times]. rewrite H. reflexivity.
Qed.

Definition Pos (n : nat) : Prop := forall K start p L f m c a b i l tl O O0,
  sim O (p, L) c -> rep_ok O b l -> xwfs K O tl O0 -> mode_of f = m -> In m M -> start <= p -> (b = 0 \/ a <= b)%N ->
  good K O0 (match run l m a b i (p, L) with
             | None => []
             | Some st => xouts tl (m, (f_block f && Nat.eqb (fst st) start, st)) O
             end) (poss_loop false n v v start p f c a b i l tl).

Lemma moved_block : forall f start p, f_block (consumed_something f (negb (Nat.eqb start p))) = f_block f && Nat.eqb p start.
Proof.
  intros f start p. rewrite (Nat.eqb_sym p). destruct (Nat.eqb start p); cbn; [rewrite andb_true_r|rewrite andb_false_r]; reflexivity.
Qed.

Lemma pos_step : forall n, E n -> Pos n -> Pos (S n).
Proof.
  intros n HE HR K start p L f m c a b i l tl O O0 Hs Hl Hw Hml Hci Hle Hab. cbn [poss_loop].
  pose proof (HE K p L (consumed_something f (negb (Nat.eqb start p))) m c tl O O0 Hs Hw (cs_mode f _ m Hml) Hci) as Ht.
  rewrite moved_block in Ht.
  unfold less_than_or_infinite. destruct (N.eqb b 0 || N.ltb i b)%bool eqn:Elim.
  - pose proof (iter_ok n HE p L f m c l O Hs (proj1 Hl) Hml Hci) as H.
    destruct (eval false n v v p (not_empty_match f) c (cycle l)) as [c'| | | |]; try exact I.
    + destruct H as ([p' L'] & H1 & H2 & H3). cbn [fst] in *. rewrite H3. cbn [or_ub].
      rewrite (run_step l m a b i (p, L) (p', L') O Hl (m_st _ _ _ _ _ Hs) Hab Elim H1).
      apply HR; auto. destruct (once_forth s _ (xbody_forth s names l m) _ _ H1 (m_st _ _ _ _ _ Hs)). cbn [fst] in *. lia.
    + rewrite (lt_spec s). destruct (N.ltb_spec i a) as [Hi|Hi].
      * rewrite run_fail by assumption. reflexivity.
      * rewrite run_stop by auto. exact Ht.
  - rewrite run_stop; [|lia|auto]. exact Ht.
Qed.

(** ** The evaluator *)
Lemma back_case : forall n, E n -> forall K p L f m c r id sl tl O O0,
  sim O (p, L) c -> xwfs K O tl O0 -> mode_of f = m -> In m M -> not_in id (map fst O) = true ->
  find_id id (cl c) = Some sl ->
  xenum r (xst m (f_block f) p L) = map (fun st' => (m, (unmoved (f_block f) (p, L) st', st'))) match lookup id L with
        | Some (b, e) => if prefix_at s (text s b e) p then [(p + (e - b), L)] else []
        | None => []
        end ->
  good K O0 (xouts (AR r :: tl) (xst m (f_block f) p L) O)
   (if s_m sl then
      or_ub (s_beg sl) (fun b => or_ub (s_end sl) (fun e =>
      match match_range_loop n v p b e with
      | Ok (cur', true) =>
          eval false n v v cur' (consumed_something f (negb (Nat.eqb b e))) c tl
      | Ok (_, false) => No
      | No => No | Fuel => Fuel | UB => UB | Ill => Ill
      end))
    else No).
Proof.
  intros n HE K p L f m c r id sl tl O O0 Hs Hw Hml Hci Hid Hf He.
  cbn [xouts]. rewrite He, flat_map_map. apply not_in_spec in Hid as [Hid0 Hid].
  pose proof (m_closed _ _ _ _ _ Hs id sl Hid Hf) as Hc. cbn [snd] in Hc.
  destruct (s_m sl).
  - destruct Hc as (b & e & E1 & E2 & E3). rewrite E1, E2, E3. cbn [or_ub].
    pose proof (m_st _ _ _ _ _ Hs) as [T1 T2]. cbn [fst snd] in *.
    rewrite Forall_forall in T2. pose proof (T2 _ (lookup_in _ _ _ E3)) as Hb. cbn in Hb.
    pose proof (match_range_prefix s n p b e T1 Hb) as W.
    destruct (match_range_loop n v p b e) as [[p' []]| | | |]; try exact I.
    + destruct W as (M1 & M2 & M3). rewrite M1, flat_map_one. subst p'. unfold unmoved. cbn [fst].
      replace (f_block f && Nat.eqb (p + (e - b)) p)%bool with (f_block (consumed_something f (negb (Nat.eqb b e)))).
      * apply HE; auto; [apply sim_move with p; [assumption|lia]|apply cs_mode; assumption].
      * destruct (Nat.eqb_spec b e), (Nat.eqb_spec (p + (e - b)) p); cbn; try lia; rewrite ?andb_true_r, ?andb_false_r; reflexivity.
    + rewrite W. reflexivity.
    + contradiction.
  - rewrite Hc. reflexivity.
Qed.

Theorem xrefine_all : forall n, E n /\ Req n /\ Rec n /\ Laz n /\ Pos n.
Proof.
  induction n as [|n (HE & HRq & HRc & HLz & HPs)].
  { split; [|split; [|split; [|split]]]; repeat intro; exact I. }
  split; [|split; [|split; [|split]]];
    [|apply req_step; assumption | apply rec_step; assumption | apply laz_step; assumption
     |apply pos_step; assumption].
  intros K p L f m c stk O O0 Hs Hw Hml Hci.
  assert (Hml' : f_ml f = fst m) by (subst m; reflexivity).
  assert (Hci' : f_ci f = snd m) by (subst m; reflexivity).
  destruct stk as [|a tl]; [contradiction|].
  destruct a as [r| | | | | | |id].
  - (* AR *)
    cbn [xwfs] in Hw. destruct Hw as [Hr Hw].
    assert (Hmv : forall p' c', p < p' -> p' <= len -> sim O (p, L) c' ->
      good K O0 (xouts tl (m, (unmoved (f_block f) (p, L) (p', L), (p', L))) O) (eval false n v v p' (consumed_something f true) c' tl)).
    { intros p' c' H1 H2 H3. unfold unmoved. cbn [fst]. destruct (Nat.eqb_spec p' p); [lia|]. rewrite andb_false_r.
      apply (HE K p' L (consumed_something f true)); auto. apply sim_move with p; [assumption|lia]. }
    assert (Hst : good K O0 (xouts tl (m, (unmoved (f_block f) (p, L) (p, L), (p, L))) O) (eval false n v v p f c tl)).
    { unfold unmoved. cbn [fst]. rewrite Nat.eqb_refl, andb_true_r. apply HE; auto. }
    pose proof (sim_pos _ _ _ _ _ _ Hs) as Hp.
    destruct r as
      [ k | | t | l | l | | | k a b l | id l | id nm l | id | nm
      | neg l | neg l | l | k | k | a | md ]; cbn [eval].
    + (* RCls *)
      cbn [xouts]. cbn [Committed.xenum]. cbn [Spec.enum]. rewrite flat_map_map. unfold step. cbn [fst snd].
      cbn [arr_view vend vget vnext or_ub].
      destruct (Nat.eqb_spec p len) as [->|Hne].
      { replace (nth_error s len) with (@None Z) by (symmetry; apply nth_error_None; lia).
        reflexivity. }
      destruct (nth_error s p) as [x|] eqn:Ex; [|exfalso; apply nth_error_None in Ex; lia].
      cbn [or_ub]. rewrite Hci'. cbn [xwf] in Hr. rewrite forallb_forall in Hr. specialize (Hr m Hci).
      rewrite match_cls_spec by (auto; eapply nth_val; eassumption).
      destruct (cls_has (snd m) k x); [|reflexivity]. rewrite flat_map_one.
      destruct (Nat.ltb_spec p len); [|lia]. cbn [or_ub]. apply Hmv; auto; lia.
    + (* RAny *)
      cbn [xouts]. cbn [Committed.xenum]. cbn [Spec.enum]. rewrite flat_map_map. unfold step. cbn [fst snd].
      cbn [arr_view vend vget vnext or_ub].
      destruct (Nat.eqb_spec p len) as [->|Hne].
      { replace (nth_error s len) with (@None Z) by (symmetry; apply nth_error_None; lia).
        reflexivity. }
      destruct (nth_error s p) as [x|] eqn:Ex; [|exfalso; apply nth_error_None in Ex; lia].
      destruct (Nat.ltb_spec p len); [|lia].
      rewrite Hml'. unfold dot. destruct (fst m); cbn [option_map or_ub andb negb].
      * destruct (Z.eqb x 10); cbn [negb]; [reflexivity|]. rewrite flat_map_one. apply Hmv; auto; lia.
      * rewrite flat_map_one. apply Hmv; auto; lia.
    + (* RStr *)
      cbn [xouts]. cbn [Committed.xenum]. cbn [Spec.enum]. rewrite flat_map_map, Hci'. cbn [xwf] in Hr.
      pose proof (match_string_walk s (snd m) s_ok t p L Hr Hp) as W.
      destruct (match_string v (snd m) t p) as [p'| | | |]; try exact I.
      * destruct W as (M1 & M2 & M3). rewrite M1, flat_map_one.
        destruct t as [|ch t]; cbn [length Nat.eqb negb consumed_something].
        -- cbn in M2. rewrite Nat.add_0_r in M2. subst p'. apply Hst.
        -- cbn in M2. apply Hmv; auto; lia.
      * rewrite W. reflexivity.
    + (* RSelect *)
      destruct l as [|x xs]; [reflexivity|].
      cbn [xwf forallb] in Hr. apply andb_true_iff in Hr as [Hx Hxs].
      replace (xouts (AR (RSelect (x :: xs)) :: tl) (xst m (f_block f) p L) O)
        with (xouts (AR x :: tl) (xst m (f_block f) p L) O ++ xouts (AR (RSelect xs) :: tl) (xst m (f_block f) p L) O)
        by (cbn [xouts]; rewrite xenum_select_cons, flat_map_app; reflexivity).
      assert (I1 := HE K p L f m c (AR x :: tl) O O0 Hs (conj Hx Hw) Hml Hci).
      destruct (eval false n v v p f c (AR x :: tl)) as [c'| | | |]; try exact I.
      * apply good_app. exact I1.
      * cbn [EvalRefine.good] in I1. rewrite I1. cbn [app].
        apply HE; auto. split; assumption.
    + (* RSeq *)
      destruct l as [|x xs]; [discriminate|]. cbn [xwf nonempty andb forallb] in Hr.
      apply andb_true_iff in Hr as [Hx Hxs].
      destruct xs as [|y ys].
      * rewrite outs_seq1. apply HE; auto. split; assumption.
      * rewrite outs_seq. apply HE; auto. split; [assumption|]. split; [exact Hxs | assumption].
    + (* REmpty *) cbn [xouts]. cbn [Committed.xenum]. cbn [Spec.enum map]. rewrite flat_map_one. apply Hst.
    + (* RReject *) reflexivity.
    + (* RRep *)
      cbn [xwf] in Hr. apply andb_true_iff in Hr as [Hb Hl].
      assert (Hrep : rep_ok O b l) by (split; [assumption|intros ->; exact Hb]).
      cbn [xouts]. rewrite xenum_rep, flat_map_map. unfold repeated.
      destruct (negb (N.eqb b 0) && N.ltb b a)%bool eqn:Eab; [reflexivity|].
      assert (Hab : (b = 0 \/ a <= b)%N) by lia.
      destruct k.
      * (* Greedy *)
        change (becomes_possessive false l tl) with (Some false). cbn iota.
        cbn [arr_view vconv negb]. fold v.
        pose proof (HRq p L f m c a 0%N l O Hs Hl Hml Hci) as Q. rewrite N.sub_0_r in Q.
        destruct (req_loop false n v v p f c a 0 l) as [[p' c']| | | |]; try exact I.
        -- destruct Q as (L' & Q1 & Q2). rewrite Q1, flat_map_map.
           exact (HRc K p' L' f m c' b a l tl O O0 _ Q2 Hrep Hw Hml Hci (roomy_room a b (p', L'))).
        -- rewrite Q. reflexivity.
      * (* Lazy *)
        cbn [arr_view vconv negb]. fold v.
        pose proof (HRq p L f m c a 0%N l O Hs Hl Hml Hci) as Q. rewrite N.sub_0_r in Q.
        destruct (req_loop false n v v p f c a 0 l) as [[p' c']| | | |]; try exact I.
        -- destruct Q as (L' & Q1 & Q2). rewrite Q1. cbn [flat_map put].
           pose proof (HE K p' L' (consumed_something f (negb (Nat.eqb p p'))) m c' tl O O0 Q2 Hw (cs_mode _ _ m Hml) Hci) as I1.
           rewrite moved_block in I1. unfold put, unmoved. cbn [fst].
           destruct (eval false n v v p' (consumed_something f (negb (Nat.eqb p p'))) c' tl)
             as [c2| | | |]; try exact I.
           ++ apply good_app. exact I1.
           ++ cbn [EvalRefine.good] in I1. rewrite I1. cbn [app]. rewrite flat_map_map.
              pose proof (HLz K p' L' f m c' b a l tl O O0 _ Q2 Hrep Hw Hml Hci (roomy_room a b (p', L'))) as HL.
              replace (negb (N.eqb b 0) && N.eqb a b)%bool with (negb (N.eqb b 0 || N.ltb a b)) by lia.
              destruct (N.eqb b 0 || N.ltb a b)%bool; exact HL.
        -- rewrite Q. reflexivity.
      * (* Possessive *)
        cbn [arr_view vconv negb]. fold v.
        pose proof (HPs K p p L f m c a b 0%N l tl O O0 Hs Hrep Hw Hml Hci (le_n p) Hab) as HP.
        unfold run in HP. rewrite N.sub_0_r in HP. replace (N.max a 0) with a in HP by lia.
        destruct (times (B l m) (N.to_nat a) (p, L)) as [st1|]; [|exact HP].
        cbn [flat_map put]. rewrite app_nil_r. exact HP.
    + (* RCap *)
      cbn [xwf] in Hr. apply andb_true_iff in Hr as [Hr Hl].
      apply andb_true_iff in Hr as [Hid Hne]. cbn [arr_view vconv]. fold v.
      destruct (start_capture id p c) as [c'|] eqn:Ec; [|exact I]. cbn [or_ill].
      cbn [xouts]. rewrite xenum_cap. pose proof (outs_cap id l tl (xst m (f_block f) p L) O) as Hcap. cbn [fst snd] in Hcap |- *. rewrite Hcap. clear Hcap.
      apply HE; auto.
      * apply sim_start with c; assumption.
      * cbn [xwfs map fst xwf]. rewrite Hne, Hl. auto.
    + (* RNCap *)
      cbn [xwf] in Hr. apply andb_true_iff in Hr as [Hr Hl].
      apply andb_true_iff in Hr as [Hid Hne]. cbn [arr_view vconv]. fold v.
      destruct (start_capture id p c) as [c'|] eqn:Ec; [|exact I]. cbn [or_ill].
      cbn [xouts]. rewrite xenum_ncap. pose proof (outs_cap id l tl (xst m (f_block f) p L) O) as Hcap. cbn [fst snd] in Hcap |- *. rewrite Hcap. clear Hcap.
      apply HE; auto.
      * apply sim_start with c; assumption.
      * cbn [xwfs map fst xwf]. rewrite Hne, Hl. auto.
    + (* RBack *)
      cbn [arr_view vsame negb]. fold v. cbn [xwf] in Hr.
      pose proof (not_in_spec _ _ Hr) as [Hid _].
      unfold get_id. destruct (Nat.eqb_spec id 0) as [|_]; [contradiction|].
      destruct (find_id id (cl c)) as [sl|] eqn:Ef; [|exact I]. cbn [or_ill].
      eapply back_case; eauto.
    + (* RNBack *)
      cbn [arr_view vsame negb]. fold v. cbn [xwf] in Hr.
      destruct (get_name nm (cl c)) as [sl|] eqn:Eg; [|exact I]. cbn [or_ill].
      destruct (names_find G G_dup nm (cl c) sl (m_ids _ _ _ _ _ Hs) Eg) as (id & En & Ef). rewrite En in Hr.
      eapply back_case; eauto. cbn [Committed.xenum]. cbn [Spec.enum fst snd]. rewrite En. reflexivity.
    + (* RAhead *)
      cbn [xwf] in Hr. apply andb_true_iff in Hr as [Hne Hl].
      assert (W : xwfs KAhead O [AR (RSeq l); AEndAhead] O).
      { cbn [xwfs xwf]. rewrite Hne, Hl. auto. }
      assert (I1 := HE KAhead p L f m c [AR (RSeq l); AEndAhead] O O Hs W Hml Hci).
      assert (Hst' : good K O0 (xouts tl (xst m (f_block f) p L) O) (eval false n v v p f c tl)) by (apply HE; auto).
      rewrite outs_ahead in I1. cbn [xouts]. rewrite xenum_ahead. destruct neg.
      * destruct (eval false n v v p f c [AR (RSeq l); AEndAhead]) as [c'| | | |]; try exact I.
        -- destruct I1 as (st' & rest & E1 & _). destruct (xenums l (xst m (f_block f) p L)); [discriminate|reflexivity].
        -- cbn [EvalRefine.good] in I1. apply map_eq_nil in I1. rewrite I1, flat_map_one. exact Hst'.
      * destruct (eval false n v v p f c [AR (RSeq l); AEndAhead]) as [c'| | | |]; try exact I.
        -- destruct I1 as ([p' L'] & rest & E1 & E2 & _).
           destruct (xenums l (xst m (f_block f) p L)) as [|[m' [k' st']] ys]; [discriminate|]. cbn [map snd] in E1. injection E1 as -> _.
           rewrite flat_map_one. cbn [fst snd].
           apply HE; try assumption.
           (* the captures of the lookahead, at the old position *)
           destruct E2 as [S1 S2 S3 S4 S5 S6 S7]. constructor; auto.
           ++ destruct S1. split; assumption.
           ++ intros id b Hin. destruct (S7 id b Hin) as [_ H2]. split; [|assumption].
              apply (m_open _ _ _ _ _ Hs id b Hin).
        -- cbn [EvalRefine.good] in I1. apply map_eq_nil in I1. rewrite I1. reflexivity.
    + (* RBehind *)
      cbn [xwf] in Hr. apply andb_true_iff in Hr as [Hne Hl].
      rewrite forallb_forall in Hl. specialize (Hl m Hci).
      pose proof (behind_spec s (fst m) (snd m) s_ok false n v p f c [RSeq l] Hml' Hci') as Z.
      cbn [forallb bwf] in Z. rewrite Hne, Hl in Z. specialize (Z eq_refl Hp).
      cbn [map app] in Z. rewrite bseq_cons, benum_seq in Z.
      replace (flat_map (bseq s (fst m) (snd m) []) (bseq s (fst m) (snd m) l p)) with (bseq s (fst m) (snd m) l p) in Z
        by (symmetry; apply flat_map_single).
      cbn [xouts]. cbn [Committed.xenum]. rewrite enum_behind, flat_map_map. cbn [fst]. destruct neg.
      * destruct (eval false n (rev_view v) v p f c [AR (RSeq l); AEndBehind]) as [c'| | | |];
          try exact I.
        -- destruct Z as [_ Z]. destruct (bseq s (fst m) (snd m) l p); [congruence|reflexivity].
        -- rewrite Z, flat_map_one. apply Hst.
      * destruct (eval false n (rev_view v) v p f c [AR (RSeq l); AEndBehind]) as [c'| | | |];
          try exact I.
        -- destruct Z as [-> Z]. destruct (bseq s (fst m) (snd m) l p); [congruence|]. rewrite flat_map_one.
           unfold unmoved. cbn [fst]. rewrite Nat.eqb_refl, andb_true_r.
           apply HE; try assumption.
           apply sim_c0 with c; auto.
        -- rewrite Z. reflexivity.
    + (* RAtomic *)
      cbn [xouts]. rewrite atomic_rep.
      cbn [xwf] in Hr.
      apply (HE K p L f m c (AR (RRep Possessive 1 1 l) :: tl)); auto.
      split; [exact Hr | assumption].
    + (* RBound *)
      cbn [xwf] in Hr. rewrite forallb_forall in Hr. specialize (Hr m Hci). rewrite Hci', around_boundary by auto.
      cbn [xouts]. cbn [Committed.xenum]. cbn [Spec.enum]. rewrite flat_map_map. unfold boundary. cbn [fst].
      destruct (char_before s (cls_has (snd m) k) p), (char_after s (cls_has (snd m) k) p);
        cbn [Bool.eqb xorb flat_map]; try reflexivity; rewrite app_nil_r; apply Hst; reflexivity.
    + (* RNotBound *)
      cbn [xwf] in Hr. rewrite forallb_forall in Hr. specialize (Hr m Hci). rewrite Hci', around_boundary by auto.
      cbn [xouts]. cbn [Committed.xenum]. cbn [Spec.enum]. rewrite flat_map_map. unfold boundary. cbn [fst].
      destruct (char_before s (cls_has (snd m) k) p), (char_after s (cls_has (snd m) k) p);
        cbn [Bool.eqb xorb flat_map]; try reflexivity; rewrite app_nil_r; apply Hst; reflexivity.
    + (* RAssert *)
      rewrite Hml', assert_holds by auto. cbn [xouts]. cbn [Committed.xenum]. cbn [Spec.enum fst].
      rewrite flat_map_map. destruct (holds s (fst m) a p); [|reflexivity]. rewrite flat_map_one. apply Hst.
    + (* RMode *)
      cbn [xouts Committed.xenum]. rewrite flat_map_one. cbn [xwf] in Hr. rewrite forallb_forall in Hr.
      replace (f_block f) with (f_block (add_mode f md)) by (destruct md; reflexivity).
      apply HE; auto.
      * rewrite mode_add, Hml. reflexivity.
      * apply in_modes_spec. apply Hr. assumption.
  - cbn in Hw. contradiction.
  - cbn in Hw. contradiction.
  - (* AEnd *)
    cbn [xwfs] in Hw. destruct tl as [|[] [|]]; try contradiction. destruct Hw as [-> ->].
    cbn [eval arr_view vconv]. destruct n as [|n]; [exact I|]. cbn.
    exists (p, L), []. split; [reflexivity|]. split; [|reflexivity].
    eapply sim_c0; [exact Hs | reflexivity | reflexivity].
  - (* AEndCycle *)
    cbn [xwfs] in Hw. destruct tl; [|contradiction]. destruct Hw as [-> ->].
    cbn [eval arr_view vconv negb xouts fst snd]. destruct (f_block f); [reflexivity|].
    exists (p, L), []. split; [reflexivity|]. split; [|reflexivity].
    eapply sim_c0; [exact Hs | reflexivity | reflexivity].
  - (* AEndAhead *)
    cbn [xwfs] in Hw. destruct tl; [|contradiction]. destruct Hw as [-> ->].
    cbn [eval xouts]. exists (p, L), []. split; [reflexivity|]. split; [|congruence].
    eapply sim_c0; [exact Hs | reflexivity | reflexivity].
  - cbn in Hw. destruct tl; contradiction.
  - (* ANum *)
    cbn [xwfs] in Hw. destruct O as [|[i b] O']; [contradiction|]. destruct Hw as [-> Hw].
    cbn [eval arr_view vconv]. fold v.
    destruct (end_capture id p c) as [c'|] eqn:Ec; [|exact I]. cbn [or_ill].
    cbn [xouts log_group fst snd]. apply (HE K p ((id, (b, p)) :: L)); auto. apply sim_end with c; assumption.
Qed.
End Refine.
