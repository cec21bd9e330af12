(** Termination of the evaluator. *)
From Coq Require Import List ZArith NArith Bool Lia Arith ZifyBool ZifyN ZifyNat.
From Verif Require Import Chars Syntax First Utf8 View Eval Api EvalMono.
Import ListNotations.

(** * Which bodies always consume *)
(** First component: every success consumes. Second: the block-empty-match flag is cleared only after
    something was consumed. *)
Fixpoint eats (r : re) : bool * bool :=
  let body l := existsb (fun x => fst (eats x)) l || forallb (fun x => snd (eats x)) l in
  match r with
  | RCls _ | RAny | RReject => (true, true)
  | RStr t => (negb (Nat.eqb (length t) 0), true)
  | RSelect l => (forallb (fun x => fst (eats x)) l, forallb (fun x => snd (eats x)) l)
  | RSeq l | RCap _ l | RNCap _ _ l =>
      (existsb (fun x => fst (eats x)) l, forallb (fun x => snd (eats x)) l)
  | RRep k a _ l =>
      (negb (N.eqb a 0) && body l,
       match k with Greedy => negb (N.eqb a 0) && body l | Lazy => body l | Possessive => true end)
  | RAtomic l => (body l, true)
  | _ => (false, true)
  end.
Definition nullfree (r : re) : bool := fst (eats r).
Definition exact_flag (r : re) : bool := snd (eats r).
Definition body_eats (l : list re) : bool := existsb nullfree l || forallb exact_flag l.

(** Patterns for which termination is claimed: the body of every unbounded repetition consumes. *)
Fixpoint terminating (r : re) : bool :=
  match r with
  | RSelect l | RSeq l | RCap _ l | RNCap _ _ l | RAhead _ l | RAtomic l => forallb terminating l
  | RRep _ _ b l => (negb (N.eqb b 0) || body_eats l) && forallb terminating l
  | _ => true
  end.

Definition fwd (N : nat) (v : view) : Prop := forall p q, vnext v p = Some q -> p < q <= N.

Lemma lt_spec2 : forall a i, less_than a i = N.ltb i a.
Proof. intros a i. unfold less_than. destruct (N.eqb_spec a 0), (N.ltb_spec i a); cbn; try reflexivity; exfalso; lia. Qed.

(** * Progress *)
Section Progress.
Variable opt : bool.
Variable N : nat.

Fixpoint cyc_stk (stk : list atom) : bool :=
  match stk with
  | [AEndCycle] => true
  | AR _ :: tl | ANum _ :: tl => cyc_stk tl
  | _ => false
  end.
Fixpoint snull (stk : list atom) : bool :=
  match stk with AR r :: tl => nullfree r || snull tl | _ :: tl => snull tl | [] => false end.
Fixpoint sexact (stk : list atom) : bool :=
  match stk with AR r :: tl => exact_flag r && sexact tl | _ :: tl => sexact tl | [] => true end.

(** From [p] the end of the cycle, started at [p0], can only be reached after progress. *)
Definition will (p0 : nat) (block : bool) (p : nat) (stk : list atom) : Prop :=
  p0 < p \/ snull stk = true \/ (block = true /\ sexact stk = true).

Definition reach (p0 p : nat) (W : Prop) (c' : caps) : Prop :=
  exists p', s_end (c0 c') = Some p' /\ p <= p' /\ (p < p' -> p' <= N) /\ (W -> p0 < p').

Lemma reach_step : forall p0 p p1 (W W' : Prop) c', p <= p1 -> (p < p1 -> p1 <= N) -> (W -> W') ->
  reach p0 p1 W' c' -> reach p0 p W c'.
Proof.
  intros p0 p p1 W W' c' H1 H2 H3 (p' & R1 & R2 & R3 & R4). exists p'.
  split; [assumption|]. split; [lia|]. split; [|auto].
  intros Hlt. destruct (Nat.eq_dec p1 p'); [subst; apply H2; assumption|]. apply R3. lia.
Qed.

Definition PE (n : nat) : Prop := forall v w p0 p f c stk c', fwd N v -> fwd N w -> cyc_stk stk = true -> p0 <= p ->
  eval opt n v w p f c stk = Ok c' -> reach p0 p (will p0 (f_block f) p stk) c'.

Lemma cyc_cycle : forall l, cyc_stk (cycle l) = true.
Proof. unfold cycle. induction l; [reflexivity|]. cbn. assumption. Qed.
Lemma snull_cycle : forall l, snull (cycle l) = existsb nullfree l.
Proof. unfold cycle. induction l; [reflexivity|]. cbn. rewrite IHl. reflexivity. Qed.
Lemma sexact_cycle : forall l, sexact (cycle l) = forallb exact_flag l.
Proof. unfold cycle. induction l; [reflexivity|]. cbn. rewrite IHl. reflexivity. Qed.

Lemma iter_reach : forall n, PE n -> forall v w p f c l c', fwd N v -> fwd N w ->
  eval opt n v w p (not_empty_match f) c (cycle l) = Ok c' -> reach p p (body_eats l = true) c'.
Proof.
  intros n HE v w p f c l c' Hv Hw H.
  eapply reach_step; [apply le_n | lia | | apply (HE v w p p _ c (cycle l) c' Hv Hw (cyc_cycle l) (le_n p) H)].
  intros Hb. right. rewrite snull_cycle, sexact_cycle. unfold body_eats in Hb.
  apply orb_true_iff in Hb as [Hb|Hb]; auto.
Qed.

Definition PReq (n : nat) : Prop := forall v w p f c a i l p' c', fwd N v -> fwd N w ->
  req_loop opt n v w p f c a i l = Ok (p', c') ->
  p <= p' /\ (p < p' -> p' <= N) /\ (body_eats l = true -> (i < a)%N -> p < p').

Lemma preq_step : forall n, PE n -> PReq n -> PReq (S n).
Proof.
  intros n HE HR v w p f c a i l p' c' Hv Hw H. cbn [req_loop] in H. rewrite lt_spec2 in H.
  destruct (N.ltb_spec i a) as [Hi|Hi].
  - destruct (eval opt n v w p (not_empty_match f) c (cycle l)) as [c1| | | |] eqn:E1; try discriminate.
    destruct (iter_reach n HE v w p f c l c1 Hv Hw E1) as (p1 & R1 & R2 & R3 & R4).
    rewrite R1 in H. cbn [or_ub] in H.
    destruct (HR v w p1 f _ a (N.succ i) l p' c' Hv Hw H) as (Q1 & Q2 & Q3).
    split; [lia|]. split; [|intros Hb _; specialize (R4 Hb); lia].
    intros Hlt. destruct (Nat.eq_dec p1 p'); [subst; apply R3; assumption|]. apply Q2. lia.
  - injection H as <- <-. split; [lia|]. split; lia.
Qed.

Definition PRec (n : nat) : Prop := forall v w p0 p f c b i l tl c', fwd N v -> fwd N w -> cyc_stk tl = true -> p0 <= p ->
  rec_loop opt n v w p f c b i l tl = Ok c' -> reach p0 p (p0 < p \/ snull tl = true) c'.

Lemma cs_block : forall f b, f_block (consumed_something f b) = if b then false else f_block f.
Proof. intros f []; reflexivity. Qed.

Lemma prec_step : forall n, PE n -> PRec n -> PRec (S n).
Proof.
  intros n HE HR v w p0 p f c b i l tl c' Hv Hw Ht Hp H. cbn [rec_loop] in H.
  assert (Now : eval opt n v w p (consumed_something f true) c tl = Ok c' ->
            reach p0 p (p0 < p \/ snull tl = true) c').
  { intros E1. eapply reach_step; [apply le_n | lia | |apply (HE v w p0 p _ c tl c' Hv Hw Ht Hp E1)].
    unfold will. tauto. }
  destruct (less_than_or_infinite b i); [|auto].
  destruct (eval opt n v w p (not_empty_match f) c (cycle l)) as [c1| | | |] eqn:E1; try discriminate; [|auto].
  destruct (iter_reach n HE v w p f c l c1 Hv Hw E1) as (p1 & R1 & R2 & R3 & R4).
  rewrite R1 in H. cbn [or_ub] in H.
  destruct (rec_loop opt n v w p1 f (unmatch c1) b (N.succ i) l tl) as [c2| | | |] eqn:E2; try discriminate; [|auto].
  injection H as ->. eapply reach_step; [exact R2|exact R3| |apply (HR v w p0 p1 f _ b (N.succ i) l tl c' Hv Hw Ht ltac:(lia) E2)].
  intros [|]; [left; lia | right; assumption].
Qed.

Definition PLaz (n : nat) : Prop := forall v w p0 p f c b i l tl c', fwd N v -> fwd N w -> cyc_stk tl = true -> p0 <= p ->
  lazy_loop opt n v w p f c b i l tl = Ok c' ->
  reach p0 p (p0 < p \/ snull tl = true \/ (body_eats l = true /\ (b = 0 \/ i < b)%N)) c'.

Lemma plaz_step : forall n, PE n -> PLaz n -> PLaz (S n).
Proof.
  intros n HE HR v w p0 p f c b i l tl c' Hv Hw Ht Hp H. cbn [lazy_loop] in H.
  destruct (less_than_or_infinite b i) eqn:El.
  - destruct (eval opt n v w p (not_empty_match f) c (cycle l)) as [c1| | | |] eqn:E1; try discriminate.
    destruct (iter_reach n HE v w p f c l c1 Hv Hw E1) as (p1 & R1 & R2 & R3 & R4).
    rewrite R1 in H. cbn [or_ub] in H.
    destruct (eval opt n w w p1 (consumed_something f true) (unmatch c1) tl) as [c2| | | |] eqn:E2; try discriminate.
    + injection H as ->. eapply reach_step; [exact R2|exact R3| |apply (HE w w p0 p1 _ _ tl c' Hw Hw Ht ltac:(lia) E2)].
      unfold will. intros [|[|[Hb _]]]; [left; lia | auto | left; specialize (R4 Hb); lia].
    + eapply reach_step; [exact R2|exact R3| |apply (HR v w p0 p1 f _ b (N.succ i) l tl c' Hv Hw Ht ltac:(lia) H)].
      intros [|[|[Hb _]]]; [left; lia | auto | left; specialize (R4 Hb); lia].
  - eapply reach_step; [apply le_n | lia | |apply (HE v w p0 p _ c tl c' Hv Hw Ht Hp H)].
    unfold will, less_than_or_infinite in *. intros [|[|[_ Hb]]]; auto. lia.
Qed.

Definition PPos (n : nat) : Prop := forall v w p0 start p f c a b i l tl c', fwd N v -> fwd N w -> cyc_stk tl = true ->
  p0 <= start <= p -> (b = 0 \/ a <= b)%N ->
  poss_loop opt n v w start p f c a b i l tl = Ok c' ->
  reach p0 p (will p0 (f_block f) p tl \/ (body_eats l = true /\ (i < a)%N)) c'.

Lemma ppos_step : forall n, PE n -> PPos n -> PPos (S n).
Proof.
  intros n HE HR v w p0 start p f c a b i l tl c' Hv Hw Ht Hp Hab H. cbn [poss_loop] in H.
  assert (Now : ~ (i < a)%N -> eval opt n v w p (consumed_something f (negb (Nat.eqb start p))) c tl = Ok c' ->
            reach p0 p (will p0 (f_block f) p tl \/ (body_eats l = true /\ (i < a)%N)) c').
  { intros Hi E1. eapply reach_step; [apply le_n | lia | |apply (HE v w p0 p _ c tl c' Hv Hw Ht ltac:(lia) E1)].
    rewrite cs_block. intros [Hw1|[_ ?]]; [|contradiction].
    destruct (Nat.eqb_spec start p); cbn [negb]; [assumption|]. left. lia. }
  unfold less_than_or_infinite in H.
  destruct (N.eqb b 0 || N.ltb i b)%bool eqn:El; [|apply Now; [lia|assumption]].
  destruct (eval opt n v w p (not_empty_match f) c (cycle l)) as [c1| | | |] eqn:E1; try discriminate.
  - destruct (iter_reach n HE v w p f c l c1 Hv Hw E1) as (p1 & R1 & R2 & R3 & R4).
    rewrite R1 in H. cbn [or_ub] in H.
    eapply reach_step; [exact R2|exact R3| |apply (HR v w p0 start p1 f _ a b (N.succ i) l tl c' Hv Hw Ht ltac:(lia) Hab H)].
    intros [[|]|[Hb _]]; left; [left; lia | right; assumption | left; specialize (R4 Hb); lia].
  - rewrite lt_spec2 in H. destruct (N.ltb_spec i a); [discriminate|]. apply Now; [lia|assumption].
Qed.

Lemma match_string_moves : forall v ci t p p', fwd N v -> match_string v ci t p = Ok p' ->
  p <= p' /\ (p < p' -> p' <= N) /\ (t <> [] -> p < p').
Proof.
  intros v ci t p p' Hv. revert p. induction t as [|ch t IH]; cbn [match_string]; intros p H.
  - injection H as ->. split; [lia|]. split; [lia|congruence].
  - destruct (vend v p) as [[]|]; try discriminate. cbn [or_ub] in H.
    destruct (vget v p) as [x|]; [|discriminate]. cbn [or_ub] in H.
    destruct (vnext v p) as [q|] eqn:E; [|discriminate]. cbn [or_ub] in H.
    destruct (match_lit ci ch x); [|discriminate]. apply Hv in E.
    destruct (IH q H) as (H1 & H2 & _). split; [lia|]. split; [|intros; lia].
    intros _. destruct (Nat.eq_dec q p'); [subst; lia|]. apply H2. lia.
Qed.

Lemma match_range_moves : forall n v p b e p', fwd N v -> match_range_loop n v p b e = Ok (p', true) ->
  p <= p' /\ (p < p' -> p' <= N) /\ (b <> e -> p < p').
Proof.
  induction n as [|n IH]; intros v p b e p' Hv; cbn [match_range_loop]; [discriminate|]. intros H.
  destruct (vend v p) as [t|]; [|discriminate]. cbn [or_ub] in H.
  destruct (negb t && negb (Nat.eqb e b))%bool.
  - destruct (vget v p) as [x|]; [|discriminate]. cbn [or_ub] in H.
    destruct (vget v b) as [y|]; [|discriminate]. cbn [or_ub] in H.
    destruct (Z.eqb x y); [|discriminate].
    destruct (vnext v p) as [q|] eqn:E; [|discriminate]. cbn [or_ub] in H.
    destruct (vnext v b) as [q'|]; [|discriminate]. cbn [or_ub] in H. apply Hv in E.
    destruct (IH v q q' e p' Hv H) as (H1 & H2 & _). split; [lia|]. split; [|intros; lia].
    intros _. destruct (Nat.eq_dec q p'); [subst; lia|]. apply H2. lia.
  - injection H as -> He. apply Nat.eqb_eq in He. split; [lia|]. split; [lia|]. congruence.
Qed.

(** Monotonicity of [will] when the stack changes. *)
Lemma will_stk : forall p0 bl p s1 s2, (snull s1 = true -> snull s2 = true) -> (sexact s1 = true -> sexact s2 = true) ->
  will p0 bl p s1 -> will p0 bl p s2.
Proof. unfold will. tauto. Qed.

Theorem prog_all : forall n, PE n /\ PReq n /\ PRec n /\ PLaz n /\ PPos n.
Proof.
  induction n as [|n (HE & HRq & HRc & HLz & HPs)].
  { split; [|split; [|split; [|split]]]; repeat intro; discriminate. }
  split; [|split; [|split; [|split]]];
    [|apply preq_step; assumption | apply prec_step; assumption | apply plaz_step; assumption
     |apply ppos_step; assumption].
  intros v w p0 p f c stk c' Hv Hw Hst Hp H.
  destruct stk as [|a tl]; [discriminate|].
  destruct a as [r| | | | | | |id]; try discriminate.
  - cbn [cyc_stk] in Hst.
    (* continue with [tl] at the same position *)
    assert (Stay : forall f' c1, f_block f' = f_block f -> nullfree r = false ->
       eval opt n v w p f' c1 tl = Ok c' -> reach p0 p (will p0 (f_block f) p (AR r :: tl)) c').
    { intros f' c1 Hf Hn E1.
      eapply reach_step; [apply le_n | lia | | apply (HE v w p0 p f' c1 tl c' Hv Hw Hst Hp E1)].
      rewrite Hf. apply will_stk; cbn [snull sexact]; [rewrite Hn; auto|].
      intros H'. apply andb_true_iff in H' as [_ H']. assumption. }
    assert (Move : forall f' c1 q, p < q <= N -> eval opt n v w q f' c1 tl = Ok c' ->
       reach p0 p (will p0 (f_block f) p (AR r :: tl)) c').
    { intros f' c1 q Hq E1.
      eapply reach_step; [ | | | apply (HE v w p0 q f' c1 tl c' Hv Hw Hst ltac:(lia) E1)]; try lia.
      intros _. left. lia. }
    destruct r as
      [ k | | t | l | l | | | k a b l | id l | id nm l | id | nm
      | neg l | neg l | l | k | k | a | m ]; cbn [eval] in H.
    + (* RCls *)
      destruct (vend v p) as [[]|]; try discriminate. cbn [or_ub] in H.
      destruct (vget v p) as [x|]; [|discriminate]. cbn [or_ub] in H.
      destruct (match_cls (f_ci f) k x); [|discriminate].
      destruct (vnext v p) as [q|] eqn:E; [|discriminate]. cbn [or_ub] in H. apply Hv in E.
      eapply Move; [exact E | exact H].
    + (* RAny *)
      destruct (vend v p) as [[]|]; try discriminate. cbn [or_ub] in H.
      destruct (if f_ml f then _ else _) as [[]|]; try discriminate. cbn [or_ub] in H.
      destruct (vnext v p) as [q|] eqn:E; [|discriminate]. cbn [or_ub] in H. apply Hv in E.
      eapply Move; [exact E | exact H].
    + (* RStr *)
      destruct (match_string v (f_ci f) t p) as [q| | | |] eqn:E; try discriminate.
      apply match_string_moves in E as (E1 & E2 & E3); [|assumption].
      destruct t as [|ch t].
      * cbn [length Nat.eqb negb consumed_something] in H.
        eapply reach_step; [exact E1 | exact E2 | | apply (HE v w p0 q f c tl c' Hv Hw Hst ltac:(lia) H)].
        unfold will. cbn [snull sexact]. intros [|[|[? ?]]]; [left; lia | auto | auto].
      * eapply Move; [|exact H]. specialize (E3 ltac:(discriminate)). auto.
    + (* RSelect *)
      destruct l as [|x xs]; [discriminate|].
      destruct (eval opt n v w p f c (AR x :: tl)) as [c1| | | |] eqn:E1; try discriminate.
      * injection H as ->.
        eapply reach_step; [apply le_n | lia | | apply (HE v w p0 p f c (AR x :: tl) c' Hv Hw Hst Hp E1)].
        apply will_stk; cbn [snull sexact]; unfold nullfree, exact_flag; cbn [eats fst snd forallb].
        -- intros H'. apply orb_true_iff in H' as [H'|H']; apply orb_true_iff; auto. apply andb_true_iff in H'. tauto.
        -- intros H'. apply andb_true_iff in H' as [H' H2]; apply andb_true_iff. apply andb_true_iff in H'. tauto.
      * eapply reach_step; [apply le_n | lia | | apply (HE v w p0 p f c (AR (RSelect xs) :: tl) c' Hv Hw Hst Hp H)].
        apply will_stk; cbn [snull sexact]; unfold nullfree, exact_flag; cbn [eats fst snd forallb].
        -- intros H'. apply orb_true_iff in H' as [H'|H']; apply orb_true_iff; auto. apply andb_true_iff in H'. tauto.
        -- intros H'. apply andb_true_iff in H' as [H' H2]; apply andb_true_iff. apply andb_true_iff in H'. tauto.
    + (* RSeq *)
      destruct l as [|x [|y ys]]; [discriminate| |].
      * eapply reach_step; [apply le_n | lia | | apply (HE v w p0 p f c (AR x :: tl) c' Hv Hw Hst Hp H)].
        apply will_stk; cbn [snull sexact]; unfold nullfree, exact_flag; cbn [eats fst snd forallb existsb];
          rewrite ?orb_false_r, ?andb_true_r; auto.
      * eapply reach_step; [apply le_n | lia | | apply (HE v w p0 p f c (AR x :: AR (RSeq (y :: ys)) :: tl) c' Hv Hw Hst Hp H)].
        apply will_stk; cbn [snull sexact]; unfold nullfree, exact_flag; cbn [eats fst snd forallb existsb];
          rewrite ?orb_assoc, ?andb_assoc; auto.
    + (* REmpty *) eapply Stay; [reflexivity|reflexivity|exact H].
    + discriminate.
    + (* RRep *)
      destruct (negb (N.eqb b 0) && N.ltb b a)%bool eqn:Eab; [discriminate|].
      assert (Hab : (b = 0 \/ a <= b)%N) by lia.
      assert (Hnull : nullfree (RRep k a b l) = (negb (N.eqb a 0) && body_eats l)%bool) by reflexivity.
      destruct k.
      * destruct (becomes_possessive opt l tl) as [[|]|] eqn:Ebp; [| |discriminate].
        -- eapply reach_step; [apply le_n | lia | | apply (HE v w p0 p f c (AR (RRep Possessive a b l) :: tl) c' Hv Hw Hst Hp H)].
           apply will_stk; cbn [snull sexact]; [auto|].
           intros H'. apply andb_true_iff in H' as [_ H']. cbn. assumption.
        -- destruct (vconv v); [|discriminate]. cbn [negb] in H.
           destruct (req_loop opt n v w p f c a 0 l) as [[p1 c1]| | | |] eqn:E1; try discriminate.
           destruct (HRq v w p f c a 0%N l p1 c1 Hv Hw E1) as (Q1 & Q2 & Q3).
           eapply reach_step; [exact Q1 | exact Q2 | | apply (HRc v w p0 p1 f c1 b a l tl c' Hv Hw Hst ltac:(lia) H)].
           assert (Ha : (negb (N.eqb a 0) && body_eats l)%bool = true -> p < p1).
           { intros H'. apply andb_true_iff in H' as [A1 A2]. apply Q3; [assumption|lia]. }
           intros [H'|[H'|[_ H']]].
           ++ left. lia.
           ++ cbn [snull] in H'. rewrite Hnull in H'. apply orb_true_iff in H' as [H'|H']; [|auto].
              left. specialize (Ha H'). lia.
           ++ cbn [sexact] in H'. apply andb_true_iff in H' as [H' _].
              change (exact_flag (RRep Greedy a b l)) with (negb (N.eqb a 0) && body_eats l)%bool in H'.
              left. specialize (Ha H'). lia.
      * destruct (vconv v); [|discriminate]. cbn [negb] in H.
        destruct (req_loop opt n v w p f c a 0 l) as [[p1 c1]| | | |] eqn:E1; try discriminate.
        destruct (HRq v w p f c a 0%N l p1 c1 Hv Hw E1) as (Q1 & Q2 & Q3).
        assert (Ha : (negb (N.eqb a 0) && body_eats l)%bool = true -> p < p1).
        { intros H'. apply andb_true_iff in H' as [A1 A2]. apply Q3; [assumption|lia]. }
        destruct (eval opt n v w p1 (consumed_something f (negb (Nat.eqb p p1))) c1 tl) as [c2| | | |] eqn:E2;
          try discriminate.
        -- injection H as ->.
           eapply reach_step; [exact Q1 | exact Q2 | | apply (HE v w p0 p1 _ c1 tl c' Hv Hw Hst ltac:(lia) E2)].
           intros [H'|[H'|[H' H2]]].
           ++ left. lia.
           ++ cbn [snull] in H'. rewrite Hnull in H'. apply orb_true_iff in H' as [H'|H']; [|right; auto].
              left. specialize (Ha H'). lia.
           ++ destruct (Nat.eqb_spec p p1); [|left; lia]. right. right. cbn [negb consumed_something].
              split; [assumption|]. cbn [sexact] in H2. apply andb_true_iff in H2. tauto.
        -- eapply reach_step; [exact Q1 | exact Q2 | | apply (HLz v w p0 p1 f c1 b a l tl c' Hv Hw Hst ltac:(lia) H)].
           intros [H'|[H'|[_ H']]].
           ++ left. lia.
           ++ cbn [snull] in H'. rewrite Hnull in H'. apply orb_true_iff in H' as [H'|H']; [|auto].
              left. specialize (Ha H'). lia.
           ++ cbn [sexact] in H'. apply andb_true_iff in H' as [H' _].
              change (exact_flag (RRep Lazy a b l)) with (body_eats l) in H'.
              destruct (N.eq_dec b 0); [right; right; auto|]. destruct (N.eq_dec a b) as [->|]; [|right; right; split; [assumption|lia]].
              left. specialize (Q3 H' ltac:(lia)). lia.
      * destruct (vconv v); [|discriminate]. cbn [negb] in H.
        eapply reach_step; [apply le_n | lia | | apply (HPs v w p0 p p f c a b 0%N l tl c' Hv Hw Hst ltac:(lia) Hab H)].
        unfold will. cbn [snull sexact]. rewrite Hnull. intros [H'|[H'|[H' H2]]]; auto.
        apply orb_true_iff in H' as [H'|H']; auto. apply andb_true_iff in H' as [A1 A2]. right. split; [assumption|lia].
    + (* RCap *)
      destruct (vconv v); [|discriminate].
      destruct (start_capture id p c) as [c1|]; [|discriminate]. cbn [or_ill] in H.
      eapply reach_step; [apply le_n | lia | | apply (HE v w p0 p f c1 (AR (RSeq l) :: ANum id :: tl) c' Hv Hw Hst Hp H)].
      apply will_stk; cbn [snull sexact]; auto.
    + (* RNCap *)
      destruct (vconv v); [|discriminate].
      destruct (start_capture id p c) as [c1|]; [|discriminate]. cbn [or_ill] in H.
      eapply reach_step; [apply le_n | lia | | apply (HE v w p0 p f c1 (AR (RSeq l) :: ANum id :: tl) c' Hv Hw Hst Hp H)].
      apply will_stk; cbn [snull sexact]; auto.
    + (* RBack *)
      destruct (vsame v); [|discriminate]. cbn [negb] in H.
      destruct (get_id id c) as [sl|]; [|discriminate]. cbn [or_ill] in H.
      destruct (s_m sl); [|discriminate].
      destruct (s_beg sl) as [b|]; [|discriminate]. cbn [or_ub] in H.
      destruct (s_end sl) as [e|]; [|discriminate]. cbn [or_ub] in H.
      destruct (match_range_loop n v p b e) as [[q []]| | | |] eqn:E; try discriminate.
      apply match_range_moves in E as (E1 & E2 & E3); [|assumption].
      eapply reach_step; [exact E1 | exact E2 | | apply (HE v w p0 q _ c tl c' Hv Hw Hst ltac:(lia) H)].
      unfold will. cbn [snull sexact]. intros [H'|[H'|[H1 H2]]]; [left; lia | auto|].
      destruct (Nat.eqb_spec b e); [right; right; auto|]. left. specialize (E3 ltac:(assumption)). lia.
    + (* RNBack *)
      destruct (vsame v); [|discriminate]. cbn [negb] in H.
      destruct (get_name nm (cl c)) as [sl|]; [|discriminate]. cbn [or_ill] in H.
      destruct (s_m sl); [|discriminate].
      destruct (s_beg sl) as [b|]; [|discriminate]. cbn [or_ub] in H.
      destruct (s_end sl) as [e|]; [|discriminate]. cbn [or_ub] in H.
      destruct (match_range_loop n v p b e) as [[q []]| | | |] eqn:E; try discriminate.
      apply match_range_moves in E as (E1 & E2 & E3); [|assumption].
      eapply reach_step; [exact E1 | exact E2 | | apply (HE v w p0 q _ c tl c' Hv Hw Hst ltac:(lia) H)].
      unfold will. cbn [snull sexact]. intros [H'|[H'|[H1 H2]]]; [left; lia | auto|].
      destruct (Nat.eqb_spec b e); [right; right; auto|]. left. specialize (E3 ltac:(assumption)). lia.
    + (* RAhead *)
      destruct neg; destruct (eval opt n v w p f c [AR (RSeq l); AEndAhead]) as [c1| | | |]; try discriminate;
        (eapply Stay; [reflexivity|reflexivity|exact H]).
    + (* RBehind *)
      destruct neg; destruct (eval opt n (rev_view v) w p f c [AR (RSeq l); AEndBehind]) as [c1| | | |]; try discriminate;
        (eapply Stay; [reflexivity|reflexivity|exact H]).
    + (* RAtomic *)
      eapply reach_step; [apply le_n | lia | | apply (HE v w p0 p f c (AR (RRep Possessive 1 1 l) :: tl) c' Hv Hw Hst Hp H)].
      apply will_stk; cbn [snull sexact]; auto.
    + destruct (around v (f_ci f) k p) as [[x y]| | | |]; try discriminate.
      destruct (Bool.eqb x y); [discriminate|]. eapply Stay; [reflexivity|reflexivity|exact H].
    + destruct (around v (f_ci f) k p) as [[x y]| | | |]; try discriminate.
      destruct (Bool.eqb x y); [|discriminate]. eapply Stay; [reflexivity|reflexivity|exact H].
    + destruct (eval_assert v (f_ml f) a p) as [[]| | | |]; try discriminate. eapply Stay; [reflexivity|reflexivity|exact H].
    + eapply Stay; [|reflexivity|exact H]. destruct m; reflexivity.
  - (* AEndCycle *)
    destruct tl; [|discriminate]. cbn [eval] in H. destruct (vconv v); [|discriminate]. cbn [negb] in H.
    destruct (f_block f) eqn:Ef; [discriminate|]. injection H as <-. exists p. cbn.
    split; [reflexivity|]. split; [lia|]. split; [lia|].
    intros [H'|[H'|[H' _]]]; [assumption | discriminate | discriminate].
  - (* ANum *)
    cbn [cyc_stk] in Hst. cbn [eval] in H. destruct (vconv v); [|discriminate].
    destruct (end_capture id p c) as [c1|]; [|discriminate]. cbn [or_ill] in H.
    eapply reach_step; [apply le_n | lia | | apply (HE v w p0 p f c1 tl c' Hv Hw Hst Hp H)].
    apply will_stk; cbn [snull sexact]; auto.
Qed.
End Progress.

(** * Termination *)
(** The outcome, as a function of the fuel, becomes constant and is not [Fuel]. *)
Definition settles {A} (X : nat -> res A) : Prop :=
  exists n x, x <> Fuel /\ forall m, n <= m -> X m = x.

(** Size of a pattern and of a stack; every call made by [eval] is on a smaller stack. *)
Fixpoint size (r : re) : nat :=
  let sum := fix sum (l : list re) : nat := match l with [] => 0 | x :: xs => S (size x) + sum xs end in
  match r with
  | RSelect l | RSeq l => S (sum l)
  | RRep Possessive _ _ l => S (S (sum l))
  | RRep _ _ _ l | RAtomic l | RCap _ l | RNCap _ _ l | RAhead _ l | RBehind _ l => S (S (S (sum l)))
  | _ => 1
  end.
Definition sizes (l : list re) : nat := fold_right (fun x n => S (size x) + n) 0 l.
Definition asize (a : atom) : nat := match a with AR r => size r | _ => 1 end.
Definition ssize (stk : list atom) : nat := fold_right (fun a n => asize a + n) 0 stk.

Lemma sizes_fix : forall l, (fix sum (l : list re) : nat := match l with [] => 0 | x :: xs => S (size x) + sum xs end) l = sizes l.
Proof. induction l; [reflexivity|]. cbn [sizes fold_right]. rewrite IHl. reflexivity. Qed.
Lemma size_select : forall l, size (RSelect l) = S (sizes l).
Proof. intros. cbn [size]. rewrite sizes_fix. reflexivity. Qed.
Lemma size_seq : forall l, size (RSeq l) = S (sizes l).
Proof. intros. cbn [size]. rewrite sizes_fix. reflexivity. Qed.
Lemma size_rep : forall k a b l, S (S (sizes l)) <= size (RRep k a b l) <= S (S (S (sizes l))).
Proof. intros. destruct k; cbn [size]; rewrite (sizes_fix l); lia. Qed.
Definition wraps (r : re) : bool :=
  match r with RCap _ _ | RNCap _ _ _ | RAhead _ _ | RBehind _ _ => true | _ => false end.
Definition content (r : re) : list re :=
  match r with RCap _ l | RNCap _ _ l | RAhead _ l | RBehind _ l => l | _ => [] end.
Lemma size_wrap : forall r, wraps r = true -> size r = S (S (S (sizes (content r)))).
Proof. destruct r; try discriminate; intros _; cbn [size content]; f_equal; f_equal; f_equal; apply sizes_fix. Qed.
Lemma size_greedy : forall a b l, size (RRep Greedy a b l) = S (size (RRep Possessive a b l)).
Proof. reflexivity. Qed.
Lemma size_pos : forall r, 1 <= size r.
Proof. destruct r; cbn [size]; try lia. destruct k; lia. Qed.
Lemma size_cycle : forall l, ssize (cycle l) <= S (sizes l).
Proof. unfold cycle. induction l; cbn in *; [lia|]. unfold ssize, sizes in *. cbn in *. lia. Qed.

Definition tatom (a : atom) : bool := match a with AR r => terminating r | _ => true end.
Lemma tatom_cycle : forall l, forallb terminating l = true -> forallb tatom (cycle l) = true.
Proof.
  intros l. unfold cycle. induction l; cbn; [reflexivity|]. intros H. apply andb_true_iff in H as [-> H]. auto.
Qed.

Definition good (N : nat) (v : view) : Prop := (vconv v = false /\ vsame v = false) \/ fwd N v.

Ltac leaf n x :=
  exists (S n), x; split; [try discriminate; try assumption |];
  let m := fresh "m" in intros [|m] ?; [lia|]; cbn [eval req_loop rec_loop lazy_loop poss_loop match_range_loop].

Section Termination.
Variable opt : bool.
Variable N : nat.

Lemma settles_range : forall v p b e, fwd N v -> settles (fun n => match_range_loop n v p b e).
Proof.
  intros v p b e Hv. remember (N - p) as k eqn:Ek. revert p b Ek.
  induction k as [k IH] using lt_wf_ind. intros p b ->.
  destruct (vend v p) as [t|] eqn:E1; [|leaf 0 (@UB (nat * bool)); rewrite E1; reflexivity].
  destruct (negb t && negb (Nat.eqb e b))%bool eqn:E2.
  2:{ leaf 0 (Ok (p, Nat.eqb b e)). rewrite E1. cbn [or_ub]. rewrite E2. reflexivity. }
  destruct (vget v p) as [x|] eqn:E3; [|leaf 0 (@UB (nat * bool)); rewrite E1; cbn [or_ub]; rewrite E2, E3; reflexivity].
  destruct (vget v b) as [y|] eqn:E4; [|leaf 0 (@UB (nat * bool)); rewrite E1; cbn [or_ub]; rewrite E2, E3, E4; reflexivity].
  destruct (Z.eqb x y) eqn:E5.
  2:{ leaf 0 (Ok (p, false)). rewrite E1. cbn [or_ub]. rewrite E2, E3, E4. cbn [or_ub]. rewrite E5. reflexivity. }
  destruct (vnext v p) as [q|] eqn:E6.
  2:{ leaf 0 (@UB (nat * bool)). rewrite E1. cbn [or_ub]. rewrite E2, E3, E4. cbn [or_ub]. rewrite E5, E6. reflexivity. }
  destruct (vnext v b) as [q'|] eqn:E7.
  2:{ leaf 0 (@UB (nat * bool)). rewrite E1. cbn [or_ub]. rewrite E2, E3, E4. cbn [or_ub]. rewrite E5, E6, E7. reflexivity. }
  pose proof (Hv p q E6) as Hq.
  destruct (IH (N - q) ltac:(lia) q q' eq_refl) as (n & r & Hr & H).
  leaf n r. rewrite E1. cbn [or_ub]. rewrite E2, E3, E4. cbn [or_ub]. rewrite E5, E6, E7. cbn [or_ub]. apply H. lia.
Qed.

(** The loops, given that iterations and the continuation settle. *)
Section Loops.
Variables (v w : view) (f : flags) (l : list re) (tl : list atom).
Hypothesis Hv : fwd N v.
Hypothesis Hw : fwd N w.
Hypothesis Hbody : forall p c, settles (fun n => eval opt n v w p (not_empty_match f) c (cycle l)).
Hypothesis Htl : forall p f' c, settles (fun n => eval opt n v w p f' c tl).
Hypothesis Htlw : forall p f' c, settles (fun n => eval opt n w w p f' c tl).

Lemma body_value : forall p c n c1,
  eval opt n v w p (not_empty_match f) c (cycle l) = Ok c1 ->
  exists p1, s_end (c0 c1) = Some p1 /\ (body_eats l = true -> p < p1 <= N).
Proof.
  intros p c n c1 H.
  destruct (iter_reach opt N n (proj1 (prog_all opt N n)) v w p f c l c1 Hv Hw H) as (p1 & R1 & R2 & R3 & R4).
  exists p1. split; [assumption|]. intros Hb. specialize (R4 Hb). auto.
Qed.

Lemma settles_req : forall a i p c, settles (fun n => req_loop opt n v w p f c a i l).
Proof.
  intros a i. remember (N.to_nat (a - i)) as k eqn:Ek. revert i Ek.
  induction k as [k IH] using lt_wf_ind. intros i -> p c.
  destruct (N.ltb_spec i a) as [Hi|Hi].
  - destruct (Hbody p c) as (n1 & x1 & Hx1 & H1).
    destruct x1 as [c1| | | |]; try congruence;
      try (match type of H1 with forall m, _ -> _ = ?X =>
        leaf n1 (match X with No => @No (nat * caps) | UB => @UB (nat * caps) | _ => @Ill (nat * caps) end);
        rewrite lt_spec2, (proj2 (N.ltb_lt i a) Hi), H1 by lia; reflexivity end).
    destruct (body_value p c n1 c1 (H1 n1 (le_n _))) as (p1 & R1 & _).
    destruct (IH (N.to_nat (a - N.succ i)) ltac:(lia) (N.succ i) eq_refl p1 (unmatch c1)) as (n2 & x2 & Hx2 & H2).
    leaf (n1 + n2) x2. rewrite lt_spec2, (proj2 (N.ltb_lt i a) Hi), H1 by lia. rewrite R1. cbn [or_ub]. apply H2. lia.
  - leaf 0 (Ok (p, c)). rewrite lt_spec2, (proj2 (N.ltb_ge i a) Hi). reflexivity.
Qed.

Variable b : BinNums.N.
Hypothesis Hb : b <> 0%N \/ body_eats l = true.

Definition left_ (i : BinNums.N) (p : nat) : nat := if N.eqb b 0 then N - p else N.to_nat (b - i).
Lemma left_less : forall i p p1, less_than_or_infinite b i = true -> (body_eats l = true -> p < p1 <= N) ->
  left_ (N.succ i) p1 < left_ i p.
Proof.
  intros i p p1 H H1. unfold left_, less_than_or_infinite in *. destruct (N.eqb_spec b 0); [|lia].
  destruct Hb as [|Hb1]; [congruence|]. specialize (H1 Hb1). lia.
Qed.

Lemma settles_rec : forall i p c, settles (fun n => rec_loop opt n v w p f c b i l tl).
Proof.
  intros i p. remember (left_ i p) as k eqn:Ek. revert i p Ek.
  induction k as [k IH] using lt_wf_ind. intros i p -> c.
  destruct (Htl p (consumed_something f true) c) as (n0 & x0 & Hx0 & H0).
  destruct (less_than_or_infinite b i) eqn:El; [|leaf n0 x0; rewrite El; apply H0; lia].
  destruct (Hbody p c) as (n1 & x1 & Hx1 & H1).
  destruct x1 as [c1| | | |]; try congruence.
  - destruct (body_value p c n1 c1 (H1 n1 (le_n _))) as (p1 & R1 & R2).
    destruct (IH _ (left_less i p p1 El R2) (N.succ i) p1 eq_refl (unmatch c1)) as (n2 & x2 & Hx2 & H2).
    destruct x2 as [c2| | | |]; try congruence.
    + leaf (n1 + n2) (Ok c2). rewrite El, H1 by lia. rewrite R1. cbn [or_ub]. rewrite H2 by lia. reflexivity.
    + leaf (n1 + n2 + n0) x0. rewrite El, H1 by lia. rewrite R1. cbn [or_ub]. rewrite H2 by lia. apply H0. lia.
    + leaf (n1 + n2) (@UB caps). rewrite El, H1 by lia. rewrite R1. cbn [or_ub]. rewrite H2 by lia. reflexivity.
    + leaf (n1 + n2) (@Ill caps). rewrite El, H1 by lia. rewrite R1. cbn [or_ub]. rewrite H2 by lia. reflexivity.
  - leaf (n1 + n0) x0. rewrite El, H1 by lia. apply H0. lia.
  - leaf n1 (@UB caps). rewrite El, H1 by lia. reflexivity.
  - leaf n1 (@Ill caps). rewrite El, H1 by lia. reflexivity.
Qed.

Lemma settles_lazy : forall i p c, settles (fun n => lazy_loop opt n v w p f c b i l tl).
Proof.
  intros i p. remember (left_ i p) as k eqn:Ek. revert i p Ek.
  induction k as [k IH] using lt_wf_ind. intros i p -> c.
  destruct (less_than_or_infinite b i) eqn:El.
  2:{ destruct (Htl p (consumed_something f true) c) as (n0 & x0 & Hx0 & H0).
      leaf n0 x0; rewrite El; apply H0; lia. }
  destruct (Hbody p c) as (n1 & x1 & Hx1 & H1).
  destruct x1 as [c1| | | |]; try congruence.
  - destruct (body_value p c n1 c1 (H1 n1 (le_n _))) as (p1 & R1 & R2).
    destruct (Htlw p1 (consumed_something f true) (unmatch c1)) as (n0 & x0 & Hx0 & H0).
    destruct x0 as [c2| | | |]; try congruence.
    + leaf (n1 + n0) (Ok c2). rewrite El, H1 by lia. rewrite R1. cbn [or_ub]. rewrite H0 by lia. reflexivity.
    + destruct (IH _ (left_less i p p1 El R2) (N.succ i) p1 eq_refl (unmatch c1)) as (n2 & x2 & Hx2 & H2).
      leaf (n1 + n2 + n0) x2. rewrite El, H1 by lia. rewrite R1. cbn [or_ub]. rewrite H0 by lia. apply H2. lia.
    + leaf (n1 + n0) (@UB caps). rewrite El, H1 by lia. rewrite R1. cbn [or_ub]. rewrite H0 by lia. reflexivity.
    + leaf (n1 + n0) (@Ill caps). rewrite El, H1 by lia. rewrite R1. cbn [or_ub]. rewrite H0 by lia. reflexivity.
  - leaf n1 (@No caps). rewrite El, H1 by lia. reflexivity.
  - leaf n1 (@UB caps). rewrite El, H1 by lia. reflexivity.
  - leaf n1 (@Ill caps). rewrite El, H1 by lia. reflexivity.
Qed.

Lemma settles_poss : forall a start i p c, settles (fun n => poss_loop opt n v w start p f c a b i l tl).
Proof.
  intros a start i p. remember (left_ i p) as k eqn:Ek. revert i p Ek.
  induction k as [k IH] using lt_wf_ind. intros i p -> c.
  destruct (Htl p (consumed_something f (negb (Nat.eqb start p))) c) as (n0 & x0 & Hx0 & H0).
  destruct (less_than_or_infinite b i) eqn:El; [|leaf n0 x0; rewrite El; apply H0; lia].
  destruct (Hbody p c) as (n1 & x1 & Hx1 & H1).
  destruct x1 as [c1| | | |]; try congruence.
  - destruct (body_value p c n1 c1 (H1 n1 (le_n _))) as (p1 & R1 & R2).
    destruct (IH _ (left_less i p p1 El R2) (N.succ i) p1 eq_refl (unmatch c1)) as (n2 & x2 & Hx2 & H2).
    leaf (n1 + n2) x2. rewrite El, H1 by lia. rewrite R1. cbn [or_ub]. apply H2. lia.
  - destruct (less_than a i) eqn:E3.
    + leaf n1 (@No caps). rewrite El, H1 by lia. rewrite E3. reflexivity.
    + leaf (n1 + n0) x0. rewrite El, H1 by lia. rewrite E3. apply H0. lia.
  - leaf n1 (@UB caps). rewrite El, H1 by lia. reflexivity.
  - leaf n1 (@Ill caps). rewrite El, H1 by lia. reflexivity.
Qed.
End Loops.

Definition fits (v : view) (stk : list atom) : Prop := vconv v = false \/ forallb tatom stk = true.

Lemma good_conv : forall v, good N v -> vconv v = true -> fwd N v.
Proof. intros v [[H _]|H] E; [congruence|assumption]. Qed.
Lemma good_same : forall v, good N v -> vsame v = true -> fwd N v.
Proof. intros v [[_ H]|H] E; [congruence|assumption]. Qed.
Lemma good_rev : forall v, good N (rev_view v).
Proof. intros v. left. split; reflexivity. Qed.
Lemma fwd_good : forall v, fwd N v -> good N v.
Proof. intros v H. right. assumption. Qed.

Theorem settles_eval : forall stk v w, good N v -> fwd N w -> (vconv v = true -> vconv w = true) -> fits v stk ->
  forall p f c, settles (fun n => eval opt n v w p f c stk).
Proof.
  intros stk. remember (ssize stk) as k eqn:Ek. revert stk Ek.
  induction k as [k IH] using lt_wf_ind. intros stk -> v w Hv Hw Hvw Hf p f c.
  destruct stk as [|a tl]; [leaf 0 (@No caps); reflexivity|].
  destruct a as [r| | | | | | |id].
  - cbn [ssize asize fold_right] in IH. fold (ssize tl) in IH.
    assert (Hr : vconv v = false \/ terminating r = true).
    { destruct Hf as [|Hf]; [auto|]. cbn in Hf. apply andb_true_iff in Hf. tauto. }
    assert (Ht : fits v tl).
    { destruct Hf as [|Hf]; [left; assumption|right]. cbn in Hf. apply andb_true_iff in Hf. tauto. }
    assert (Sub : forall st, ssize st < size r + ssize tl -> fits v st -> forall q f' c1, settles (fun n => eval opt n v w q f' c1 st)).
    { intros st Hst Hfs. apply (IH _ Hst st eq_refl v w Hv Hw Hvw Hfs). }
    assert (Tl : forall q f' c1, settles (fun n => eval opt n v w q f' c1 tl)).
    { apply Sub; [|assumption]. pose proof (size_pos r). lia. }
    destruct r as
      [ k | | t | l | l | | | k a b l | id l | id nm l | id | nm
      | neg l | neg l | l | k | k | a | m ].
    + (* RCls *)
      destruct (vend v p) as [[]|] eqn:E1;
        [leaf 0 (@No caps); rewrite E1; reflexivity | | leaf 0 (@UB caps); rewrite E1; reflexivity].
      destruct (vget v p) as [x|] eqn:E2; [|leaf 0 (@UB caps); rewrite E1; cbn [or_ub]; rewrite E2; reflexivity].
      destruct (match_cls (f_ci f) k x) eqn:E3;
        [|leaf 0 (@No caps); rewrite E1; cbn [or_ub]; rewrite E2; cbn [or_ub]; rewrite E3; reflexivity].
      destruct (vnext v p) as [q|] eqn:E4;
        [|leaf 0 (@UB caps); rewrite E1; cbn [or_ub]; rewrite E2; cbn [or_ub]; rewrite E3, E4; reflexivity].
      destruct (Tl q (consumed_something f true) c) as (n & x1 & Hx & H).
      leaf n x1. rewrite E1. cbn [or_ub]. rewrite E2. cbn [or_ub]. rewrite E3, E4. apply H. lia.
    + (* RAny *)
      destruct (vend v p) as [[]|] eqn:E1;
        [leaf 0 (@No caps); rewrite E1; reflexivity | | leaf 0 (@UB caps); rewrite E1; reflexivity].
      destruct (if f_ml f then option_map (fun x => Z.eqb x 10) (vget v p) else Some false) as [[]|] eqn:E2;
        [leaf 0 (@No caps); rewrite E1; cbn [or_ub]; rewrite E2; reflexivity | |
         leaf 0 (@UB caps); rewrite E1; cbn [or_ub]; rewrite E2; reflexivity].
      destruct (vnext v p) as [q|] eqn:E4;
        [|leaf 0 (@UB caps); rewrite E1; cbn [or_ub]; rewrite E2; cbn [or_ub]; rewrite E4; reflexivity].
      destruct (Tl q (consumed_something f true) c) as (n & x1 & Hx & H).
      leaf n x1. rewrite E1. cbn [or_ub]. rewrite E2. cbn [or_ub]. rewrite E4. apply H. lia.
    + (* RStr *)
      destruct (match_string v (f_ci f) t p) as [q| | | |] eqn:E1.
      * destruct (Tl q (consumed_something f (negb (Nat.eqb (length t) 0))) c) as (n & x1 & Hx & H).
        leaf n x1. rewrite E1. apply H. lia.
      * leaf 0 (@No caps). rewrite E1. reflexivity.
      * exfalso. clear -E1. revert p E1. induction t as [|ch t IH]; cbn [match_string]; [discriminate|]. intros p.
        destruct (vend v p) as [[]|]; cbn [or_ub]; try discriminate.
        destruct (vget v p); cbn [or_ub]; try discriminate.
        destruct (vnext v p); cbn [or_ub]; try discriminate.
        destruct (match_lit _ _ _); try discriminate. apply IH.
      * leaf 0 (@UB caps). rewrite E1. reflexivity.
      * leaf 0 (@Ill caps). rewrite E1. reflexivity.
    + (* RSelect *)
      destruct l as [|x xs]; [leaf 0 (@No caps); reflexivity|].
      rewrite size_select in Sub. cbn [sizes fold_right] in Sub. fold (sizes xs) in Sub.
      assert (HF : fits v (AR x :: tl) /\ fits v (AR (RSelect xs) :: tl)).
      { destruct Hr as [|Hr]; [split; left; assumption|]. destruct Ht as [|Ht]; [split; left; assumption|].
        cbn [terminating forallb] in Hr. apply andb_true_iff in Hr as [R1 R2].
        split; right; cbn; rewrite Ht; [rewrite R1|rewrite R2]; reflexivity. }
      destruct HF as [HF1 HF2].
      assert (S1 : ssize (AR x :: tl) < S (S (size x + sizes xs)) + ssize tl).
      { cbn [ssize asize fold_right]. fold (ssize tl). lia. }
      assert (S2 : ssize (AR (RSelect xs) :: tl) < S (S (size x + sizes xs)) + ssize tl).
      { cbn [ssize asize fold_right]. fold (ssize tl). rewrite size_select. pose proof (size_pos x). lia. }
      destruct (Sub _ S1 HF1 p f c) as (n1 & x1 & Hx1 & H1).
      destruct (Sub _ S2 HF2 p f c) as (n2 & x2 & Hx2 & H2).
      destruct x1 as [c1| | | |]; try congruence.
      * leaf n1 (Ok c1). rewrite H1 by lia. reflexivity.
      * leaf (n1 + n2) x2. rewrite H1 by lia. apply H2. lia.
      * leaf n1 (@UB caps). rewrite H1 by lia. reflexivity.
      * leaf n1 (@Ill caps). rewrite H1 by lia. reflexivity.
    + (* RSeq *)
      destruct l as [|x xs]; [leaf 0 (@No caps); reflexivity|].
      rewrite size_seq in Sub. cbn [sizes fold_right] in Sub. fold (sizes xs) in Sub.
      destruct xs as [|y ys].
      * assert (HF : fits v (AR x :: tl)).
        { destruct Hr as [|Hr]; [left; assumption|]. destruct Ht as [|Ht]; [left; assumption|].
          cbn [terminating forallb] in Hr. apply andb_true_iff in Hr as [R1 R2]. right; cbn; rewrite Ht, R1. reflexivity. }
        assert (S1 : ssize (AR x :: tl) < S (S (size x + sizes [])) + ssize tl).
        { cbn [ssize asize fold_right]. fold (ssize tl). lia. }
        destruct (Sub _ S1 HF p f c) as (n1 & x1 & Hx1 & H1). leaf n1 x1. apply H1. lia.
      * assert (HF : fits v (AR x :: AR (RSeq (y :: ys)) :: tl)).
        { destruct Hr as [|Hr]; [left; assumption|]. destruct Ht as [|Ht]; [left; assumption|].
          right. cbn in Hr |- *. rewrite Ht, andb_true_r. assumption. }
        assert (S1 : ssize (AR x :: AR (RSeq (y :: ys)) :: tl) < S (S (size x + sizes (y :: ys))) + ssize tl).
        { cbn [ssize asize fold_right]. fold (ssize tl). rewrite size_seq. lia. }
        destruct (Sub _ S1 HF p f c) as (n1 & x1 & Hx1 & H1). leaf n1 x1. apply H1. lia.
    + (* REmpty *) destruct (Tl p f c) as (n1 & x1 & Hx1 & H1). leaf n1 x1. apply H1. lia.
    + (* RReject *) leaf 0 (@No caps). reflexivity.
    + (* RRep *)
      destruct (negb (N.eqb b 0) && N.ltb b a)%bool eqn:Eab; [leaf 0 (@No caps); rewrite Eab; reflexivity|].
      destruct (size_rep k a b l) as [Sz _].
      destruct (vconv v) eqn:Ec.
      2:{ assert (HP : forall m q f' c1, eval opt (S m) v w q f' c1 (AR (RRep Possessive a b l) :: tl) = Ill).
          { intros. cbn [eval]. rewrite Eab, Ec. reflexivity. }
          destruct k.
          - destruct (becomes_possessive opt l tl) as [[]|] eqn:Eb.
            + leaf 1 (@Ill caps). rewrite Eab, Eb. destruct m; [lia|]. apply HP.
            + leaf 0 (@Ill caps). rewrite Eab, Eb, Ec. reflexivity.
            + leaf 0 (@Ill caps). rewrite Eab, Eb. reflexivity.
          - leaf 0 (@Ill caps). rewrite Eab, Ec. reflexivity.
          - leaf 0 (@Ill caps). rewrite Eab, Ec. reflexivity. }
      pose proof (good_conv v Hv Ec) as Hfv.
      destruct Hr as [|Hr]; [congruence|]. cbn [terminating] in Hr. apply andb_true_iff in Hr as [Hb Hl].
      assert (Hb' : b <> 0%N \/ body_eats l = true).
      { apply orb_true_iff in Hb as [Hb|Hb]; [left; lia | auto]. }
      assert (Hbody : forall q c1, settles (fun n => eval opt n v w q (not_empty_match f) c1 (cycle l))).
      { intros. apply Sub; [pose proof (size_cycle l); lia | right; apply tatom_cycle; assumption]. }
      assert (Htw : forall q f' c1, settles (fun n => eval opt n w w q f' c1 tl)).
      { apply (IH (ssize tl) ltac:(lia) tl eq_refl w w (fwd_good w Hw) Hw ltac:(auto)).
        destruct Ht as [Ht|Ht]; [congruence|]. right. assumption. }
      destruct k.
      * destruct (becomes_possessive opt l tl) as [[]|] eqn:Eb.
        -- rewrite size_greedy in Sub.
           assert (HF : fits v (AR (RRep Possessive a b l) :: tl)).
           { destruct Ht as [Ht|Ht]; [congruence|]. right. cbn. rewrite Ht, Hb, Hl. reflexivity. }
           assert (S1 : ssize (AR (RRep Possessive a b l) :: tl) < S (size (RRep Possessive a b l)) + ssize tl).
           { cbn [ssize asize fold_right]. fold (ssize tl). lia. }
           destruct (Sub _ S1 HF p f c) as (n1 & x1 & Hx1 & H1). leaf n1 x1. rewrite Eab, Eb. apply H1. lia.
        -- destruct (settles_req v w f l tl Hfv Hw Hbody Tl Htw a 0%N p c) as (n1 & x1 & Hx1 & H1).
           destruct x1 as [[p1 c1]| | | |]; try congruence.
           ++ destruct (settles_rec v w f l tl Hfv Hw Hbody Tl Htw b Hb' a p1 c1) as (n2 & x2 & Hx2 & H2).
              leaf (n1 + n2) x2. rewrite Eab, Eb, Ec. cbn [negb]. rewrite H1 by lia. apply H2. lia.
           ++ leaf n1 (@No caps). rewrite Eab, Eb, Ec. cbn [negb]. rewrite H1 by lia. reflexivity.
           ++ leaf n1 (@UB caps). rewrite Eab, Eb, Ec. cbn [negb]. rewrite H1 by lia. reflexivity.
           ++ leaf n1 (@Ill caps). rewrite Eab, Eb, Ec. cbn [negb]. rewrite H1 by lia. reflexivity.
        -- leaf 0 (@Ill caps). rewrite Eab, Eb. reflexivity.
      * destruct (settles_req v w f l tl Hfv Hw Hbody Tl Htw a 0%N p c) as (n1 & x1 & Hx1 & H1).
        destruct x1 as [[p1 c1]| | | |]; try congruence.
        -- destruct (Tl p1 (consumed_something f (negb (Nat.eqb p p1))) c1) as (n2 & x2 & Hx2 & H2).
           destruct x2 as [c2| | | |]; try congruence.
           ++ leaf (n1 + n2) (Ok c2). rewrite Eab, Ec. cbn [negb]. rewrite H1 by lia. rewrite H2 by lia. reflexivity.
           ++ destruct (settles_lazy v w f l tl Hfv Hw Hbody Tl Htw b Hb' a p1 c1) as (n3 & x3 & Hx3 & H3).
              leaf (n1 + n2 + n3) x3. rewrite Eab, Ec. cbn [negb]. rewrite H1 by lia. rewrite H2 by lia. apply H3. lia.
           ++ leaf (n1 + n2) (@UB caps). rewrite Eab, Ec. cbn [negb]. rewrite H1 by lia. rewrite H2 by lia. reflexivity.
           ++ leaf (n1 + n2) (@Ill caps). rewrite Eab, Ec. cbn [negb]. rewrite H1 by lia. rewrite H2 by lia. reflexivity.
        -- leaf n1 (@No caps). rewrite Eab, Ec. cbn [negb]. rewrite H1 by lia. reflexivity.
        -- leaf n1 (@UB caps). rewrite Eab, Ec. cbn [negb]. rewrite H1 by lia. reflexivity.
        -- leaf n1 (@Ill caps). rewrite Eab, Ec. cbn [negb]. rewrite H1 by lia. reflexivity.
      * destruct (settles_poss v w f l tl Hfv Hw Hbody Tl Htw b Hb' a p 0%N p c) as (n1 & x1 & Hx1 & H1).
        leaf n1 x1. rewrite Eab, Ec. cbn [negb]. apply H1. lia.
    + (* RCap *)
      destruct (vconv v) eqn:Ec; [|leaf 0 (@Ill caps); rewrite Ec; reflexivity].
      destruct (start_capture id p c) as [c1|] eqn:Es; [|leaf 0 (@Ill caps); rewrite Ec, Es; reflexivity].
      assert (HF : fits v (AR (RSeq l) :: ANum id :: tl)).
      { destruct Hr as [|Hr]; [congruence|]. destruct Ht as [|Ht]; [congruence|].
        right. cbn in Hr |- *. rewrite Ht, Hr. reflexivity. }
      assert (S1 : ssize (AR (RSeq l) :: ANum id :: tl) < size (RCap id l) + ssize tl).
      { cbn [ssize asize fold_right]. fold (ssize tl). rewrite size_seq, size_wrap by reflexivity. cbn [content]. lia. }
      destruct (Sub _ S1 HF p f c1) as (n1 & x1 & Hx1 & H1). leaf n1 x1. rewrite Ec, Es. apply H1. lia.
    + (* RNCap *)
      destruct (vconv v) eqn:Ec; [|leaf 0 (@Ill caps); rewrite Ec; reflexivity].
      destruct (start_capture id p c) as [c1|] eqn:Es; [|leaf 0 (@Ill caps); rewrite Ec, Es; reflexivity].
      assert (HF : fits v (AR (RSeq l) :: ANum id :: tl)).
      { destruct Hr as [|Hr]; [congruence|]. destruct Ht as [|Ht]; [congruence|].
        right. cbn in Hr |- *. rewrite Ht, Hr. reflexivity. }
      assert (S1 : ssize (AR (RSeq l) :: ANum id :: tl) < size (RNCap id nm l) + ssize tl).
      { cbn [ssize asize fold_right]. fold (ssize tl). rewrite size_seq, size_wrap by reflexivity. cbn [content]. lia. }
      destruct (Sub _ S1 HF p f c1) as (n1 & x1 & Hx1 & H1). leaf n1 x1. rewrite Ec, Es. apply H1. lia.
    + (* RBack *)
      destruct (vsame v) eqn:Ec; [|leaf 0 (@Ill caps); rewrite Ec; reflexivity].
      destruct (get_id id c) as [sl|] eqn:Es; [|leaf 0 (@Ill caps); rewrite Ec, Es; reflexivity].
      destruct (s_m sl) eqn:Em; [|leaf 0 (@No caps); rewrite Ec, Es; cbn [negb or_ill]; rewrite Em; reflexivity].
      destruct (s_beg sl) as [b|] eqn:E1; [|leaf 0 (@UB caps); rewrite Ec, Es; cbn [negb or_ill]; rewrite Em, E1; reflexivity].
      destruct (s_end sl) as [e|] eqn:E2; [|leaf 0 (@UB caps); rewrite Ec, Es; cbn [negb or_ill]; rewrite Em, E1; cbn [or_ub]; rewrite E2; reflexivity].
      destruct (settles_range v p b e (good_same v Hv Ec)) as (n1 & x1 & Hx1 & H1).
      assert (HU : forall m, n1 <= m -> eval opt (S m) v w p f c (AR (RBack id) :: tl) =
        match x1 with
        | Ok (q, true) => eval opt m v w q (consumed_something f (negb (Nat.eqb b e))) c tl
        | Ok (_, false) => No | No => No | Fuel => Fuel | UB => UB | Ill => Ill end).
      { intros m Hm. cbn [eval]. rewrite Ec, Es. cbn [negb or_ill]. rewrite Em, E1. cbn [or_ub]. rewrite E2. cbn [or_ub].
        rewrite H1 by lia. reflexivity. }
      destruct x1 as [[q []]| | | |]; try congruence.
      * destruct (Tl q (consumed_something f (negb (Nat.eqb b e))) c) as (n2 & x2 & Hx2 & H2).
        exists (S (n1 + n2)), x2. split; [assumption|]. intros [|m] Hm; [lia|]. rewrite HU by lia. apply H2. lia.
      * exists (S n1), (@No caps). split; [discriminate|]. intros [|m] Hm; [lia|]. rewrite HU by lia. reflexivity.
      * exists (S n1), (@No caps). split; [discriminate|]. intros [|m] Hm; [lia|]. rewrite HU by lia. reflexivity.
      * exists (S n1), (@UB caps). split; [discriminate|]. intros [|m] Hm; [lia|]. rewrite HU by lia. reflexivity.
      * exists (S n1), (@Ill caps). split; [discriminate|]. intros [|m] Hm; [lia|]. rewrite HU by lia. reflexivity.
    + (* RNBack *)
      destruct (vsame v) eqn:Ec; [|leaf 0 (@Ill caps); rewrite Ec; reflexivity].
      destruct (get_name nm (cl c)) as [sl|] eqn:Es; [|leaf 0 (@Ill caps); rewrite Ec, Es; reflexivity].
      destruct (s_m sl) eqn:Em; [|leaf 0 (@No caps); rewrite Ec, Es; cbn [negb or_ill]; rewrite Em; reflexivity].
      destruct (s_beg sl) as [b|] eqn:E1; [|leaf 0 (@UB caps); rewrite Ec, Es; cbn [negb or_ill]; rewrite Em, E1; reflexivity].
      destruct (s_end sl) as [e|] eqn:E2; [|leaf 0 (@UB caps); rewrite Ec, Es; cbn [negb or_ill]; rewrite Em, E1; cbn [or_ub]; rewrite E2; reflexivity].
      destruct (settles_range v p b e (good_same v Hv Ec)) as (n1 & x1 & Hx1 & H1).
      assert (HU : forall m, n1 <= m -> eval opt (S m) v w p f c (AR (RNBack nm) :: tl) =
        match x1 with
        | Ok (q, true) => eval opt m v w q (consumed_something f (negb (Nat.eqb b e))) c tl
        | Ok (_, false) => No | No => No | Fuel => Fuel | UB => UB | Ill => Ill end).
      { intros m Hm. cbn [eval]. rewrite Ec, Es. cbn [negb or_ill]. rewrite Em, E1. cbn [or_ub]. rewrite E2. cbn [or_ub].
        rewrite H1 by lia. reflexivity. }
      destruct x1 as [[q []]| | | |]; try congruence.
      * destruct (Tl q (consumed_something f (negb (Nat.eqb b e))) c) as (n2 & x2 & Hx2 & H2).
        exists (S (n1 + n2)), x2. split; [assumption|]. intros [|m] Hm; [lia|]. rewrite HU by lia. apply H2. lia.
      * exists (S n1), (@No caps). split; [discriminate|]. intros [|m] Hm; [lia|]. rewrite HU by lia. reflexivity.
      * exists (S n1), (@No caps). split; [discriminate|]. intros [|m] Hm; [lia|]. rewrite HU by lia. reflexivity.
      * exists (S n1), (@UB caps). split; [discriminate|]. intros [|m] Hm; [lia|]. rewrite HU by lia. reflexivity.
      * exists (S n1), (@Ill caps). split; [discriminate|]. intros [|m] Hm; [lia|]. rewrite HU by lia. reflexivity.
    + (* RAhead *)
      assert (HF : fits v [AR (RSeq l); AEndAhead]).
      { destruct Hr as [|Hr]; [left; assumption|]. right. cbn in Hr |- *. rewrite Hr. reflexivity. }
      assert (S1 : ssize [AR (RSeq l); AEndAhead] < size (RAhead neg l) + ssize tl).
      { cbn [ssize asize fold_right]. rewrite size_seq, size_wrap by reflexivity. cbn [content]. lia. }
      destruct (Sub _ S1 HF p f c) as (n1 & x1 & Hx1 & H1).
      destruct neg; destruct x1 as [c1| | | |]; try congruence.
      * leaf n1 (@No caps). rewrite H1 by lia. reflexivity.
      * destruct (Tl p f c) as (n2 & x2 & Hx2 & H2). leaf (n1 + n2) x2. rewrite H1 by lia. apply H2. lia.
      * leaf n1 (@UB caps). rewrite H1 by lia. reflexivity.
      * leaf n1 (@Ill caps). rewrite H1 by lia. reflexivity.
      * destruct (Tl p f (unmatch c1)) as (n2 & x2 & Hx2 & H2). leaf (n1 + n2) x2. rewrite H1 by lia. apply H2. lia.
      * leaf n1 (@No caps). rewrite H1 by lia. reflexivity.
      * leaf n1 (@UB caps). rewrite H1 by lia. reflexivity.
      * leaf n1 (@Ill caps). rewrite H1 by lia. reflexivity.
    + (* RBehind *)
      assert (S1 : ssize [AR (RSeq l); AEndBehind] < size (RBehind neg l) + ssize tl).
      { cbn [ssize asize fold_right]. rewrite size_seq, size_wrap by reflexivity. cbn [content]. lia. }
      destruct (IH _ S1 _ eq_refl (rev_view v) w (good_rev v) Hw ltac:(discriminate) (or_introl eq_refl) p f c) as (n1 & x1 & Hx1 & H1).
      destruct neg; destruct x1 as [c1| | | |]; try congruence.
      * leaf n1 (@No caps). rewrite H1 by lia. reflexivity.
      * destruct (Tl p f c) as (n2 & x2 & Hx2 & H2). leaf (n1 + n2) x2. rewrite H1 by lia. apply H2. lia.
      * leaf n1 (@UB caps). rewrite H1 by lia. reflexivity.
      * leaf n1 (@Ill caps). rewrite H1 by lia. reflexivity.
      * destruct (Tl p f (unmatch c1)) as (n2 & x2 & Hx2 & H2). leaf (n1 + n2) x2. rewrite H1 by lia. apply H2. lia.
      * leaf n1 (@No caps). rewrite H1 by lia. reflexivity.
      * leaf n1 (@UB caps). rewrite H1 by lia. reflexivity.
      * leaf n1 (@Ill caps). rewrite H1 by lia. reflexivity.
    + (* RAtomic *)
      assert (HF : fits v (AR (RRep Possessive 1 1 l) :: tl)).
      { destruct Hr as [|Hr]; [left; assumption|]. destruct Ht as [|Ht]; [left; assumption|].
        right. cbn in Hr |- *. rewrite Ht, Hr. reflexivity. }
      assert (S1 : ssize (AR (RRep Possessive 1 1 l) :: tl) < size (RAtomic l) + ssize tl).
      { cbn [ssize asize fold_right]. fold (ssize tl). cbn [size]. lia. }
      destruct (Sub _ S1 HF p f c) as (n1 & x1 & Hx1 & H1). leaf n1 x1. apply H1. lia.
    + destruct (around v (f_ci f) k p) as [[x y]| | | |] eqn:E;
        [|leaf 0 (@No caps); rewrite E; reflexivity | exfalso | leaf 0 (@UB caps); rewrite E; reflexivity | leaf 0 (@Ill caps); rewrite E; reflexivity].
      * destruct (Bool.eqb x y) eqn:E1; [leaf 0 (@No caps); rewrite E, E1; reflexivity|].
        destruct (Tl p f c) as (n2 & x2 & Hx2 & H2). leaf n2 x2. rewrite E, E1. apply H2. lia.
      * unfold around in E. destruct (vend v p); [|discriminate]. cbn [or_ub] in E.
        destruct (if b then _ else _); [|discriminate]. cbn [or_ub] in E. destruct (vbeg v p); [|discriminate]. cbn [or_ub] in E.
        destruct (if b1 then _ else _); discriminate.
    + destruct (around v (f_ci f) k p) as [[x y]| | | |] eqn:E;
        [|leaf 0 (@No caps); rewrite E; reflexivity | exfalso | leaf 0 (@UB caps); rewrite E; reflexivity | leaf 0 (@Ill caps); rewrite E; reflexivity].
      * destruct (Bool.eqb x y) eqn:E1; [|leaf 0 (@No caps); rewrite E, E1; reflexivity].
        destruct (Tl p f c) as (n2 & x2 & Hx2 & H2). leaf n2 x2. rewrite E, E1. apply H2. lia.
      * unfold around in E. destruct (vend v p); [|discriminate]. cbn [or_ub] in E.
        destruct (if b then _ else _); [|discriminate]. cbn [or_ub] in E. destruct (vbeg v p); [|discriminate]. cbn [or_ub] in E.
        destruct (if b1 then _ else _); discriminate.
    + destruct (eval_assert v (f_ml f) a p) as [[]| | | |] eqn:E;
        [|leaf 0 (@No caps); rewrite E; reflexivity|leaf 0 (@No caps); rewrite E; reflexivity | exfalso | leaf 0 (@UB caps); rewrite E; reflexivity | leaf 0 (@Ill caps); rewrite E; reflexivity].
      * destruct (Tl p f c) as (n2 & x2 & Hx2 & H2). leaf n2 x2. rewrite E. apply H2. lia.
      * unfold eval_assert, or_ub in E. destruct a;
        repeat match type of E with context [match ?x with _ => _ end] => destruct x; try discriminate end.
    + destruct (Tl p (add_mode f m) c) as (n1 & x1 & Hx1 & H1). leaf n1 x1. apply H1. lia.
  - destruct tl; [leaf 0 (Ok (set_matched c)) | leaf 0 (@No caps)]; reflexivity.
  - (* AStart *)
    destruct (vconv v) eqn:Ec; [|leaf 0 (@Ill caps); rewrite Ec; reflexivity].
    assert (Ht : fits v tl) by (destruct Hf as [Hf|Hf]; [left; assumption | right; exact Hf]).
    destruct (IH (ssize tl) ltac:(cbn [ssize asize fold_right]; fold (ssize tl); lia) tl eq_refl v w Hv Hw ltac:(auto) Ht p f (set_start_mark p c)) as (n1 & x1 & Hx1 & H1).
    leaf n1 x1. rewrite Ec. apply H1. lia.
  - (* AEnd *)
    destruct (vconv v) eqn:Ec; [|leaf 0 (@Ill caps); rewrite Ec; reflexivity].
    assert (Ht : fits v tl) by (destruct Hf as [Hf|Hf]; [left; assumption | right; exact Hf]).
    destruct (IH (ssize tl) ltac:(cbn [ssize asize fold_right]; fold (ssize tl); lia) tl eq_refl v w Hv Hw ltac:(auto) Ht p f (set_end_mark p c)) as (n1 & x1 & Hx1 & H1).
    leaf n1 x1. rewrite Ec. apply H1. lia.
  - destruct tl; [|leaf 0 (@No caps); reflexivity].
    destruct (vconv v) eqn:Ec; [|leaf 0 (@Ill caps); rewrite Ec; reflexivity].
    destruct (f_block f) eqn:Ef; [leaf 0 (@No caps) | leaf 0 (Ok (set_matched (set_end_mark p c)))]; rewrite Ec, Ef; reflexivity.
  - destruct tl; [leaf 0 (Ok (set_matched c)) | leaf 0 (@No caps)]; reflexivity.
  - destruct tl; [leaf 0 (Ok (set_matched c)) | leaf 0 (@No caps)]; reflexivity.
  - (* ANum *)
    destruct (vconv v) eqn:Ec; [|leaf 0 (@Ill caps); rewrite Ec; reflexivity].
    destruct (end_capture id p c) as [c1|] eqn:Es; [|leaf 0 (@Ill caps); rewrite Ec, Es; reflexivity].
    assert (Ht : fits v tl) by (destruct Hf as [Hf|Hf]; [left; assumption | right; exact Hf]).
    destruct (IH (ssize tl) ltac:(cbn [ssize asize fold_right]; fold (ssize tl); lia) tl eq_refl v w Hv Hw ltac:(auto) Ht p f c1) as (n1 & x1 & Hx1 & H1).
    leaf n1 x1. rewrite Ec, Es. apply H1. lia.
Qed.

(** The entry points, on any subject whose iterator only moves forward inside [N] elements. *)
Variables (v w : view) (f : flags) (r : re).
Hypothesis Hv : fwd N v.
Hypothesis Hw : fwd N w.
Hypothesis Hc : vconv w = true.
Hypothesis Hr : terminating r = true.

Lemma settles_match : forall p, settles (fun n => exec_match opt n v w f r p).
Proof.
  intros p. unfold exec_match.
  destruct (settles_eval [AStart; AR r; AR (RAssert ASubjectEnd); AEnd; AAccept] v w (fwd_good v Hv) Hw
              ltac:(auto) ltac:(right; cbn; rewrite Hr; reflexivity) p f (fresh r)) as (n & x & Hx & H).
  exists n, (returned r x). split; [destruct x; try discriminate; congruence|].
  intros m Hm. rewrite H by assumption. reflexivity.
Qed.

Lemma settles_attempt : forall p, settles (fun n => eval opt n v w p f (fresh r) [AStart; AR r; AEnd; AAccept]).
Proof.
  intros p. apply settles_eval; [apply fwd_good; assumption | assumption | auto |].
  right. cbn. rewrite Hr. reflexivity.
Qed.

Lemma settles_starts : forall p, settles (fun n => exec_starts_with opt n v w f r p).
Proof.
  intros p. unfold exec_starts_with. destruct (settles_attempt p) as (n & x & Hx & H).
  exists n, (returned r x). split; [destruct x; try discriminate; congruence|].
  intros m Hm. rewrite H by assumption. reflexivity.
Qed.

Lemma settles_last : forall p, settles (fun n => search_last opt n v w f r p).
Proof.
  intros p. unfold search_last. destruct (settles_attempt p) as (n & x & Hx & H).
  exists n, (match x with No => Ok (set_end_mark p (fresh r)) | y => y end).
  split; [destruct x; try discriminate; congruence|].
  intros m Hm. rewrite H by assumption. destruct x; reflexivity.
Qed.

Lemma settles_loop : forall p, exists n x, x <> Fuel /\
  forall m k, n <= m -> n <= k -> search_loop opt m v w f r k p = x.
Proof.
  intros p. remember (N - p) as d eqn:Ed. revert p Ed.
  induction d as [d IH] using lt_wf_ind. intros p ->.
  destruct (vend v p) as [e|] eqn:E1.
  2:{ exists 1, UB. split; [discriminate|]. intros m [|k] _ Hk; [lia|]. cbn [search_loop]. rewrite E1. reflexivity. }
  destruct (negb e && negb (starts_with_anchor f r))%bool eqn:E2.
  2:{ destruct (settles_last p) as (n & x & Hx & H). exists (S n), x. split; [assumption|].
      intros m [|k] Hm Hk; [lia|]. cbn [search_loop]. rewrite E1. cbn [or_ub]. rewrite E2. apply H. lia. }
  destruct (settles_attempt p) as (n1 & x1 & Hx1 & H1).
  assert (Done : x1 <> No -> exists n x, x <> Fuel /\ forall m k, n <= m -> n <= k -> search_loop opt m v w f r k p = x).
  { intros Hn. exists (S n1), x1. split; [assumption|]. intros m [|k] Hm Hk; [lia|].
    cbn [search_loop]. rewrite E1. cbn [or_ub]. rewrite E2. rewrite H1 by lia. destruct x1; congruence. }
  destruct x1 as [c1| | | |]; try (apply Done; discriminate). clear Done.
  destruct (vnext v p) as [q|] eqn:E3.
  2:{ exists (S n1), UB. split; [discriminate|]. intros m [|k] Hm Hk; [lia|]. cbn [search_loop].
      rewrite E1. cbn [or_ub]. rewrite E2, H1 by lia. rewrite E3. reflexivity. }
  pose proof (Hv p q E3) as Hq.
  destruct (IH (N - q) ltac:(lia) q eq_refl) as (n2 & x2 & Hx2 & H2).
  exists (S (n1 + n2)), x2. split; [assumption|]. intros m [|k] Hm Hk; [lia|]. cbn [search_loop].
  rewrite E1. cbn [or_ub]. rewrite E2, H1 by lia. rewrite E3. cbn [or_ub]. apply H2; lia.
Qed.

Lemma settles_search : forall p, settles (fun n => exec_search opt n v w f r p).
Proof.
  intros p. destruct (settles_loop p) as (n & x & Hx & H). exists n, x. split; [assumption|].
  intros m Hm. apply H; assumption.
Qed.
End Termination.

Lemma fwd_arr : forall s, fwd (length s) (arr_view s).
Proof.
  intros s p q H. cbn [arr_view vnext] in H. destruct (Nat.ltb_spec p (length s)); [|discriminate].
  injection H as <-. lia.
Qed.
Lemma fwd_zt : forall mem, fwd (length mem) (zt_view mem).
Proof.
  intros s p q H. cbn [zt_view vnext] in H. destruct (Nat.ltb_spec p (length s)); [|discriminate].
  injection H as <-. lia.
Qed.
Lemma fwd_raw8 : forall mem, fwd (length mem) (raw8_view mem).
Proof.
  intros s p q H. cbn [raw8_view vnext] in H. destruct (Nat.ltb_spec p (length s)); [|discriminate].
  injection H as <-. lia.
Qed.
Lemma utf8_extra_small : forall b, (utf8_extra b <= 3)%Z.
Proof.
  intros b. unfold utf8_extra. change 3%Z with (Z.ones 2). rewrite Z.land_ones by lia.
  change (Z.ones 2) with 3%Z. change (2 ^ 2)%Z with 4%Z.
  match goal with |- (?x mod 4 <= 3)%Z => pose proof (Z.mod_pos_bound x 4 ltac:(lia)) end. lia.
Qed.
Lemma fwd_utf8 : forall strict mem len, fwd (length mem + 4) (utf8_view strict mem len).
Proof.
  intros strict mem len p q H. cbn [utf8_view vnext] in H. unfold utf8_next in H.
  destruct (nth_error mem p) as [b|] eqn:E; [|discriminate].
  assert (p < length mem) by (apply nth_error_Some; congruence).
  pose proof (utf8_extra_small b).
  destruct (strict && _)%bool; [discriminate|]. injection H as <-. lia.
Qed.

Theorem match_settles : forall opt s f r, terminating r = true -> settles (fun n => ctre_match opt n s f r).
Proof. intros. apply (settles_match opt (length s)); auto using fwd_arr. Qed.
Theorem starts_settles : forall opt s f r, terminating r = true -> settles (fun n => ctre_starts_with opt n s f r).
Proof. intros. apply (settles_starts opt (length s)); auto using fwd_arr. Qed.
Theorem search_settles : forall opt s f r, terminating r = true -> settles (fun n => ctre_search opt n s f r).
Proof. intros. apply (settles_search opt (length s)); auto using fwd_arr. Qed.

(** The same for zero-terminated and UTF-8 subjects. *)
Theorem zt_settles : forall opt mem f r, terminating r = true ->
  settles (fun n => exec_match opt n (zt_view mem) (zt_view mem) f r 0) /\
  settles (fun n => exec_starts_with opt n (zt_view mem) (zt_view mem) f r 0) /\
  settles (fun n => exec_search opt n (zt_view mem) (zt_view mem) f r 0).
Proof.
  intros. split; [|split];
    [apply (settles_match opt (length mem)) | apply (settles_starts opt (length mem)) | apply (settles_search opt (length mem))];
    auto using fwd_zt.
Qed.
Lemma fwd_more : forall a b v, a <= b -> fwd a v -> fwd b v.
Proof. intros a b v H Hv p q E. specialize (Hv p q E). lia. Qed.
Theorem utf8_settles : forall opt strict mem len f r, terminating r = true ->
  settles (fun n => exec_match opt n (utf8_view strict mem len) (raw8_view mem) f r 0) /\
  settles (fun n => exec_starts_with opt n (utf8_view strict mem len) (raw8_view mem) f r 0) /\
  settles (fun n => exec_search opt n (utf8_view strict mem len) (raw8_view mem) f r 0).
Proof.
  intros. assert (H1 : length mem <= length mem + 4) by lia.
  split; [|split];
    [apply (settles_match opt (length mem + 4)) | apply (settles_starts opt (length mem + 4)) | apply (settles_search opt (length mem + 4))];
    auto using fwd_utf8; apply (fwd_more _ _ _ H1 (fwd_raw8 mem)).
Qed.

(** * Repetitions that never end *)
(** An iteration that succeeds without moving, again and again. *)
Section Stuck.
Variables (opt : bool) (v w : view) (p : nat) (f : flags) (cs : caps -> Prop) (l : list re) (tl : list atom) (k : nat).
Hypothesis Hlow : forall c m, cs c -> m < k -> eval opt m v w p (not_empty_match f) c (cycle l) = Fuel.
Hypothesis Hstep : forall c, cs c -> exists c1, eval opt k v w p (not_empty_match f) c (cycle l) = Ok c1 /\
  s_end (c0 c1) = Some p /\ cs (unmatch c1).
Lemma rec_stuck : forall n i c, cs c -> rec_loop opt n v w p f c 0 i l tl = Fuel.
Proof.
  induction n as [|n IH]; intros i c Hc; [reflexivity|].
  cbn [rec_loop less_than_or_infinite N.eqb orb].
  destruct (Nat.lt_ge_cases n k) as [Hn|Hn]; [rewrite Hlow by assumption; reflexivity|].
  destruct (Hstep c Hc) as (c1 & H1 & H2 & H3).
  rewrite (eval_mono k n opt v w p _ c (cycle l) (Ok c1) Hn H1 ltac:(discriminate)).
  rewrite H2. cbn [or_ub]. rewrite IH by assumption. reflexivity.
Qed.
Lemma poss_stuck : forall st n i c, cs c -> poss_loop opt n v w st p f c 0 0 i l tl = Fuel.
Proof.
  intros st. induction n as [|n IH]; intros i c Hc; [reflexivity|].
  cbn [poss_loop less_than_or_infinite N.eqb orb].
  destruct (Nat.lt_ge_cases n k) as [Hn|Hn]; [rewrite Hlow by assumption; reflexivity|].
  destruct (Hstep c Hc) as (c1 & H1 & H2 & H3).
  rewrite (eval_mono k n opt v w p _ c (cycle l) (Ok c1) Hn H1 ltac:(discriminate)).
  rewrite H2. cbn [or_ub]. rewrite IH by assumption. reflexivity.
Qed.
End Stuck.
Lemma below_forallb : forall k (P : nat -> bool), forallb P (seq 0 k) = true -> forall m, m < k -> P m = true.
Proof. intros k P H m Hm. rewrite forallb_forall in H. apply H. apply in_seq. lia. Qed.
Definition is_fuel {A} (x : res A) : bool := match x with Fuel => true | _ => false end.
Lemma is_fuel_spec : forall A (x : res A), is_fuel x = true -> x = Fuel.
Proof. destruct x; try discriminate; reflexivity. Qed.

(** [(?:a*[a]?)*] on "b": the inner [a*] clears the block-empty-match flag although it consumed nothing
    (evaluation.hpp line 375), so the end of cycle accepts an empty iteration for ever. *)
Definition loop_body : list re :=
  [RRep Greedy 0 0 [RCls (CChar 97)]; RRep Greedy 0 1 [RCls (CSet [CChar 97])]].
Definition loop_re : re := RRep Greedy 0 0 loop_body.

Lemma loop_stuck : forall opt tl st fb m c n i, s_m (c0 c) = false -> cl c = [] ->
  let v := arr_view [98%Z] in let f := mkFlags fb m false in
  rec_loop opt n v v 0 f c 0 i loop_body tl = Fuel /\ poss_loop opt n v v st 0 f c 0 0 i loop_body tl = Fuel.
Proof.
  intros opt tl st fb m c n i Hm Hc v f.
  set (cs := fun c : caps => s_m (c0 c) = false /\ cl c = []).
  set (k := if opt then 6 else 5).
  assert (L : forall c j, cs c -> j < k -> eval opt j v v 0 (not_empty_match f) c (cycle loop_body) = Fuel).
  { intros [[a b mm] ll] j [Hm' Hl] Hj. cbn in Hm', Hl. subst. unfold k in Hj.
    destruct opt; [do 6 (destruct j as [|j]; [reflexivity|]) | do 5 (destruct j as [|j]; [reflexivity|])]; lia. }
  assert (T : forall c, cs c -> exists c1, eval opt k v v 0 (not_empty_match f) c (cycle loop_body) = Ok c1 /\
    s_end (c0 c1) = Some 0 /\ cs (unmatch c1)).
  { intros [[a b mm] ll] [Hm' Hl]. cbn in Hm', Hl. subst. exists (mkCaps (mkSlot a (Some 0) true) []).
    split; [destruct opt; reflexivity|]. split; [reflexivity|]. split; reflexivity. }
  split.
  - apply (rec_stuck opt v v 0 f cs loop_body tl k L T). split; assumption.
  - apply (poss_stuck opt v v 0 f cs loop_body tl k L T). split; assumption.
Qed.

Lemma loop_eval : forall opt n m c tl, s_m (c0 c) = false -> cl c = [] ->
  becomes_possessive opt loop_body tl <> None ->
  let v := arr_view [98%Z] in
  eval opt n v v 0 (mkFlags false m false) c (AR loop_re :: tl) = Fuel.
Proof.
  intros opt n m c tl Hm Hc Hb v. destruct n as [|n]; [reflexivity|]. unfold loop_re. cbn [eval N.eqb negb andb].
  destruct (becomes_possessive opt loop_body tl) as [[]|]; [| |congruence].
  - destruct n as [|n]; [reflexivity|]. cbn [eval N.eqb negb andb vconv v arr_view].
    apply (loop_stuck opt tl 0 false m c n 0%N Hm Hc).
  - cbn [vconv v arr_view negb]. destruct n as [|n]; [reflexivity|]. cbn [req_loop less_than N.eqb negb andb N.ltb].
    apply (loop_stuck opt tl 0 false m c (S n) 0%N Hm Hc).
Qed.

Theorem loop_forever : forall opt n m,
  ctre_match opt n [98%Z] (mkFlags false m false) loop_re = Fuel /\
  ctre_starts_with opt n [98%Z] (mkFlags false m false) loop_re = Fuel /\
  ctre_search opt n [98%Z] (mkFlags false m false) loop_re = Fuel.
Proof.
  intros opt n m.
  assert (B : becomes_possessive opt loop_body [AEnd; AAccept] <> None) by (destruct opt; discriminate).
  assert (B' : becomes_possessive opt loop_body [AR (RAssert ASubjectEnd); AEnd; AAccept] <> None) by (destruct opt; discriminate).
  assert (A : forall k, eval opt k (arr_view [98%Z]) (arr_view [98%Z]) 0 (mkFlags false m false) (fresh loop_re) [AStart; AR loop_re; AEnd; AAccept] = Fuel).
  { intros [|k]; [reflexivity|]. cbn [eval vconv arr_view]. apply loop_eval; [reflexivity|reflexivity|assumption]. }
  split; [|split].
  - unfold ctre_match, exec_match. destruct n as [|n]; [reflexivity|]. cbn [eval vconv arr_view].
    rewrite loop_eval; [reflexivity|reflexivity|reflexivity|assumption].
  - unfold ctre_starts_with, exec_starts_with. rewrite A. reflexivity.
  - unfold ctre_search, exec_search. destruct n as [|n]; [reflexivity|]. cbn [search_loop].
    cbn [vend arr_view or_ub Nat.eqb length negb andb starts_with_anchor anchor_re loop_re].
    change (starts_with_anchor (mkFlags false m false) loop_re) with false. rewrite A. cbn [negb andb]. reflexivity.
Qed.
