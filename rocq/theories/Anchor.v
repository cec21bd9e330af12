(** The anchored-search shortcut (C29). *)
From Coq Require Import List ZArith NArith Bool Lia Arith ZifyBool ZifyNat ZifyN.
From Verif Require Import Chars Syntax First View Eval Api EvalInv ApiProofs Match Term Sim.
Import ListNotations.

(** * The condition on patterns *)
Fixpoint has_anchor (r : re) : bool :=
  match r with
  | RAssert ASubjectBegin | RAssert ALineBegin | RSelect [] => true
  | RSelect l | RSeq l | RCap _ l | RNCap _ _ l | RAhead _ l | RBehind _ l | RAtomic l | RRep _ _ _ l => existsb has_anchor l
  | _ => false
  end.
(** No [^] or [\A] under a repetition that may run zero times, except under [?] and [??]. *)
Fixpoint zero_safe (r : re) : bool :=
  match r with
  | RSelect l | RSeq l | RCap _ l | RNCap _ _ l => forallb zero_safe l
  | RRep k a b l =>
      (negb (N.eqb a 0) || (match k with Possessive => false | _ => N.eqb b 1 end) || negb (existsb has_anchor l)) && forallb zero_safe l
  | _ => true
  end.

(** * A corrected analysis *)
Fixpoint safe_re (ml : bool) (r : re) (k : bool) : bool :=
  let sal := fix sal (l : list re) (k : bool) : bool :=
    match l with [] => k | x :: xs => safe_re ml x (sal xs k) end in
  match r with
  | RAssert ASubjectBegin => true
  | RAssert ALineBegin => negb ml || k
  | RBound _ => k
  | RSelect l => forallb (fun x => safe_re ml x k) l
  | RRep _ a _ l => if N.eqb a 0 then k else sal l k || k
  | RSeq l | RCap _ l => sal l k
  | _ => false
  end.
Fixpoint sal (ml : bool) (l : list re) (k : bool) : bool :=
  match l with [] => k | x :: xs => safe_re ml x (sal ml xs k) end.
Lemma sal_fix : forall ml l k,
  (fix sal (l : list re) (k : bool) : bool := match l with [] => k | x :: xs => safe_re ml x (sal xs k) end) l k = sal ml l k.
Proof. intros ml. induction l as [|x l IH]; intros k; [reflexivity|]. cbn [sal]. rewrite <- IH. reflexivity. Qed.
Fixpoint safe_stk (ml : bool) (stk : list atom) : bool :=
  match stk with
  | AR r :: tl => safe_re ml r (safe_stk ml tl)
  | AStart :: tl | AEnd :: tl | ANum _ :: tl => safe_stk ml tl
  | _ => false
  end.
Lemma safe_cycle : forall ml l, safe_stk ml (cycle l) = sal ml l false.
Proof. unfold cycle. induction l as [|x l IH]; [reflexivity|]. cbn [map app safe_stk sal]. rewrite IH. reflexivity. Qed.

Section Away.
Variables (opt : bool) (N : nat).
(** Views whose begin test only holds at position 0. *)
Definition begins (v : view) : Prop := forall p, vbeg v p = Some true -> p = 0.

Definition AE (n : nat) : Prop := forall v w p f c stk c', fwd N v -> fwd N w -> begins v -> begins w -> 0 < p ->
  eval opt n v w p f c stk = Ok c' -> safe_stk (f_ml f) stk = false.
Definition AReq (n : nat) : Prop := forall v w p f c a i l p' c', fwd N v -> fwd N w -> begins v -> begins w -> 0 < p ->
  req_loop opt n v w p f c a i l = Ok (p', c') -> 0 < p' /\ ((i < a)%N -> sal (f_ml f) l false = false).
Definition ARec (n : nat) : Prop := forall v w p f c b i l tl c', fwd N v -> fwd N w -> begins v -> begins w -> 0 < p ->
  rec_loop opt n v w p f c b i l tl = Ok c' -> safe_stk (f_ml f) tl = false.
Definition ALaz (n : nat) : Prop := forall v w p f c b i l tl c', fwd N v -> fwd N w -> begins v -> begins w -> 0 < p ->
  lazy_loop opt n v w p f c b i l tl = Ok c' -> safe_stk (f_ml f) tl = false.
Definition APos (n : nat) : Prop := forall v w st p f c a b i l tl c', fwd N v -> fwd N w -> begins v -> begins w -> 0 < p ->
  (b = 0 \/ a <= b)%N -> poss_loop opt n v w st p f c a b i l tl = Ok c' ->
  safe_stk (f_ml f) tl = false /\ ((i < a)%N -> sal (f_ml f) l false = false).

Lemma cs_ml : forall f b, f_ml (consumed_something f b) = f_ml f.
Proof. intros f []; reflexivity. Qed.
Lemma ne_ml : forall f, f_ml (not_empty_match f) = f_ml f.
Proof. reflexivity. Qed.

Lemma body_away : forall n, AE n -> forall v w p f c l c1, fwd N v -> fwd N w -> begins v -> begins w -> 0 < p ->
  eval opt n v w p (not_empty_match f) c (cycle l) = Ok c1 ->
  sal (f_ml f) l false = false /\ exists p1, s_end (c0 c1) = Some p1 /\ 0 < p1.
Proof.
  intros n HE v w p f c l c1 Hv Hw Bv Bw Hp H. split.
  - apply HE in H; auto. rewrite safe_cycle in H. exact H.
  - destruct (iter_reach opt N n (proj1 (prog_all opt N n)) v w p f c l c1 Hv Hw H) as (p1 & R1 & R2 & _).
    exists p1. split; [assumption|lia].
Qed.

Theorem away_all : forall n, AE n /\ AReq n /\ ARec n /\ ALaz n /\ APos n.
Proof.
  induction n as [|n (HE & HRq & HRc & HLz & HPs)].
  { split; [|split; [|split; [|split]]]; repeat intro; discriminate. }
  split; [|split; [|split; [|split]]].
  - intros v w p f c stk c' Hv Hw Bv Bw Hp H.
    destruct stk as [|a tl]; [discriminate|].
    assert (Go : forall f' c1 tl', f_ml f' = f_ml f -> eval opt n v w p f' c1 tl' = Ok c' -> safe_stk (f_ml f) tl' = false).
    { intros f' c1 tl' Hf E. rewrite <- Hf. eapply HE; [exact Hv|exact Hw|exact Bv|exact Bw|exact Hp|exact E]. }
    destruct a as [r| | | | | | |id]; try reflexivity.
    + destruct r as [ k | | t | l | l | | | k a b l | id l | id nm l | id | nm | neg l | neg l | l | k | k | a | m ];
        try reflexivity; cbn [eval] in H; cbn [safe_stk safe_re].
      * (* RSelect *)
        destruct l as [|x xs]; [discriminate|]. cbn [forallb].
        destruct (eval opt n v w p f c (AR x :: tl)) as [c1| | | |] eqn:E1; try discriminate.
        -- apply HE in E1; auto. cbn [safe_stk] in E1. rewrite E1. reflexivity.
        -- apply HE in H; auto. cbn [safe_stk safe_re] in H. rewrite H. apply andb_false_r.
      * (* RSeq *)
        destruct l as [|x [|y ys]]; [discriminate| |].
        -- apply (Go f) in H; auto.
        -- apply (Go f) in H; auto.
      * (* RRep *)
        rewrite sal_fix.
        assert (J : safe_stk (f_ml f) tl = false -> ((0 < a)%N -> sal (f_ml f) l false = false) ->
                  (if N.eqb a 0 then safe_stk (f_ml f) tl else (sal (f_ml f) l (safe_stk (f_ml f) tl) || safe_stk (f_ml f) tl)%bool) = false).
        { intros J1 J2. rewrite J1. destruct (N.eqb_spec a 0); [reflexivity|]. rewrite J2 by lia. reflexivity. }
        destruct (negb (N.eqb b 0) && N.ltb b a)%bool eqn:Eab; [discriminate|].
        destruct k.
        -- destruct (becomes_possessive opt l tl) as [[]|]; [| |discriminate].
           ++ apply (Go f) in H; auto. cbn [safe_stk safe_re] in H. rewrite sal_fix in H. exact H.
           ++ destruct (vconv v); [|discriminate]. cbn [negb] in H.
              destruct (req_loop opt n v w p f c a 0 l) as [[p1 c1]| | | |] eqn:E1; try discriminate.
              apply HRq in E1 as (Q1 & Q2); auto. apply HRc in H; auto.
        -- destruct (vconv v); [|discriminate]. cbn [negb] in H.
           destruct (req_loop opt n v w p f c a 0 l) as [[p1 c1]| | | |] eqn:E1; try discriminate.
           apply HRq in E1 as (Q1 & Q2); auto.
           destruct (eval opt n v w p1 (consumed_something f (negb (Nat.eqb p p1))) c1 tl) as [c2| | | |] eqn:E2; try discriminate.
           ++ apply HE in E2; auto. rewrite cs_ml in E2. auto.
           ++ apply HLz in H; auto.
        -- destruct (vconv v); [|discriminate]. cbn [negb] in H.
           apply HPs in H as (Q1 & Q2); auto. lia.
      * (* RCap *)
        destruct (vconv v); [|discriminate]. destruct (start_capture id p c) as [c1|]; [|discriminate]. cbn [or_ill] in H.
        apply (Go f) in H; auto.
      * (* RBound *)
        destruct (around v (f_ci f) k p) as [[b1 b2]| | | |]; try discriminate.
        destruct (Bool.eqb b1 b2); [discriminate|]. apply (Go f) in H; auto.
      * (* RAssert *)
        destruct a; try reflexivity; cbn [eval_assert] in H.
        -- destruct (vbeg v p) as [[]|] eqn:Eb; try discriminate. apply Bv in Eb. lia.
        -- destruct (vbeg v p) as [[]|] eqn:Eb; try discriminate; [apply Bv in Eb; lia|]. cbn [or_ub] in H.
           destruct (f_ml f) eqn:Em; [|discriminate]. cbn [negb orb].
           destruct (vprev v p) as [q|]; [|discriminate]. cbn [or_ub] in H.
           destruct (vget v q) as [x|]; [|discriminate]. cbn [or_ub] in H.
           destruct (Z.eqb x 10); [|discriminate]. apply (Go f) in H; auto.
    + cbn [eval] in H. destruct (vconv v); [|discriminate]. apply (Go f) in H; auto.
    + cbn [eval] in H. destruct (vconv v); [|discriminate]. apply (Go f) in H; auto.
    + cbn [eval] in H. destruct (vconv v); [|discriminate]. destruct (end_capture id p c) as [c1|]; [|discriminate].
      apply (Go f) in H; auto.
  - intros v w p f c a i l p' c' Hv Hw Bv Bw Hp H. cbn [req_loop] in H. rewrite lt_spec2 in H.
    destruct (N.ltb_spec i a) as [Hi|Hi].
    + destruct (eval opt n v w p (not_empty_match f) c (cycle l)) as [c1| | | |] eqn:E1; try discriminate.
      destruct (body_away n HE v w p f c l c1 Hv Hw Bv Bw Hp E1) as (R0 & p1 & R1 & R2).
      rewrite R1 in H. cbn [or_ub] in H. apply HRq in H as (Q1 & _); auto.
    + injection H as <- <-. split; [assumption|lia].
  - intros v w p f c b i l tl c' Hv Hw Bv Bw Hp H. cbn [rec_loop] in H.
    assert (Now : eval opt n v w p (consumed_something f true) c tl = Ok c' -> safe_stk (f_ml f) tl = false).
    { intros E. apply HE in E; auto. }
    destruct (less_than_or_infinite b i); [|auto].
    destruct (eval opt n v w p (not_empty_match f) c (cycle l)) as [c1| | | |] eqn:E1; try discriminate; [|auto].
    destruct (body_away n HE v w p f c l c1 Hv Hw Bv Bw Hp E1) as (R0 & p1 & R1 & R2).
    rewrite R1 in H. cbn [or_ub] in H.
    destruct (rec_loop opt n v w p1 f (unmatch c1) b (N.succ i) l tl) as [c2| | | |] eqn:E2; try discriminate; [|auto].
    apply HRc in E2; auto.
  - intros v w p f c b i l tl c' Hv Hw Bv Bw Hp H. cbn [lazy_loop] in H.
    destruct (less_than_or_infinite b i); [|apply HE in H; auto].
    destruct (eval opt n v w p (not_empty_match f) c (cycle l)) as [c1| | | |] eqn:E1; try discriminate.
    destruct (body_away n HE v w p f c l c1 Hv Hw Bv Bw Hp E1) as (R0 & p1 & R1 & R2).
    rewrite R1 in H. cbn [or_ub] in H.
    destruct (eval opt n w w p1 (consumed_something f true) (unmatch c1) tl) as [c2| | | |] eqn:E2; try discriminate.
    + apply HE in E2; auto.
    + apply HLz in H; auto.
  - intros v w st p f c a b i l tl c' Hv Hw Bv Bw Hp Hab H. cbn [poss_loop] in H.
    assert (Now : ~ (i < a)%N -> eval opt n v w p (consumed_something f (negb (Nat.eqb st p))) c tl = Ok c' ->
              safe_stk (f_ml f) tl = false /\ ((i < a)%N -> sal (f_ml f) l false = false)).
    { intros Hi E. apply HE in E; auto. rewrite cs_ml in E. split; [assumption|contradiction]. }
    unfold less_than_or_infinite in H.
    destruct (N.eqb b 0 || N.ltb i b)%bool eqn:El; [|apply Now; [lia|assumption]].
    destruct (eval opt n v w p (not_empty_match f) c (cycle l)) as [c1| | | |] eqn:E1; try discriminate.
    + destruct (body_away n HE v w p f c l c1 Hv Hw Bv Bw Hp E1) as (R0 & p1 & R1 & R2).
      rewrite R1 in H. cbn [or_ub] in H. apply HPs in H as (Q1 & _); auto.
    + rewrite lt_spec2 in H. destruct (N.ltb_spec i a); [discriminate|]. apply Now; [lia|assumption].
Qed.
End Away.

Lemma begins_arr : forall s, begins (arr_view s).
Proof.
  intros s p H. cbn [arr_view vbeg] in H.
  destruct (Nat.eqb_spec p 0); [assumption|discriminate].
Qed.

(** * The analysis of the library implies the corrected one *)
Fixpoint al (f : flags) (l : list re) (k : bool) : bool :=
  match l with [] => k | x :: xs => anchor_re f x (al f xs k) end.
Lemma al_fix : forall f l k,
  (fix al (l : list re) (k : bool) : bool := match l with [] => k | x :: xs => anchor_re f x (al xs k) end) l k = al f l k.
Proof. intros f. induction l as [|x l IH]; intros k; [reflexivity|]. cbn [al]. rewrite <- IH. reflexivity. Qed.

Lemma no_anchor_tail : forall f r k, has_anchor r = false -> anchor_re f r k = true -> k = true.
Proof.
  intros f. fix IH 1. intros r k Ha H.
  assert (L : forall l k, (fix go (l : list re) : Prop := match l with [] => True | x :: xs => (forall k, has_anchor x = false -> anchor_re f x k = true -> k = true) /\ go xs end) l ->
              existsb has_anchor l = false -> al f l k = true -> k = true).
  { clear IH. induction l as [|x l IHl]; intros k0 Hl H1 H2; [exact H2|]. cbn in H1, H2. apply orb_false_iff in H1 as [H1 H1'].
    destruct Hl as [Hx Hl]. apply IHl; [exact Hl|exact H1'|]. apply Hx in H2; assumption. }
  destruct r as [ c | | t | l | l | | | kd a b l | id l | id nm l | id | nm | neg l | neg l | l | c | c | a | m ];
    cbn [anchor_re] in H; try discriminate; try assumption.
  - destruct l as [|x l]; [discriminate|]. cbn [forallb] in H. apply andb_true_iff in H as [H _].
    cbn [has_anchor existsb] in Ha. apply orb_false_iff in Ha as [Ha _]. apply (IH x k); assumption.
  - rewrite al_fix in H. cbn [has_anchor] in Ha. apply (L l k); [|assumption|assumption]. clear -IH. induction l as [|z l IHl]; [exact I|]. split; [intros; apply (IH z k); assumption|assumption].
  - rewrite al_fix in H. cbn [has_anchor] in Ha. destruct (is_optional kd a b).
    + apply andb_true_iff in H. tauto.
    + apply (L l k); [|assumption|assumption]. clear -IH. induction l as [|z l IHl]; [exact I|]. split; [intros; apply (IH z k); assumption|assumption].
  - rewrite al_fix in H. cbn [has_anchor] in Ha. apply (L l k); [|assumption|assumption]. clear -IH. induction l as [|z l IHl]; [exact I|]. split; [intros; apply (IH z k); assumption|assumption].
  - destruct a; discriminate.
Qed.
Lemma no_anchor_list : forall f l k, existsb has_anchor l = false -> al f l k = true -> k = true.
Proof.
  intros f. induction l as [|x l IH]; intros k H1 H2; [exact H2|]. cbn in H1, H2. apply orb_false_iff in H1 as [H1 H1'].
  apply no_anchor_tail in H2; auto.
Qed.

Lemma safe_k : forall ml r, safe_re ml r false = true -> safe_re ml r true = true.
Proof.
  intros ml. fix IH 1. intros r H.
  assert (L : forall l, (fix go (l : list re) : Prop := match l with [] => True | x :: xs => (safe_re ml x false = true -> safe_re ml x true = true) /\ go xs end) l ->
              sal ml l false = true -> sal ml l true = true).
  { clear IH. induction l as [|x l IHl]; intros Hl H1; [reflexivity|]. cbn in *. destruct Hl as [Hx Hl].
    destruct (sal ml l false); [rewrite IHl; auto|]. destruct (sal ml l true); auto. }
  destruct r as [ c | | t | l | l | | | kd a b l | id l | id nm l | id | nm | neg l | neg l | l | c | c | a | m ];
    cbn [safe_re] in *; try discriminate; try reflexivity.
  - rewrite forallb_forall in *. revert H. induction l as [|x l IHl]; intros H y Hy; [destruct Hy|].
    destruct Hy as [E|Hy]; [rewrite <- E; apply (IH x), H; left; reflexivity|]. apply IHl; [|assumption]. intros z Hz. apply H. right. assumption.
  - rewrite sal_fix in *. apply L; [|assumption]. clear -IH. induction l as [|z l IHl]; [exact I|]. split; [apply (IH z)|assumption].
  - rewrite sal_fix in *. destruct (N.eqb a 0); [reflexivity|]. apply orb_true_r.
  - rewrite sal_fix in *. apply L; [|assumption]. clear -IH. induction l as [|z l IHl]; [exact I|]. split; [apply (IH z)|assumption].
  - destruct a; try discriminate; try reflexivity. apply orb_true_r.
Qed.
Lemma safe_le : forall ml r k k', (k = true -> k' = true) -> safe_re ml r k = true -> safe_re ml r k' = true.
Proof. intros ml r [] [] H H1; auto; [specialize (H eq_refl); discriminate|]. apply safe_k. assumption. Qed.

Lemma anchor_safe : forall f r k, zero_safe r = true -> anchor_re f r k = true -> safe_re (f_ml f) r k = true.
Proof.
  intros f. fix IH 1. intros r k Hz H.
  assert (L : forall l k, (fix go (l : list re) : Prop := match l with [] => True | x :: xs =>
                 (forall k, zero_safe x = true -> anchor_re f x k = true -> safe_re (f_ml f) x k = true) /\ go xs end) l ->
              forallb zero_safe l = true -> al f l k = true -> sal (f_ml f) l k = true).
  { clear IH. induction l as [|x l IHl]; intros k0 Hl H1 H2; [exact H2|]. cbn in H1, H2 |- *. apply andb_true_iff in H1 as [H1 H1'].
    destruct Hl as [Hx Hl]. apply (safe_le _ _ (al f l k0)); [intros; apply IHl; auto|]. apply Hx; auto. }
  destruct r as [ c | | t | l | l | | | kd a b l | id l | id nm l | id | nm | neg l | neg l | l | c | c | a | m ];
    cbn [anchor_re] in H; try discriminate; try assumption; cbn [safe_re zero_safe] in *.
  - rewrite forallb_forall in *. revert Hz H. induction l as [|x l IHl]; intros Hz H y Hy; [destruct Hy|].
    destruct Hy as [E|Hy]; [rewrite <- E; apply (IH x); [apply Hz|apply H]; left; reflexivity|].
    apply IHl; [| |assumption]; intros z Hz'; [apply Hz|apply H]; right; assumption.
  - rewrite sal_fix. rewrite al_fix in H. apply L; [|assumption|assumption]. clear -IH. induction l as [|z l IHl]; [exact I|]. split; [intros; apply (IH z k); assumption|assumption].
  - rewrite sal_fix. rewrite al_fix in H. apply andb_true_iff in Hz as [Hz1 Hz2].
    destruct (is_optional kd a b) eqn:Eo.
    + apply andb_true_iff in H as [_ ->]. destruct (N.eqb a 0); [reflexivity|apply orb_true_r].
    + destruct (N.eqb_spec a 0) as [->|Ha].
      * apply (no_anchor_list f l k); auto. cbn [N.eqb negb orb] in Hz1. apply orb_true_iff in Hz1 as [Hz1|Hz1].
        -- unfold is_optional in Eo. destruct kd; cbn in Eo; congruence.
        -- apply negb_true_iff in Hz1. assumption.
      * assert (Hs : sal (f_ml f) l k = true).
        { apply L; [|assumption|assumption]. clear -IH. induction l as [|z l IHl]; [exact I|]. split; [intros; apply (IH z k); assumption|assumption]. }
        rewrite Hs. reflexivity.
  - rewrite sal_fix. rewrite al_fix in H. apply L; [|assumption|assumption]. clear -IH. induction l as [|z l IHl]; [exact I|]. split; [intros; apply (IH z k); assumption|assumption].
Qed.

(** * The shortcut *)
Lemma anchored_nowhere_else : forall opt n s f r p c, zero_safe r = true -> starts_with_anchor f r = true ->
  0 < p -> attempt opt n s f r p <> Ok c.
Proof.
  intros opt n s f r p c Hz Ha Hp H.
  destruct (away_all opt (length s) n) as (HE & _).
  apply HE in H; auto using fwd_arr, begins_arr. cbn [safe_stk] in H.
  apply anchor_safe in Ha; auto. congruence.
Qed.

(** Search without the shortcut: every position from the left, the first success. *)
Fixpoint try_from (opt : bool) (n : nat) (s : list Z) (f : flags) (r : re) (ps : list nat) : res caps :=
  match ps with
  | [] => No
  | p :: ps => match attempt opt n s f r p with No => try_from opt n s f r ps | x => x end
  end.
Definition try_all opt n s f r := try_from opt n s f r (seq 0 (S (length s))).

Lemma try_skip : forall opt n s f r k i q, i <= q < i + k -> (forall p, i <= p < q -> attempt opt n s f r p = No) ->
  attempt opt n s f r q <> No -> try_from opt n s f r (seq i k) = attempt opt n s f r q.
Proof.
  induction k as [|k IH]; intros i q Hq Hno Hn; [lia|]. cbn [seq try_from].
  destruct (Nat.eq_dec i q) as [->|].
  - destruct (attempt opt n s f r q); try reflexivity. congruence.
  - rewrite (Hno i) by lia. apply IH; auto; [lia|]. intros p Hp. apply Hno. lia.
Qed.
Lemma try_none : forall opt n s f r k i, (forall p, i <= p < i + k -> attempt opt n s f r p = No) ->
  try_from opt n s f r (seq i k) = No.
Proof.
  induction k as [|k IH]; intros i H; [reflexivity|]. cbn [seq try_from]. rewrite H by lia. apply IH. intros p Hp. apply H. lia.
Qed.
Lemma try_ok : forall opt n s f r ps c, try_from opt n s f r ps = Ok c -> exists p, In p ps /\ attempt opt n s f r p = Ok c.
Proof.
  induction ps as [|p ps IH]; intros c H; [discriminate|]. cbn [try_from] in H.
  destruct (attempt opt n s f r p) as [c1| | | |] eqn:E; try discriminate.
  - injection H as ->. exists p. split; [left; reflexivity|assumption].
  - apply IH in H as (q & Q1 & Q2). exists q. split; [right; assumption|assumption].
Qed.

Theorem shortcut_same : forall opt n s f r c, well_numbered r -> zero_safe r = true ->
  ctre_search opt n s f r = Ok c ->
  if matched c then try_all opt n s f r = Ok c
  else forall c', try_all opt n s f r <> Ok c'.
Proof.
  intros opt n s f r c Hw Hz H. unfold try_all.
  apply search_cases in H; [|assumption|lia].
  destruct H as [(q & Q1 & Q2 & Q3 & Q4) | (q & -> & Q)].
  - rewrite (attempt_matched _ _ _ _ _ _ _ Q2). rewrite (try_skip opt n s f r (S (length s)) 0 q); auto; [lia|congruence].
  - cbn [matched set_end_mark c0 s_m].
    replace (matched (set_end_mark q (fresh r))) with false by reflexivity.
    destruct (starts_with_anchor f r) eqn:Ea.
    + destruct Q as (-> & Q). intros c' H. apply try_ok in H as (p & P1 & P2).
      destruct (Nat.eq_dec p 0) as [->|]; [congruence|].
      apply (anchored_nowhere_else opt n s f r p c' Hz Ea ltac:(lia) P2).
    + destruct Q as (_ & Q). intros c'. rewrite try_none; [discriminate|]. intros p Hp. apply Q. lia.
Qed.
