(** The greedy optimisation as a rewriting of the pattern: running [r] with the optimisation is running
    [possessify r] without it, where the repetitions that the compile-time choice turns into possessive
    ones are written possessively. *)
From Coq Require Import List ZArith NArith Bool Lia Arith.
From Verif Require Import Chars Syntax First View Eval Api EvalMono.
Import ListNotations.

Section Possess.
Variable opt : bool.

(** The kind a repetition with content [l] before [tl] runs with (evaluation.hpp lines 384-394). *)
Definition kind_before (k : rkind) (l : list re) (tl : list atom) : rkind :=
  match k with
  | Greedy => match becomes_possessive opt l tl with Some true => Possessive | _ => Greedy end
  | _ => k
  end.

(** [tl]: what is evaluated after [r]. *)
Fixpoint possessify (r : re) (tl : list atom) : re :=
  let pseq := fix pseq (l : list re) (tl : list atom) : list re :=
    match l with
    | [] => []
    | [x] => [possessify x tl]
    | x :: xs => possessify x (AR (RSeq xs) :: tl) :: pseq xs tl
    end in
  let pcyc := fix pcyc (l : list re) : list re :=
    match l with [] => [] | x :: xs => possessify x (cycle xs) :: pcyc xs end in
  match r with
  | RSelect l => RSelect ((fix palt (l : list re) : list re :=
                             match l with [] => [] | x :: xs => possessify x tl :: palt xs end) l)
  | RSeq l => RSeq (pseq l tl)
  | RRep k a b l => RRep (kind_before k l tl) a b (pcyc l)
  | RCap id l => RCap id (pseq l (ANum id :: tl))
  | RNCap id nm l => RNCap id nm (pseq l (ANum id :: tl))
  | RAhead neg l => RAhead neg (pseq l [AEndAhead])
  | RBehind neg l => RBehind neg (pseq l [AEndBehind])
  | RAtomic l => RAtomic (pcyc l)
  | _ => r
  end.
Fixpoint pseq (l : list re) (tl : list atom) : list re :=
  match l with
  | [] => []
  | [x] => [possessify x tl]
  | x :: xs => possessify x (AR (RSeq xs) :: tl) :: pseq xs tl
  end.
Fixpoint pcyc (l : list re) : list re :=
  match l with [] => [] | x :: xs => possessify x (cycle xs) :: pcyc xs end.
(** ... of everything on a stack. *)
Fixpoint pstack (stk : list atom) : list atom :=
  match stk with
  | [] => []
  | AR r :: tl => AR (possessify r tl) :: pstack tl
  | a :: tl => a :: pstack tl
  end.

Lemma pstack_cycle : forall l, pstack (cycle l) = cycle (pcyc l).
Proof.
  unfold cycle. induction l as [|x l IH]; [reflexivity|]. cbn [map app pstack pcyc]. rewrite IH. reflexivity.
Qed.

(** Same answer unless the left has none. *)
Definition settles {A} (x y : res A) : Prop := x = Fuel \/ x = Ill \/ x = y.
Lemma settles_refl : forall A (x : res A), settles x x.
Proof. right; right; reflexivity. Qed.
Lemma settles_fuel : forall A (y : res A), settles Fuel y.
Proof. left; reflexivity. Qed.
Lemma settles_ill : forall A (y : res A), settles Ill y.
Proof. right; left; reflexivity. Qed.

Ltac go IHc IHe IHq IHl IHp IHr :=
  repeat first
    [ apply IHc | apply IHe | apply IHq | apply IHl | apply IHp | apply IHr
    | match goal with
      | |- settles ?x ?x => apply settles_refl
      | |- settles Fuel _ => apply settles_fuel
      | |- settles Ill _ => apply settles_ill
      | |- settles (or_ub ?o _) (or_ub ?o _) => destruct o; cbn [or_ub]
      | |- settles (or_ill ?o _) (or_ill ?o _) => destruct o; cbn [or_ill]
      | |- settles (match ?x with _ => _ end) (match ?x with _ => _ end) => destruct x
      | |- settles (match ?x with _ => _ end) (match ?y with _ => _ end) =>
          let H := fresh in
          assert (H : settles x y) by (first [apply IHc | apply IHe | apply IHq | apply IHl | apply IHp | apply IHr]);
          destruct H as [H | [H | H]]; [rewrite H; apply settles_fuel | rewrite H; apply settles_ill | rewrite <- H; destruct x]
      end ].

Theorem possessify_all : forall n,
  (forall v w cur f c stk, settles (eval opt n v w cur f c stk) (eval false n v w cur f c (pstack stk))) /\
  (forall v w cur f c a i l,
     settles (req_loop opt n v w cur f c a i l) (req_loop false n v w cur f c a i (pcyc l))) /\
  (forall v w cur f c b i l tl,
     settles (lazy_loop opt n v w cur f c b i l tl) (lazy_loop false n v w cur f c b i (pcyc l) (pstack tl))) /\
  (forall v w st cur f c a b i l tl,
     settles (poss_loop opt n v w st cur f c a b i l tl) (poss_loop false n v w st cur f c a b i (pcyc l) (pstack tl))) /\
  (forall v w cur f c b i l tl,
     settles (rec_loop opt n v w cur f c b i l tl) (rec_loop false n v w cur f c b i (pcyc l) (pstack tl))).
Proof.
  induction n as [|n (IHe & IHq & IHl & IHp & IHr)].
  - repeat split; intros; left; reflexivity.
  - assert (IHc : forall v w cur f c l,
      settles (eval opt n v w cur f c (cycle l)) (eval false n v w cur f c (cycle (pcyc l)))).
    { intros. rewrite <- pstack_cycle. apply IHe. }
    split; [|repeat split; intros; cbn [req_loop lazy_loop poss_loop rec_loop]; go IHc IHe IHq IHl IHp IHr].
    intros v w cur f c [|a tl]; [apply settles_refl|].
    destruct a as [r| | | | | | |id];
      try (cbn [pstack eval]; go IHc IHe IHq IHl IHp IHr; fail);
      try (destruct tl as [|[] tl]; cbn [pstack eval]; apply settles_refl).
    destruct r as
      [ k | | t | l | l | | | k a b l | id l | id nm l | id | nm
      | neg l | neg l | l | k | k | a | md ];
      try (cbn [pstack possessify eval]; go IHc IHe IHq IHl IHp IHr; fail).
    + (* RSelect *)
      destruct l as [|x xs]; [apply settles_refl|].
      pose proof (IHe v w cur f c (AR x :: tl)) as H1. pose proof (IHe v w cur f c (AR (RSelect xs) :: tl)) as H2.
      cbn [pstack possessify eval] in *.
      destruct H1 as [H1|[H1|H1]]; [rewrite H1; apply settles_fuel|rewrite H1; apply settles_ill|].
      rewrite <- H1. destruct (eval opt n v w cur f c (AR x :: tl)); try apply settles_refl. exact H2.
    + (* RSeq *)
      destruct l as [|x [|y ys]]; [apply settles_refl | |].
      * exact (IHe v w cur f c (AR x :: tl)).
      * destruct ys as [|z zs]; [exact (IHe v w cur f c (AR x :: AR (RSeq [y]) :: tl))|].
        exact (IHe v w cur f c (AR x :: AR (RSeq (y :: z :: zs)) :: tl)).
    + (* RRep *)
      assert (HP : settles (eval opt n v w cur f c (AR (RRep Possessive a b l) :: tl))
                     (eval false (S n) v w cur f c (AR (RRep Possessive a b (pcyc l)) :: pstack tl))).
      { pose proof (IHe v w cur f c (AR (RRep Possessive a b l) :: tl)) as H. cbn [pstack] in H.
        change (possessify (RRep Possessive a b l) tl) with (RRep Possessive a b (pcyc l)) in H.
        destruct H as [H|[H|H]]; [left; exact H|right; left; exact H|].
        destruct (proj1 (mono_all n (S n) (Nat.le_succ_diag_r n)) false v w cur f c
                    (AR (RRep Possessive a b (pcyc l)) :: pstack tl)) as [M|M].
        - left. congruence.
        - right; right. congruence. }
      cbn [pstack].
      change (possessify (RRep k a b l) tl) with (RRep (kind_before k l tl) a b (pcyc l)).
      destruct k; cbn [kind_before].
      * destruct (becomes_possessive opt l tl) as [[]|] eqn:Eb.
        -- replace (eval opt (S n) v w cur f c (AR (RRep Greedy a b l) :: tl)) with
             (if (negb (N.eqb b 0) && N.ltb b a)%bool then No
              else eval opt n v w cur f c (AR (RRep Possessive a b l) :: tl)) by (cbn [eval]; rewrite Eb; reflexivity).
           destruct (negb (N.eqb b 0) && N.ltb b a)%bool eqn:E; [|exact HP].
           cbn [eval]. rewrite E. apply settles_refl.
        -- cbn [eval]. rewrite Eb. change (becomes_possessive false (pcyc l) (pstack tl)) with (Some false).
           cbn iota. go IHc IHe IHq IHl IHp IHr.
        -- cbn [eval]. rewrite Eb. destruct (negb (N.eqb b 0) && N.ltb b a)%bool; [apply settles_refl|apply settles_ill].
      * cbn [eval]. go IHc IHe IHq IHl IHp IHr.
      * cbn [eval]. go IHc IHe IHq IHl IHp IHr.
Qed.

(** * What the rewriting keeps *)
Lemma possessify_captures : forall r tl, find_captures (possessify r tl) = find_captures r.
Proof.
  pose (fc := fix fc (l : list re) := match l with [] => [] | x :: xs => find_captures x ++ fc xs end).
  induction r as
    [ | r l IHr IHl | c | | t | l IH | l IH | | | kd a b l IH | id l IH | id nm l IH | id | nm
    | neg l IH | neg l IH | l IH | c | c | a | md ]
    using re_ind2 with (Q := fun l => (forall tl, fc (pseq l tl) = fc l) /\ fc (pcyc l) = fc l
       /\ forall tl, find_captures (possessify (RSelect l) tl) = fc l); try (intros; reflexivity).
  - split; [|split]; reflexivity.
  - destruct IHl as (I1 & I2 & I3). split; [|split].
    + intros tl. cbn [pseq]. destruct l as [|y ys].
      * cbn. rewrite IHr. reflexivity.
      * change (find_captures (possessify r (AR (RSeq (y :: ys)) :: tl)) ++ fc (pseq (y :: ys) tl) = find_captures r ++ fc (y :: ys)).
        rewrite IHr, I1. reflexivity.
    + change (find_captures (possessify r (cycle l)) ++ fc (pcyc l) = find_captures r ++ fc l). rewrite IHr, I2. reflexivity.
    + intros tl. specialize (I3 tl).
      change (find_captures (possessify r tl) ++ find_captures (possessify (RSelect l) tl) = find_captures r ++ fc l).
      rewrite IHr, I3. reflexivity.
  - intros tl. apply IH.
  - intros tl. apply IH.
  - intros tl. apply IH.
  - intros tl. change ((id, None) :: fc (pseq l (ANum id :: tl)) = (id, None) :: fc l). f_equal. apply IH.
  - intros tl. change ((id, Some nm) :: fc (pseq l (ANum id :: tl)) = (id, Some nm) :: fc l). f_equal. apply IH.
  - intros tl. apply IH.
Qed.
End Possess.
