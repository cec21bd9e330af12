(** More fuel never changes a result (all five loops of the evaluator). *)
From Coq Require Import List ZArith NArith Bool Arith Lia.
From Verif Require Import Chars Syntax First View Eval Api.
Import ListNotations.

Definition le_res {A} (x y : res A) : Prop := x = Fuel \/ x = y.

Lemma le_refl : forall A (x : res A), le_res x x.
Proof. right; reflexivity. Qed.
Lemma le_fuel : forall A (x : res A), le_res Fuel x.
Proof. left; reflexivity. Qed.
#[global] Hint Resolve le_refl le_fuel : mono.

Lemma le_res_neq : forall A (x y : res A), le_res x y -> x <> Fuel -> y = x.
Proof. intros A x y [H | H] Hn; congruence. Qed.

Lemma match_range_mono : forall n m v cur a b, n <= m ->
  le_res (match_range_loop n v cur a b) (match_range_loop m v cur a b).
Proof.
  induction n as [|n IH]; intros m v cur a b Hle;
    [left; reflexivity|]; destruct m as [|m]; [lia|].
  cbn [match_range_loop].
  destruct (vend v cur) as [e|]; cbn [or_ub]; auto with mono.
  destruct (negb e && negb (Nat.eqb b a)); auto with mono.
  destruct (vget v cur) as [x|]; cbn [or_ub]; auto with mono.
  destruct (vget v a) as [y|]; cbn [or_ub]; auto with mono.
  destruct (Z.eqb x y); auto with mono.
  destruct (vnext v cur) as [q|]; cbn [or_ub]; auto with mono.
  destruct (vnext v a) as [r|]; cbn [or_ub]; auto with mono.
  apply IH; lia.
Qed.

Ltac mono_go IHe IHq IHl IHp IHr :=
  repeat first
    [ apply IHe | apply IHq | apply IHl | apply IHp | apply IHr
    | match goal with
      | |- le_res ?x ?x => apply le_refl
      | |- le_res Fuel _ => apply le_fuel
      | |- le_res (or_ub ?o _) (or_ub ?o _) => destruct o; cbn [or_ub]
      | |- le_res (or_ill ?o _) (or_ill ?o _) => destruct o; cbn [or_ill]
      | |- le_res (match ?x with _ => _ end) (match ?x with _ => _ end) => destruct x
      | |- le_res (match ?x with _ => _ end) (match ?y with _ => _ end) =>
          let H := fresh in
          assert (H : le_res x y) by
            (first [apply IHe | apply IHq | apply IHl | apply IHp | apply IHr
                   | apply match_range_mono; lia]);
          destruct H as [H | H]; [rewrite H; apply le_fuel | rewrite <- H; destruct x]
      end ].

Lemma mono_all : forall n m, n <= m ->
  (forall opt v w cur f c stk,
     le_res (eval opt n v w cur f c stk) (eval opt m v w cur f c stk)) /\
  (forall opt v w cur f c a i l,
     le_res (req_loop opt n v w cur f c a i l) (req_loop opt m v w cur f c a i l)) /\
  (forall opt v w cur f c b i l tl,
     le_res (lazy_loop opt n v w cur f c b i l tl) (lazy_loop opt m v w cur f c b i l tl)) /\
  (forall opt v w st cur f c a b i l tl,
     le_res (poss_loop opt n v w st cur f c a b i l tl)
            (poss_loop opt m v w st cur f c a b i l tl)) /\
  (forall opt v w cur f c b i l tl,
     le_res (rec_loop opt n v w cur f c b i l tl) (rec_loop opt m v w cur f c b i l tl)).
Proof.
  induction n as [|n IH]; intros m Hle.
  - repeat split; intros; left; reflexivity.
  - destruct m as [|m]; [lia|].
    specialize (IH m ltac:(lia)) as (IHe & IHq & IHl & IHp & IHr).
    repeat split; intros; cbn [eval req_loop lazy_loop poss_loop rec_loop];
      mono_go IHe IHq IHl IHp IHr.
Qed.

Lemma eval_mono : forall n m opt v w cur f c stk x, n <= m ->
  eval opt n v w cur f c stk = x -> x <> Fuel -> eval opt m v w cur f c stk = x.
Proof.
  intros n m opt v w cur f c stk x Hle H Hx.
  destruct (mono_all n m Hle) as [He _]. specialize (He opt v w cur f c stk).
  rewrite H in He. apply le_res_neq in He; assumption.
Qed.
Lemma req_mono : forall n m opt v w cur f c a i l x, n <= m ->
  req_loop opt n v w cur f c a i l = x -> x <> Fuel -> req_loop opt m v w cur f c a i l = x.
Proof.
  intros n m opt v w cur f c a i l x Hle H Hx.
  destruct (mono_all n m Hle) as (_ & He & _). specialize (He opt v w cur f c a i l).
  rewrite H in He. apply le_res_neq in He; assumption.
Qed.
Lemma lazy_mono : forall n m opt v w cur f c b i l tl x, n <= m ->
  lazy_loop opt n v w cur f c b i l tl = x -> x <> Fuel ->
  lazy_loop opt m v w cur f c b i l tl = x.
Proof.
  intros n m opt v w cur f c b i l tl x Hle H Hx.
  destruct (mono_all n m Hle) as (_ & _ & He & _). specialize (He opt v w cur f c b i l tl).
  rewrite H in He. apply le_res_neq in He; assumption.
Qed.
Lemma poss_mono : forall n m opt v w st cur f c a b i l tl x, n <= m ->
  poss_loop opt n v w st cur f c a b i l tl = x -> x <> Fuel ->
  poss_loop opt m v w st cur f c a b i l tl = x.
Proof.
  intros n m opt v w st cur f c a b i l tl x Hle H Hx.
  destruct (mono_all n m Hle) as (_ & _ & _ & He & _).
  specialize (He opt v w st cur f c a b i l tl).
  rewrite H in He. apply le_res_neq in He; assumption.
Qed.
Lemma rec_mono : forall n m opt v w cur f c b i l tl x, n <= m ->
  rec_loop opt n v w cur f c b i l tl = x -> x <> Fuel ->
  rec_loop opt m v w cur f c b i l tl = x.
Proof.
  intros n m opt v w cur f c b i l tl x Hle H Hx.
  destruct (mono_all n m Hle) as (_ & _ & _ & _ & He). specialize (He opt v w cur f c b i l tl).
  rewrite H in He. apply le_res_neq in He; assumption.
Qed.

(** Two terminating runs give the same answer whatever their fuel. *)
Lemma eval_det : forall n m opt v w cur f c stk x y,
  eval opt n v w cur f c stk = x -> eval opt m v w cur f c stk = y ->
  x <> Fuel -> y <> Fuel -> x = y.
Proof.
  intros n m opt v w cur f c stk x y Hx Hy Nx Ny.
  destruct (Nat.le_ge_cases n m) as [L | L].
  - apply (eval_mono n m) in Hx; auto. congruence.
  - apply (eval_mono m n) in Hy; auto. congruence.
Qed.
