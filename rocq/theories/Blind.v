(** The evaluator looks at the table of captures only through the numbers that occur in the pattern: two
    tables that agree on those numbers lead to the same outcome. *)
From Coq Require Import List ZArith NArith Bool Lia Arith.
From Verif Require Import Chars Syntax First View Eval Api.
Import ListNotations.

Section Blind.
Variable G : list nat.

(** The groups and the numbered references of a pattern are in [G]; no reference by name. *)
Fixpoint within (r : re) : bool :=
  match r with
  | RSelect l | RSeq l | RRep _ _ _ l | RAhead _ l | RBehind _ l | RAtomic l => forallb within l
  | RCap id l | RNCap id _ l => existsb (Nat.eqb id) G && forallb within l
  | RBack id => existsb (Nat.eqb id) G
  | RNBack _ => false
  | _ => true
  end.
Definition awithin (a : atom) : bool :=
  match a with AR r => within r | ANum id => existsb (Nat.eqb id) G | _ => true end.

Definition agree (c d : caps) : Prop :=
  c0 c = c0 d /\ forall id, In id G -> id <> 0 -> exists s, find_id id (cl c) = Some s /\ find_id id (cl d) = Some s.
Definition out_rel {A B} (R : A -> B -> Prop) (x : res A) (y : res B) : Prop :=
  match x, y with
  | Ok a, Ok b => R a b
  | No, No | Fuel, Fuel | UB, UB | Ill, Ill => True
  | _, _ => False
  end.

Lemma in_G : forall id, existsb (Nat.eqb id) G = true -> In id G.
Proof. intros id H. apply existsb_exists in H as (x & H1 & H2). apply Nat.eqb_eq in H2. subst. exact H1. Qed.

Lemma agree_matched : forall c d, agree c d -> agree (set_matched c) (set_matched d).
Proof. intros c d [H1 H2]. split; [|exact H2]. unfold set_matched. cbn [c0]. rewrite H1. reflexivity. Qed.
Lemma agree_unmatch : forall c d, agree c d -> agree (unmatch c) (unmatch d).
Proof. intros c d [H1 H2]. split; [|exact H2]. unfold unmatch. cbn [c0]. rewrite H1. reflexivity. Qed.
Lemma agree_start : forall p c d, agree c d -> agree (set_start_mark p c) (set_start_mark p d).
Proof. intros p c d [H1 H2]. split; [|exact H2]. unfold set_start_mark. cbn [c0]. rewrite H1. reflexivity. Qed.
Lemma agree_end : forall p c d, agree c d -> agree (set_end_mark p c) (set_end_mark p d).
Proof. intros p c d [H1 H2]. split; [|exact H2]. unfold set_end_mark. cbn [c0]. rewrite H1. reflexivity. Qed.

Lemma upd_find : forall id g l s, find_id id l = Some s -> exists l', upd_id id g l = Some l' /\
  forall j, find_id j l' = if Nat.eqb j id then Some (g s) else find_id j l.
Proof.
  intros id g. induction l as [|[[i nm] x] l IH]; intros s H; [discriminate|]. cbn [find_id] in H. cbn [upd_id].
  destruct (Nat.eqb_spec i id) as [->|E].
  - injection H as ->. eexists. split; [reflexivity|]. intros j. cbn [find_id]. rewrite (Nat.eqb_sym j id). destruct (Nat.eqb id j); reflexivity.
  - destruct (IH s H) as (l' & -> & K). eexists. split; [reflexivity|]. intros j. cbn [find_id]. rewrite K.
    destruct (Nat.eqb_spec i j) as [->|E']; [|reflexivity]. destruct (Nat.eqb_spec j id); [congruence|reflexivity].
Qed.
Lemma agree_upd : forall id g c d, existsb (Nat.eqb id) G = true -> agree c d ->
  exists c' d', upd_caps id g c = Some c' /\ upd_caps id g d = Some d' /\ agree c' d'.
Proof.
  intros id g c d Hg [H1 H2]. apply in_G in Hg. unfold upd_caps. destruct (Nat.eqb_spec id 0) as [->|E].
  - do 2 eexists. split; [reflexivity|]. split; [reflexivity|]. split; [cbn [c0]; rewrite H1; reflexivity|exact H2].
  - destruct (H2 id Hg E) as (s & S1 & S2). destruct (upd_find id g _ s S1) as (l1 & -> & K1). destruct (upd_find id g _ s S2) as (l2 & -> & K2).
    do 2 eexists. split; [reflexivity|]. split; [reflexivity|]. split; [exact H1|]. cbn [cl]. intros j Hj Hn. rewrite K1, K2.
    destruct (Nat.eqb j id); eauto.
Qed.
Lemma agree_get : forall id c d, existsb (Nat.eqb id) G = true -> agree c d -> get_id id c = get_id id d.
Proof.
  intros id c d Hg [H1 H2]. apply in_G in Hg. unfold get_id. destruct (Nat.eqb_spec id 0) as [->|E]; [rewrite H1; reflexivity|].
  destruct (H2 id Hg E) as (s & -> & ->). reflexivity.
Qed.

Variable opt : bool.
Definition BE (n : nat) : Prop := forall v w p f c d stk, agree c d -> forallb awithin stk = true ->
  out_rel agree (eval opt n v w p f c stk) (eval opt n v w p f d stk).
Definition BReq (n : nat) : Prop := forall v w p f c d a i l, agree c d -> forallb within l = true ->
  out_rel (fun x y => fst x = fst y /\ agree (snd x) (snd y)) (req_loop opt n v w p f c a i l) (req_loop opt n v w p f d a i l).
Definition BRec (n : nat) : Prop := forall v w p f c d b i l tl, agree c d -> forallb within l = true -> forallb awithin tl = true ->
  out_rel agree (rec_loop opt n v w p f c b i l tl) (rec_loop opt n v w p f d b i l tl).
Definition BLaz (n : nat) : Prop := forall v w p f c d b i l tl, agree c d -> forallb within l = true -> forallb awithin tl = true ->
  out_rel agree (lazy_loop opt n v w p f c b i l tl) (lazy_loop opt n v w p f d b i l tl).
Definition BPos (n : nat) : Prop := forall v w st p f c d a b i l tl, agree c d -> forallb within l = true -> forallb awithin tl = true ->
  out_rel agree (poss_loop opt n v w st p f c a b i l tl) (poss_loop opt n v w st p f d a b i l tl).

Lemma within_cycle : forall l, forallb within l = true -> forallb awithin (cycle l) = true.
Proof. unfold cycle. induction l; cbn; [reflexivity|]. intros H. apply andb_true_iff in H as [-> H]. auto. Qed.
Lemma same_end : forall c d, agree c d -> s_end (c0 c) = s_end (c0 d).
Proof. intros c d [-> _]. reflexivity. Qed.

Ltac two H x y := let K := fresh "K" in pose proof H as K;
  match type of K with out_rel _ ?X ?Y =>
    destruct X as [x| | | |]; destruct Y as [y| | | |]; cbn [out_rel] in K; try contradiction; try exact I; try (exact K) end.
Ltac opt_case X := destruct X; cbn [or_ub]; [|exact I].

Theorem blind_all : forall n, BE n /\ BReq n /\ BRec n /\ BLaz n /\ BPos n.
Proof.
  induction n as [|n (HE & HRq & HRc & HLz & HPs)].
  { split; [|split; [|split; [|split]]]; repeat intro; exact I. }
  assert (Body : forall v w p f c d l, agree c d -> forallb within l = true ->
    out_rel agree (eval opt n v w p (not_empty_match f) c (cycle l)) (eval opt n v w p (not_empty_match f) d (cycle l))).
  { intros. apply HE; auto using within_cycle. }
  split; [|split; [|split; [|split]]].
  - intros v w p f c d stk Hc Hs. destruct stk as [|a tl]; [exact I|].
    cbn [forallb] in Hs. apply andb_true_iff in Hs as [Ha Hs].
    destruct a as [r| | | | | | |id].
    + cbn [awithin] in Ha.
      destruct r as
      [ k | | t | l | l | | | k a b l | id l | id nm l | id | nm
      | neg l | neg l | l | k | k | a | m ]; cbn [eval]; cbn [within] in Ha.
      * opt_case (vend v p). destruct b; [exact I|]. opt_case (vget v p). destruct (match_cls _ _ _); [|exact I].
        opt_case (vnext v p). apply HE; auto.
      * opt_case (vend v p). destruct b; [exact I|]. opt_case (if f_ml f then option_map (fun x => Z.eqb x 10) (vget v p) else Some false).
        destruct b; [exact I|]. opt_case (vnext v p). apply HE; auto.
      * destruct (match_string v (f_ci f) t p); try exact I. apply HE; auto.
      * destruct l as [|x xs]; [exact I|]. cbn [forallb] in Ha. apply andb_true_iff in Ha as [A1 A2].
        assert (S1 : forallb awithin (AR x :: tl) = true) by (cbn; rewrite A1; assumption).
        assert (S2 : forallb awithin (AR (RSelect xs) :: tl) = true) by (cbn; rewrite A2; assumption).
        two (HE v w p f c d _ Hc S1) q q'. apply HE; auto.
      * destruct l as [|x [|y ys]]; [exact I| |]; cbn [forallb] in Ha; apply andb_true_iff in Ha as [A1 A2]; apply HE; auto.
        -- cbn. rewrite A1. assumption.
        -- cbn. cbn in A2. rewrite A1, A2. assumption.
      * apply HE; auto.
      * exact I.
      * destruct (negb (N.eqb b 0) && N.ltb b a)%bool; [exact I|].
        destruct k.
        -- destruct (becomes_possessive opt l tl) as [[]|]; [| |exact I].
           ++ apply HE; auto. cbn. rewrite Ha. assumption.
           ++ destruct (vconv v); [|exact I]. cbn [negb].
              two (HRq v w p f c d a 0%N l Hc Ha) q q'. destruct q as [p1 c1], q' as [p2 c2].
              destruct K as [K1 K2]. cbn [fst snd] in K1, K2. subst p2. apply HRc; auto.
        -- destruct (vconv v); [|exact I]. cbn [negb].
           two (HRq v w p f c d a 0%N l Hc Ha) q q'. destruct q as [p1 c1], q' as [p2 c2].
           destruct K as [K1 K2]. cbn [fst snd] in K1, K2. subst p2.
           two (HE v w p1 (consumed_something f (negb (Nat.eqb p p1))) c1 c2 tl K2 Hs) q q'. apply HLz; auto.
        -- destruct (vconv v); [|exact I]. cbn [negb]. apply HPs; auto.
      * destruct (vconv v); [|exact I]. apply andb_true_iff in Ha as [Hg Ha].
        destruct (agree_upd id (fun s => mkSlot (Some p) (s_end s) (s_m s)) c d Hg Hc) as (c' & d' & E1 & E2 & Hc').
        unfold start_capture. rewrite E1, E2. cbn [or_ill]. apply HE; auto. cbn. rewrite Ha, Hg. assumption.
      * destruct (vconv v); [|exact I]. apply andb_true_iff in Ha as [Hg Ha].
        destruct (agree_upd id (fun s => mkSlot (Some p) (s_end s) (s_m s)) c d Hg Hc) as (c' & d' & E1 & E2 & Hc').
        unfold start_capture. rewrite E1, E2. cbn [or_ill]. apply HE; auto. cbn. rewrite Ha, Hg. assumption.
      * destruct (vsame v); [|exact I]. cbn [negb]. rewrite (agree_get id c d Ha Hc). destruct (get_id id d) as [s|]; [|exact I]. cbn [or_ill].
        destruct (s_m s); [|exact I]. opt_case (s_beg s). opt_case (s_end s).
        destruct (match_range_loop n v p n0 n1) as [[q []]| | | |]; try exact I. apply HE; auto.
      * discriminate.
      * assert (S1 : forallb awithin [AR (RSeq l); AEndAhead] = true) by (cbn; rewrite Ha; reflexivity).
        destruct neg; two (HE v w p f c d _ Hc S1) q q'; apply HE; auto using agree_unmatch.
      * assert (S1 : forallb awithin [AR (RSeq l); AEndBehind] = true) by (cbn; rewrite Ha; reflexivity).
        destruct neg; two (HE (rev_view v) w p f c d _ Hc S1) q q'; apply HE; auto using agree_unmatch.
      * apply HE; auto. cbn. rewrite Ha. assumption.
      * destruct (around v (f_ci f) k p) as [[x y]| | | |]; try exact I. destruct (Bool.eqb x y); [exact I|]. apply HE; auto.
      * destruct (around v (f_ci f) k p) as [[x y]| | | |]; try exact I. destruct (Bool.eqb x y); [|exact I]. apply HE; auto.
      * destruct (eval_assert v (f_ml f) a p) as [[]| | | |]; try exact I. apply HE; auto.
      * apply HE; auto.
    + cbn [eval]. destruct tl; [|exact I]. apply agree_matched. assumption.
    + cbn [eval]. destruct (vconv v); [|exact I]. apply HE; auto using agree_start.
    + cbn [eval]. destruct (vconv v); [|exact I]. apply HE; auto using agree_end.
    + cbn [eval]. destruct tl; [|exact I]. destruct (vconv v); [|exact I]. cbn [negb].
      destruct (f_block f); [exact I|]. apply agree_matched, agree_end; assumption.
    + cbn [eval]. destruct tl; [|exact I]. apply agree_matched. assumption.
    + cbn [eval]. destruct tl; [|exact I]. apply agree_matched. assumption.
    + cbn [awithin] in Ha. cbn [eval]. destruct (vconv v); [|exact I].
      destruct (agree_upd id (fun s => mkSlot (s_beg s) (Some p) true) c d Ha Hc) as (c' & d' & E1 & E2 & Hc').
      unfold end_capture. rewrite E1, E2. cbn [or_ill]. apply HE; auto.
  - intros v w p f c d a i l Hc Hl. cbn [req_loop].
    destruct (less_than a i); [|split; [reflexivity|assumption]].
    two (Body v w p f c d l Hc Hl) q q'. rewrite (same_end q q' K). opt_case (s_end (c0 q')). apply HRq; auto using agree_unmatch.
  - intros v w p f c d b i l tl Hc Hl Ht. cbn [rec_loop].
    assert (Now : out_rel agree (eval opt n v w p (consumed_something f true) c tl) (eval opt n v w p (consumed_something f true) d tl))
      by (apply HE; auto).
    destruct (less_than_or_infinite b i); [|exact Now].
    two (Body v w p f c d l Hc Hl) q q'; [|exact Now]. rewrite (same_end q q' K). opt_case (s_end (c0 q')).
    two (HRc v w n0 f (unmatch q) (unmatch q') b (N.succ i) l tl (agree_unmatch _ _ K) Hl Ht) r r'. exact Now.
  - intros v w p f c d b i l tl Hc Hl Ht. cbn [lazy_loop].
    destruct (less_than_or_infinite b i); [|apply HE; auto].
    two (Body v w p f c d l Hc Hl) q q'. rewrite (same_end q q' K). opt_case (s_end (c0 q')).
    two (HE w w n0 (consumed_something f true) (unmatch q) (unmatch q') tl (agree_unmatch _ _ K) Ht) r r'.
    apply HLz; auto using agree_unmatch.
  - intros v w st p f c d a b i l tl Hc Hl Ht. cbn [poss_loop].
    assert (Now : out_rel agree (eval opt n v w p (consumed_something f (negb (Nat.eqb st p))) c tl)
                            (eval opt n v w p (consumed_something f (negb (Nat.eqb st p))) d tl)) by (apply HE; auto).
    destruct (less_than_or_infinite b i); [|exact Now].
    two (Body v w p f c d l Hc Hl) q q'.
    + rewrite (same_end q q' K). opt_case (s_end (c0 q')). apply HPs; auto using agree_unmatch.
    + destruct (less_than a i); [exact I|exact Now].
Qed.
Theorem blind : forall n v w p f c d stk, agree c d -> forallb awithin stk = true ->
  out_rel agree (eval opt n v w p f c stk) (eval opt n v w p f d stk).
Proof. intros n. exact (proj1 (blind_all n)). Qed.
End Blind.
