(** Two subjects seen through related iterators: the evaluator makes the same steps on both.
    Used for zero-terminated subjects (C09), UTF-8 subjects (C10) and case flips (C19). *)
From Coq Require Import List ZArith NArith Bool Lia Arith.
From Verif Require Import Chars Syntax First View Eval Api.
Import ListNotations.

Lemma anchor_flags : forall f f', f_ml f = f_ml f' -> forall r k, anchor_re f r k = anchor_re f' r k.
Proof.
  intros f f' H. fix IH 1. intros r k.
  assert (L : forall l k,
    (fix al (l : list re) (k : bool) : bool := match l with [] => k | x :: xs => anchor_re f x (al xs k) end) l k =
    (fix al (l : list re) (k : bool) : bool := match l with [] => k | x :: xs => anchor_re f' x (al xs k) end) l k).
  { induction l as [|x l IHl]; intros k'; [reflexivity|]. rewrite IHl. apply IH. }
  destruct r as [ | | | l | l | | | k' a b l | id l | | | | | | | | | a | ]; try reflexivity; cbn [anchor_re].
  - induction l as [|x l IHl]; [reflexivity|]. cbn [forallb]. rewrite IHl, IH. reflexivity.
  - apply L.
  - rewrite L. reflexivity.
  - apply L.
  - destruct a; try reflexivity. rewrite H. reflexivity.
Qed.

Section Sim.
Variable P : nat -> nat -> Prop.        (* related positions *)
Hypothesis P_eqb : forall a b a' b', P a a' -> P b b' -> Nat.eqb a b = Nat.eqb a' b'.
Variable Rv : Z -> Z -> Prop.           (* related characters *)
Variable okf : flags -> flags -> Prop.  (* flags that may be in effect together *)
Variables (okc : cls -> bool) (okl : Z -> bool) (okm : mode -> bool) (back lazy prev : bool).
Hypothesis okf_same : forall f f', okf f f' -> f_block f = f_block f' /\ f_ml f = f_ml f'.
Hypothesis okf_block : forall f f' b, okf f f' -> okf (consumed_something f b) (consumed_something f' b).
Hypothesis okf_ne : forall f f', okf f f' -> okf (not_empty_match f) (not_empty_match f').
Hypothesis okf_mode : forall f f' m, okf f f' -> okm m = true -> okf (add_mode f m) (add_mode f' m).
Hypothesis R_cls : forall f f' k x x', okf f f' -> okc k = true -> Rv x x' -> match_cls (f_ci f) k x = match_cls (f_ci f') k x'.
Hypothesis R_lit : forall f f' k x x', okf f f' -> okl k = true -> Rv x x' -> match_lit (f_ci f) k x = match_lit (f_ci f') k x'.
Hypothesis R_nl : forall x x', Rv x x' -> Z.eqb x 10 = Z.eqb x' 10.
Hypothesis R_eq : back = true -> forall x x' y y', Rv x x' -> Rv y y' -> Z.eqb x y = Z.eqb x' y'.

Inductive opt_rel {A B} (R : A -> B -> Prop) : option A -> option B -> Prop :=
| or_none : forall y, opt_rel R None y
| or_some : forall a b, R a b -> opt_rel R (Some a) (Some b).

(** Whenever the first view is defined, so is the second, with a related answer. *)
Record vsim (v1 v2 : view) : Prop := {
  sim_end : forall p p', P p p' -> opt_rel eq (vend v1 p) (vend v2 p');
  sim_beg : forall p p', P p p' -> opt_rel eq (vbeg v1 p) (vbeg v2 p');
  sim_get : forall p p', P p p' -> opt_rel Rv (vget v1 p) (vget v2 p');
  sim_next : forall p p', P p p' -> opt_rel P (vnext v1 p) (vnext v2 p');
  sim_prev : prev = true -> forall p p', P p p' -> opt_rel P (vprev v1 p) (vprev v2 p');
  sim_conv : vconv v1 = vconv v2;
  sim_same : back = true -> vsame v1 = vsame v2 }.

Lemma sim_rev : forall v1 v2, prev = true -> vsim v1 v2 -> vsim (rev_view v1) (rev_view v2).
Proof.
  intros v1 v2 Hpv [H1 H2 H3 H4 H5 H6 H7]. specialize (H5 Hpv). constructor; cbn [rev_view vend vbeg vget vnext vprev vconv vsame]; auto.
  intros p p' Hp. destruct (H5 p p' Hp) as [y|a b Hab]; [constructor|]. apply H3. assumption.
Qed.

Fixpoint pok (r : re) : bool :=
  match r with
  | RCls k => okc k
  | RBound k | RNotBound k => prev && okc k
  | RStr t => forallb okl t
  | RSelect l | RSeq l | RCap _ l | RNCap _ _ l | RAhead _ l | RAtomic l => forallb pok l
  | RBehind _ l => prev && forallb pok l
  | RRep k _ _ l => (match k with Lazy => lazy | _ => true end) && forallb pok l
  | RBack _ | RNBack _ => back
  | RMode m => okm m
  | RAssert ALineBegin => prev
  | RAny | REmpty | RReject | RAssert _ => true
  end.
Definition aok (a : atom) : bool := match a with AR r => pok r | _ => true end.

Definition opos (a b : option nat) : Prop :=
  match a, b with Some p, Some q => P p q | None, None => True | _, _ => False end.
Definition srel (a b : slot) : Prop := opos (s_beg a) (s_beg b) /\ opos (s_end a) (s_end b) /\ s_m a = s_m b.
Definition erel (a b : entry) : Prop := fst a = fst b /\ srel (snd a) (snd b).
Definition crel (a b : caps) : Prop := srel (c0 a) (c0 b) /\ Forall2 erel (cl a) (cl b).

(** Related outcomes: equal up to related positions, nothing claimed after undefined behaviour. *)
Definition rrel {A B} (R : A -> B -> Prop) (x : res A) (y : res B) : Prop :=
  match x, y with
  | UB, _ => True
  | Ok a, Ok b => R a b
  | No, No | Fuel, Fuel | Ill, Ill => True
  | _, _ => False
  end.

Lemma crel_matched : forall a b, crel a b -> crel (set_matched a) (set_matched b).
Proof. intros a b [(H1 & H2 & H3) H4]. split; [|assumption]. repeat split; assumption. Qed.
Lemma crel_unmatch : forall a b, crel a b -> crel (unmatch a) (unmatch b).
Proof. intros a b [(H1 & H2 & H3) H4]. split; [|assumption]. repeat split; assumption. Qed.
Lemma crel_start : forall a b p q, P p q -> crel a b -> crel (set_start_mark p a) (set_start_mark q b).
Proof. intros a b p q Hp [(H1 & H2 & H3) H4]. split; [|assumption]. repeat split; assumption. Qed.
Lemma crel_end : forall a b p q, P p q -> crel a b -> crel (set_end_mark p a) (set_end_mark q b).
Proof. intros a b p q Hp [(H1 & H2 & H3) H4]. split; [|assumption]. repeat split; assumption. Qed.

Inductive both {A B} (R : A -> B -> Prop) : option A -> option B -> Prop :=
| both_none : both R None None
| both_some : forall a b, R a b -> both R (Some a) (Some b).

Lemma upd_rel : forall id g g' a b, (forall s s', srel s s' -> srel (g s) (g' s')) -> crel a b ->
  both crel (upd_caps id g a) (upd_caps id g' b).
Proof.
  intros id g g' a b Hg [H1 H2]. unfold upd_caps. destruct (Nat.eqb id 0); [constructor; split; [apply Hg|]; assumption|].
  assert (L : both (Forall2 erel) (upd_id id g (cl a)) (upd_id id g' (cl b))).
  { induction H2 as [|[[i nm] x] [[i' nm'] y] l l' [He Hs] Hl IH]; [constructor|].
    cbn [fst snd] in He, Hs. injection He as <- <-. cbn [upd_id]. destruct (Nat.eqb i id).
    - constructor. constructor; [|assumption]. split; [reflexivity|apply Hg; assumption].
    - destruct IH; constructor. constructor; [|assumption]. split; [reflexivity|assumption]. }
  destruct L; constructor. split; assumption.
Qed.
Lemma start_rel : forall id p q a b, P p q -> crel a b -> both crel (start_capture id p a) (start_capture id q b).
Proof. intros. apply upd_rel; [|assumption]. intros s s' (H1 & H2 & H3). repeat split; assumption. Qed.
Lemma end_rel : forall id p q a b, P p q -> crel a b -> both crel (end_capture id p a) (end_capture id q b).
Proof. intros. apply upd_rel; [|assumption]. intros s s' (H1 & H2 & H3). repeat split; assumption. Qed.
Lemma get_id_rel : forall id a b, crel a b -> both srel (get_id id a) (get_id id b).
Proof.
  intros id a b [H1 H2]. unfold get_id. destruct (Nat.eqb id 0); [constructor; assumption|].
  induction H2 as [|[[i nm] x] [[i' nm'] y] l l' [He Hs] Hl IH]; [constructor|].
  cbn [fst snd] in He, Hs. injection He as <- <-. cbn [find_id]. destruct (Nat.eqb i id); [constructor; assumption|assumption].
Qed.
Lemma get_name_rel : forall nm a b, crel a b -> both srel (get_name nm (cl a)) (get_name nm (cl b)).
Proof.
  intros nm a b [_ H2].
  induction H2 as [|[[i n] x] [[i' n'] y] l l' [He Hs] Hl IH]; [constructor|].
  cbn [fst snd] in He, Hs. injection He as <- <-. cbn [get_name]. destruct n as [n|]; [|assumption].
  destruct (name_eqb nm n); [constructor; assumption|assumption].
Qed.
Lemma end_slot_rel : forall a b, crel a b -> both P (s_end (c0 a)) (s_end (c0 b)).
Proof.
  intros a b [(_ & H & _) _]. destruct (s_end (c0 a)), (s_end (c0 b)); cbn in H; try contradiction; constructor; assumption.
Qed.

Ltac sim_op H := let y := fresh in let a := fresh "a" in let b := fresh "b" in let E := fresh "R" in
  destruct H as [y | a b E]; [exact I|]; cbn [or_ub].

Lemma string_rel : forall v1 v2 f f' t p p', vsim v1 v2 -> okf f f' -> forallb okl t = true -> P p p' ->
  rrel P (match_string v1 (f_ci f) t p) (match_string v2 (f_ci f') t p').
Proof.
  intros v1 v2 f f' t p p' Hv Hf. revert p p'. induction t as [|ch t IH]; intros p p' Ht Hp; [exact Hp|].
  cbn [forallb] in Ht. apply andb_true_iff in Ht as [T1 T2]. cbn [match_string].
  sim_op (sim_end v1 v2 Hv p p' Hp). subst. destruct b; [exact I|].
  sim_op (sim_get v1 v2 Hv p p' Hp). sim_op (sim_next v1 v2 Hv p p' Hp).
  rewrite (R_lit f f' ch a b) by assumption. destruct (match_lit (f_ci f') ch b); [|exact I]. apply IH; assumption.
Qed.

Lemma range_rel : back = true -> forall n v1 v2 p p' b b' e e', vsim v1 v2 -> P p p' -> P b b' -> P e e' ->
  rrel (fun x y => P (fst x) (fst y) /\ snd x = snd y) (match_range_loop n v1 p b e) (match_range_loop n v2 p' b' e').
Proof.
  intros Hb. induction n as [|n IH]; intros v1 v2 p p' b b' e e' Hv Hp Hb' He; [exact I|]. cbn [match_range_loop].
  sim_op (sim_end v1 v2 Hv p p' Hp). subst. rewrite (P_eqb e b e' b' He Hb').
  destruct (negb b0 && negb (Nat.eqb e' b'))%bool.
  - sim_op (sim_get v1 v2 Hv p p' Hp). sim_op (sim_get v1 v2 Hv b b' Hb').
    rewrite (R_eq Hb a b1 a0 b2) by assumption. destruct (Z.eqb b1 b2); [|split; [assumption|reflexivity]].
    sim_op (sim_next v1 v2 Hv p p' Hp). sim_op (sim_next v1 v2 Hv b b' Hb'). apply IH; assumption.
  - split; [assumption|]. cbn [snd]. apply P_eqb; assumption.
Qed.

Lemma around_rel : prev = true -> forall v1 v2 f f' k p p', vsim v1 v2 -> okf f f' -> okc k = true -> P p p' ->
  rrel eq (around v1 (f_ci f) k p) (around v2 (f_ci f') k p').
Proof.
  intros Hpv v1 v2 f f' k p p' Hv Hf Hk Hp. unfold around.
  sim_op (sim_end v1 v2 Hv p p' Hp). subst.
  assert (A : opt_rel eq (if b then Some false else option_map (match_cls (f_ci f) k) (vget v1 p))
                         (if b then Some false else option_map (match_cls (f_ci f') k) (vget v2 p'))).
  { destruct b; [constructor; reflexivity|]. destruct (sim_get v1 v2 Hv p p' Hp); cbn [option_map]; constructor.
    apply R_cls; assumption. }
  destruct A as [y|x x' ->]; [exact I|]. cbn [or_ub].
  sim_op (sim_beg v1 v2 Hv p p' Hp). subst.
  assert (B : opt_rel eq
     (if b0 then Some false else match vprev v1 p with Some q => option_map (match_cls (f_ci f) k) (vget v1 q) | None => None end)
     (if b0 then Some false else match vprev v2 p' with Some q => option_map (match_cls (f_ci f') k) (vget v2 q) | None => None end)).
  { destruct b0; [constructor; reflexivity|]. destruct (sim_prev v1 v2 Hv Hpv p p' Hp) as [|q q' Hq]; [constructor|].
    destruct (sim_get v1 v2 Hv q q' Hq); cbn [option_map]; constructor. apply R_cls; assumption. }
  destruct B as [y|z z' ->]; [exact I|]. reflexivity.
Qed.

Lemma assert_rel : forall v1 v2 ml a p p', pok (RAssert a) = true -> vsim v1 v2 -> P p p' ->
  rrel eq (eval_assert v1 ml a p) (eval_assert v2 ml a p').
Proof.
  intros v1 v2 ml a p p' Hpv Hv Hp. destruct a; cbn [eval_assert].
  - sim_op (sim_beg v1 v2 Hv p p' Hp). subst. reflexivity.
  - sim_op (sim_end v1 v2 Hv p p' Hp). subst. reflexivity.
  - sim_op (sim_end v1 v2 Hv p p' Hp). subst. destruct b; [reflexivity|]. destruct ml; [|reflexivity].
    sim_op (sim_get v1 v2 Hv p p' Hp). rewrite (R_nl a b) by assumption. destruct (Z.eqb b 10); [|reflexivity].
    destruct (sim_next v1 v2 Hv p p' Hp) as [y|q q' Hq]; [exact I|]. cbn [or_ub].
    sim_op (sim_end v1 v2 Hv q q' Hq). subst. reflexivity.
  - sim_op (sim_beg v1 v2 Hv p p' Hp). subst. destruct b; [reflexivity|]. destruct ml; [|reflexivity].
    destruct (sim_prev v1 v2 Hv Hpv p p' Hp) as [y|q q' Hq]; [exact I|]. cbn [or_ub].
    sim_op (sim_get v1 v2 Hv q q' Hq). rewrite (R_nl a b) by assumption. reflexivity.
  - sim_op (sim_end v1 v2 Hv p p' Hp). subst. destruct b; [reflexivity|]. destruct ml; [|reflexivity].
    sim_op (sim_get v1 v2 Hv p p' Hp). rewrite (R_nl a b) by assumption. reflexivity.
Qed.

Definition wsim (w1 w2 : view) : Prop := lazy = true -> vsim w1 w2.
Variable opt : bool.

Definition ME (n : nat) : Prop := forall v1 v2 w1 w2 p p' f f' c c' stk, vsim v1 v2 -> wsim w1 w2 -> P p p' -> okf f f' ->
  crel c c' -> forallb aok stk = true -> rrel crel (eval opt n v1 w1 p f c stk) (eval opt n v2 w2 p' f' c' stk).
Definition MReq (n : nat) : Prop := forall v1 v2 w1 w2 p p' f f' c c' a i l, vsim v1 v2 -> wsim w1 w2 -> P p p' -> okf f f' ->
  crel c c' -> forallb pok l = true ->
  rrel (fun x y => P (fst x) (fst y) /\ crel (snd x) (snd y)) (req_loop opt n v1 w1 p f c a i l) (req_loop opt n v2 w2 p' f' c' a i l).
Definition MRec (n : nat) : Prop := forall v1 v2 w1 w2 p p' f f' c c' b i l tl, vsim v1 v2 -> wsim w1 w2 -> P p p' -> okf f f' ->
  crel c c' -> forallb pok l = true -> forallb aok tl = true ->
  rrel crel (rec_loop opt n v1 w1 p f c b i l tl) (rec_loop opt n v2 w2 p' f' c' b i l tl).
Definition MLaz (n : nat) : Prop := forall v1 v2 w1 w2 p p' f f' c c' b i l tl, vsim v1 v2 -> vsim w1 w2 -> P p p' -> okf f f' ->
  crel c c' -> forallb pok l = true -> forallb aok tl = true ->
  rrel crel (lazy_loop opt n v1 w1 p f c b i l tl) (lazy_loop opt n v2 w2 p' f' c' b i l tl).
Definition MPos (n : nat) : Prop := forall v1 v2 w1 w2 st st' p p' f f' c c' a b i l tl, vsim v1 v2 -> wsim w1 w2 -> P st st' -> P p p' -> okf f f' ->
  crel c c' -> forallb pok l = true -> forallb aok tl = true ->
  rrel crel (poss_loop opt n v1 w1 st p f c a b i l tl) (poss_loop opt n v2 w2 st' p' f' c' a b i l tl).

Lemma aok_cycle : forall l, forallb pok l = true -> forallb aok (cycle l) = true.
Proof. unfold cycle. induction l; cbn; [reflexivity|]. intros H. apply andb_true_iff in H as [-> H]. auto. Qed.

(** Case analysis on two related outcomes. *)
Ltac both_res H x y := let K := fresh "K" in pose proof H as K;
  match type of K with rrel _ ?X ?Y =>
    destruct X as [x| | | |]; destruct Y as [y| | | |]; cbn [rrel] in K;
    try contradiction; try exact I; try (exact K) end.

Theorem sim_all : forall n, ME n /\ MReq n /\ MRec n /\ MLaz n /\ MPos n.
Proof.
  induction n as [|n (HE & HRq & HRc & HLz & HPs)].
  { split; [|split; [|split; [|split]]]; repeat intro; exact I. }
  assert (Body : forall v1 v2 w1 w2 p p' f f' c c' l, vsim v1 v2 -> wsim w1 w2 -> P p p' -> okf f f' -> crel c c' -> forallb pok l = true ->
    rrel crel (eval opt n v1 w1 p (not_empty_match f) c (cycle l)) (eval opt n v2 w2 p' (not_empty_match f') c' (cycle l))).
  { intros. apply HE; auto using aok_cycle. }
  split; [|split; [|split; [|split]]].
  - intros v1 v2 w1 w2 p p' f f' c c' stk Hv Hw Hp Hf Hc Hs.
    destruct stk as [|a tl]; [exact I|].
    cbn [forallb] in Hs. apply andb_true_iff in Hs as [Ha Hs].
    assert (Conv : vconv v1 = vconv v2) by apply Hv.
    destruct (okf_same f f' Hf) as [Fbl Fml].
    destruct a as [r| | | | | | |id].
    + cbn [aok] in Ha.
      destruct r as
      [ k | | t | l | l | | | k a b l | id l | id nm l | id | nm
      | neg l | neg l | l | k | k | a | m ]; cbn [eval]; cbn [pok] in Ha.
      * sim_op (sim_end v1 v2 Hv p p' Hp). subst. destruct b; [exact I|]. sim_op (sim_get v1 v2 Hv p p' Hp).
        rewrite (R_cls f f' k a b) by assumption. destruct (match_cls (f_ci f') k b); [|exact I].
        sim_op (sim_next v1 v2 Hv p p' Hp). apply HE; auto.
      * sim_op (sim_end v1 v2 Hv p p' Hp). subst. destruct b; [exact I|].
        assert (A : opt_rel eq (if f_ml f then option_map (fun x => Z.eqb x 10) (vget v1 p) else Some false)
                               (if f_ml f' then option_map (fun x => Z.eqb x 10) (vget v2 p') else Some false)).
        { rewrite Fml. destruct (f_ml f'); [|constructor; reflexivity].
          destruct (sim_get v1 v2 Hv p p' Hp); cbn [option_map]; constructor. apply R_nl. assumption. }
        destruct A as [y|x x' ->]; [exact I|]. cbn [or_ub]. destruct x'; [exact I|].
        sim_op (sim_next v1 v2 Hv p p' Hp). apply HE; auto.
      * both_res (string_rel v1 v2 f f' t p p' Hv Hf Ha Hp) q q'. apply HE; auto.
      * destruct l as [|x xs]; [exact I|]. cbn [forallb] in Ha. apply andb_true_iff in Ha as [A1 A2].
        assert (S1 : forallb aok (AR x :: tl) = true) by (cbn; rewrite A1; assumption).
        assert (S2 : forallb aok (AR (RSelect xs) :: tl) = true) by (cbn; rewrite A2; assumption).
        both_res (HE v1 v2 w1 w2 p p' f f' c c' _ Hv Hw Hp Hf Hc S1) q q'. apply HE; auto.
      * destruct l as [|x [|y ys]]; [exact I| |]; cbn [forallb] in Ha; apply andb_true_iff in Ha as [A1 A2]; apply HE; auto.
        -- cbn. rewrite A1. assumption.
        -- cbn. cbn in A2. rewrite A1, A2. assumption.
      * apply HE; auto.
      * exact I.
      * destruct (negb (N.eqb b 0) && N.ltb b a)%bool; [exact I|].
        apply andb_true_iff in Ha as [Hlz Hl]. rewrite Conv.
        destruct k.
        -- destruct (becomes_possessive opt l tl) as [[]|]; [| |exact I].
           ++ apply HE; auto. cbn. rewrite Hl. assumption.
           ++ destruct (vconv v2); [|exact I]. cbn [negb].
              both_res (HRq v1 v2 w1 w2 p p' f f' c c' a 0%N l Hv Hw Hp Hf Hc Hl) q q'. destruct q as [p1 c1], q' as [p2 c2].
              destruct K as [K1 K2]. apply HRc; auto.
        -- destruct (vconv v2); [|exact I]. cbn [negb].
           both_res (HRq v1 v2 w1 w2 p p' f f' c c' a 0%N l Hv Hw Hp Hf Hc Hl) q q'. destruct q as [p1 c1], q' as [p2 c2].
           destruct K as [K1 K2]. cbn [fst snd] in K1, K2. rewrite (P_eqb p p1 p' p2 Hp K1).
           both_res (HE v1 v2 w1 w2 p1 p2 (consumed_something f (negb (Nat.eqb p' p2))) (consumed_something f' (negb (Nat.eqb p' p2))) c1 c2 tl Hv Hw K1 (okf_block _ _ _ Hf) K2 Hs) q q'.
           apply HLz; auto.
        -- destruct (vconv v2); [|exact I]. cbn [negb]. apply HPs; auto.
      * rewrite Conv. destruct (vconv v2); [|exact I].
        destruct (start_rel id p p' c c' Hp Hc) as [|c1 c2 Hc1]; [exact I|]. cbn [or_ill]. apply HE; auto.
        cbn. rewrite Ha. assumption.
      * rewrite Conv. destruct (vconv v2); [|exact I].
        destruct (start_rel id p p' c c' Hp Hc) as [|c1 c2 Hc1]; [exact I|]. cbn [or_ill]. apply HE; auto.
        cbn. rewrite Ha. assumption.
      * rewrite (sim_same v1 v2 Hv Ha). destruct (vsame v2); [|exact I]. cbn [negb].
        destruct (get_id_rel id c c' Hc) as [|s1 s2 (Q1 & Q2 & Q3)]; [exact I|]. cbn [or_ill]. rewrite Q3.
        destruct (s_m s2); [|exact I].
        destruct (s_beg s1) as [b1|], (s_beg s2) as [b2|]; cbn in Q1; try contradiction; try exact I. cbn [or_ub].
        destruct (s_end s1) as [e1|], (s_end s2) as [e2|]; cbn in Q2; try contradiction; try exact I. cbn [or_ub].
        both_res (range_rel Ha n v1 v2 p p' b1 b2 e1 e2 Hv Hp Q1 Q2) q q'.
        destruct q as [q1 m1], q' as [q2 m2]. destruct K as [K1 K2]. cbn [fst snd] in K1, K2. subst.
        destruct m2; [|exact I]. rewrite (P_eqb b1 e1 b2 e2 Q1 Q2). apply HE; auto.
      * rewrite (sim_same v1 v2 Hv Ha). destruct (vsame v2); [|exact I]. cbn [negb].
        destruct (get_name_rel nm c c' Hc) as [|s1 s2 (Q1 & Q2 & Q3)]; [exact I|]. cbn [or_ill]. rewrite Q3.
        destruct (s_m s2); [|exact I].
        destruct (s_beg s1) as [b1|], (s_beg s2) as [b2|]; cbn in Q1; try contradiction; try exact I. cbn [or_ub].
        destruct (s_end s1) as [e1|], (s_end s2) as [e2|]; cbn in Q2; try contradiction; try exact I. cbn [or_ub].
        both_res (range_rel Ha n v1 v2 p p' b1 b2 e1 e2 Hv Hp Q1 Q2) q q'.
        destruct q as [q1 m1], q' as [q2 m2]. destruct K as [K1 K2]. cbn [fst snd] in K1, K2. subst.
        destruct m2; [|exact I]. rewrite (P_eqb b1 e1 b2 e2 Q1 Q2). apply HE; auto.
      * assert (S1 : forallb aok [AR (RSeq l); AEndAhead] = true) by (cbn; rewrite Ha; reflexivity).
        destruct neg; both_res (HE v1 v2 w1 w2 p p' f f' c c' _ Hv Hw Hp Hf Hc S1) q q'; apply HE; auto using crel_unmatch.
      * apply andb_true_iff in Ha as [Hpv Ha].
        assert (S1 : forallb aok [AR (RSeq l); AEndBehind] = true) by (cbn; rewrite Ha; reflexivity).
        destruct neg; both_res (HE (rev_view v1) (rev_view v2) w1 w2 p p' f f' c c' _ (sim_rev v1 v2 Hpv Hv) Hw Hp Hf Hc S1) q q';
          apply HE; auto using crel_unmatch.
      * apply HE; auto. cbn. rewrite Ha. assumption.
      * apply andb_true_iff in Ha as [Hpv Ha]. both_res (around_rel Hpv v1 v2 f f' k p p' Hv Hf Ha Hp) q q'. subst q'. destruct q as [x y].
        destruct (Bool.eqb x y); [exact I|]. apply HE; auto.
      * apply andb_true_iff in Ha as [Hpv Ha]. both_res (around_rel Hpv v1 v2 f f' k p p' Hv Hf Ha Hp) q q'. subst q'. destruct q as [x y].
        destruct (Bool.eqb x y); [|exact I]. apply HE; auto.
      * rewrite Fml. both_res (assert_rel v1 v2 (f_ml f') a p p' Ha Hv Hp) q q'. subst q'. destruct q; [|exact I]. apply HE; auto.
      * apply HE; auto.
    + cbn [eval]. destruct tl; [|exact I]. apply crel_matched. assumption.
    + cbn [eval]. rewrite Conv. destruct (vconv v2); [|exact I]. apply HE; auto using crel_start.
    + cbn [eval]. rewrite Conv. destruct (vconv v2); [|exact I]. apply HE; auto using crel_end.
    + cbn [eval]. destruct tl; [|exact I]. rewrite Conv. destruct (vconv v2); [|exact I]. cbn [negb].
      rewrite Fbl. destruct (f_block f'); [exact I|]. apply crel_matched, crel_end; assumption.
    + cbn [eval]. destruct tl; [|exact I]. apply crel_matched. assumption.
    + cbn [eval]. destruct tl; [|exact I]. apply crel_matched. assumption.
    + cbn [eval]. rewrite Conv. destruct (vconv v2); [|exact I].
      destruct (end_rel id p p' c c' Hp Hc) as [|c1 c2 Hc1]; [exact I|]. cbn [or_ill]. apply HE; auto.
  - intros v1 v2 w1 w2 p p' f f' c c' a i l Hv Hw Hp Hf Hc Hl. cbn [req_loop].
    destruct (less_than a i); [|split; assumption].
    both_res (Body v1 v2 w1 w2 p p' f f' c c' l Hv Hw Hp Hf Hc Hl) q q'.
    destruct (end_slot_rel q q' K) as [|p1 p2 Hp1]; [exact I|]. cbn [or_ub]. apply HRq; auto using crel_unmatch.
  - intros v1 v2 w1 w2 p p' f f' c c' b i l tl Hv Hw Hp Hf Hc Hl Ht. cbn [rec_loop].
    assert (Now : rrel crel (eval opt n v1 w1 p (consumed_something f true) c tl) (eval opt n v2 w2 p' (consumed_something f' true) c' tl))
      by (apply HE; auto).
    destruct (less_than_or_infinite b i); [|exact Now].
    both_res (Body v1 v2 w1 w2 p p' f f' c c' l Hv Hw Hp Hf Hc Hl) q q'; [|exact Now].
    destruct (end_slot_rel q q' K) as [|p1 p2 Hp1]; [exact I|]. cbn [or_ub].
    both_res (HRc v1 v2 w1 w2 p1 p2 f f' (unmatch q) (unmatch q') b (N.succ i) l tl Hv Hw Hp1 Hf (crel_unmatch _ _ K) Hl Ht) r r'.
    exact Now.
  - intros v1 v2 w1 w2 p p' f f' c c' b i l tl Hv Hw Hp Hf Hc Hl Ht. cbn [lazy_loop].
    assert (Hw' : wsim w1 w2) by (intros _; assumption).
    destruct (less_than_or_infinite b i); [|apply HE; auto].
    both_res (Body v1 v2 w1 w2 p p' f f' c c' l Hv Hw' Hp Hf Hc Hl) q q'.
    destruct (end_slot_rel q q' K) as [|p1 p2 Hp1]; [exact I|]. cbn [or_ub].
    both_res (HE w1 w2 w1 w2 p1 p2 (consumed_something f true) (consumed_something f' true) (unmatch q) (unmatch q') tl Hw Hw' Hp1 (okf_block _ _ _ Hf) (crel_unmatch _ _ K) Ht) r r'.
    apply HLz; auto using crel_unmatch.
  - intros v1 v2 w1 w2 st st' p p' f f' c c' a b i l tl Hv Hw Hst Hp Hf Hc Hl Ht. cbn [poss_loop].
    assert (Now : rrel crel (eval opt n v1 w1 p (consumed_something f (negb (Nat.eqb st p))) c tl)
                            (eval opt n v2 w2 p' (consumed_something f' (negb (Nat.eqb st' p'))) c' tl)).
    { rewrite (P_eqb st p st' p' Hst Hp). apply HE; auto. }
    destruct (less_than_or_infinite b i); [|exact Now].
    both_res (Body v1 v2 w1 w2 p p' f f' c c' l Hv Hw Hp Hf Hc Hl) q q'.
    + destruct (end_slot_rel q q' K) as [|p1 p2 Hp1]; [exact I|]. cbn [or_ub]. apply HPs; auto using crel_unmatch.
    + destruct (less_than a i); [exact I|exact Now].
Qed.

(** * The entry points *)
Variables (v1 v2 w1 w2 : view) (f f' : flags) (r : re).
Hypothesis Hv : vsim v1 v2.
Hypothesis Hw : wsim w1 w2.
Hypothesis Hf : okf f f'.
Hypothesis Hr : pok r = true.

Lemma crel_fresh : crel (fresh r) (fresh r).
Proof.
  split; [repeat split|]. cbn [fresh cl]. induction (find_captures r) as [|x l IH]; [constructor|].
  cbn [map]. constructor; [|exact IH]. split; [reflexivity|]. repeat split.
Qed.
Lemma sim_match : forall n p p', P p p' -> rrel crel (exec_match opt n v1 w1 f r p) (exec_match opt n v2 w2 f' r p').
Proof.
  intros n p p' Hp. unfold exec_match.
  assert (S1 : forallb aok [AStart; AR r; AR (RAssert ASubjectEnd); AEnd; AAccept] = true) by (cbn; rewrite Hr; reflexivity).
  both_res (proj1 (sim_all n) v1 v2 w1 w2 p p' f f' (fresh r) (fresh r) _ Hv Hw Hp Hf crel_fresh S1) q q'. cbn. apply crel_fresh.
Qed.
Lemma sim_attempt : forall n p p', P p p' ->
  rrel crel (eval opt n v1 w1 p f (fresh r) [AStart; AR r; AEnd; AAccept]) (eval opt n v2 w2 p' f' (fresh r) [AStart; AR r; AEnd; AAccept]).
Proof.
  intros n p p' Hp. apply (proj1 (sim_all n)); auto using crel_fresh. cbn. rewrite Hr. reflexivity.
Qed.
Lemma sim_starts : forall n p p', P p p' -> rrel crel (exec_starts_with opt n v1 w1 f r p) (exec_starts_with opt n v2 w2 f' r p').
Proof.
  intros n p p' Hp. unfold exec_starts_with. both_res (sim_attempt n p p' Hp) q q'. cbn. apply crel_fresh.
Qed.
Lemma sim_search : forall n p p', P p p' -> rrel crel (exec_search opt n v1 w1 f r p) (exec_search opt n v2 w2 f' r p').
Proof.
  intros n p p' Hp. unfold exec_search. generalize n at 2 4. intros m. revert p p' Hp.
  induction m as [|m IH]; intros p p' Hp; [exact I|]. cbn [search_loop].
  unfold starts_with_anchor. rewrite (anchor_flags f f') by (apply (okf_same f f' Hf)).
  sim_op (sim_end v1 v2 Hv p p' Hp). subst. destruct (negb b && negb (anchor_re f' r false))%bool.
  - both_res (sim_attempt n p p' Hp) q q'. sim_op (sim_next v1 v2 Hv p p' Hp). apply IH. assumption.
  - unfold search_last. both_res (sim_attempt n p p' Hp) q q'. cbn. apply crel_end; [assumption|apply crel_fresh].
Qed.
End Sim.
