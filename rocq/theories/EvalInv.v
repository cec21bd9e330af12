(** Invariants of the evaluator that hold for every pattern: no undefined behaviour on array subjects,
    spans inside the subject, and every success passes through the end of the stack. *)
From Coq Require Import List ZArith NArith Bool Arith Lia.
From Verif Require Import Chars Syntax First View Eval Api EvalMono.
Import ListNotations.

(** * Views on which a step inside [0 .. len] is always defined *)
Record safe (len : nat) (v : view) : Prop := {
  sf_end : forall p, p <= len -> exists b, vend v p = Some b;
  sf_beg : forall p, p <= len -> exists b, vbeg v p = Some b;
  sf_next : forall p, p <= len -> vend v p = Some false ->
    exists q x, vnext v p = Some q /\ q <= len /\ vprev v q = Some p /\ vget v p = Some x;
  sf_prev : forall p, p <= len -> vbeg v p = Some false ->
    exists q x, vprev v p = Some q /\ q <= len /\ vnext v q = Some p /\ vget v q = Some x;
  sf_mono : vconv v = true -> forall p q, vnext v p = Some q -> p <= q;
  sf_conv : vsame v = true -> vconv v = true;
  sf_same : vsame v = true ->
    (forall p, vend v p = Some (Nat.eqb p len)) /\
    (forall p, p < len -> exists x, vget v p = Some x) /\
    (forall p, p < len -> vnext v p = Some (S p))
}.

Lemma safe_arr : forall s, safe (length s) (arr_view s).
Proof.
  intros s. constructor; cbn [arr_view vend vbeg vget vnext vprev vconv vsame]; auto.
  - intros p _. eexists; reflexivity.
  - intros p _. eexists; reflexivity.
  - intros p Hp He. injection He as He. apply Nat.eqb_neq in He.
    assert (Hlt : p < length s) by lia.
    destruct (nth_error s p) as [x|] eqn:Hx; [|apply nth_error_None in Hx; lia].
    exists (S p), x. apply Nat.ltb_lt in Hlt as Hb. rewrite Hb. repeat split; auto.
  - intros p Hp Hb. injection Hb as Hb. apply Nat.eqb_neq in Hb.
    destruct p as [|p]; [lia|].
    destruct (nth_error s p) as [x|] eqn:Hx; [|apply nth_error_None in Hx; lia].
    exists p, x. assert (Hlt : p < length s) by lia. apply Nat.ltb_lt in Hlt. rewrite Hlt.
    repeat split; auto; lia.
  - intros _ p q. destruct (Nat.ltb p (length s)); intros H; inversion H; lia.
  - intros _. split; [|split].
    + reflexivity.
    + intros p Hp. destruct (nth_error s p) as [x|] eqn:Hx; [eauto|].
      apply nth_error_None in Hx; lia.
    + intros p Hp. apply Nat.ltb_lt in Hp. rewrite Hp. reflexivity.
Qed.

Lemma safe_rev : forall len v, safe len v -> safe len (rev_view v).
Proof.
  intros len v S. constructor; cbn [rev_view vend vbeg vget vnext vprev vconv vsame]; auto.
  - apply (sf_beg _ _ S).
  - apply (sf_end _ _ S).
  - intros p Hp Hb. destruct (sf_prev _ _ S p Hp Hb) as (q & x & H1 & H2 & H3 & H4).
    exists q, x. rewrite H1. auto.
  - intros p Hp He. destruct (sf_next _ _ S p Hp He) as (q & x & H1 & H2 & H3 & H4).
    exists q, x. rewrite H3. auto.
  - discriminate.
  - discriminate.
Qed.

(** * Capture groups are not nested in a group of the same number; no group has number 0 *)
Fixpoint ids_ok (O : list nat) (r : re) : bool :=
  match r with
  | RSelect l | RSeq l | RRep _ _ _ l | RAhead _ l | RBehind _ l | RAtomic l =>
      forallb (ids_ok O) l
  | RCap id l | RNCap id _ l =>
      negb (existsb (Nat.eqb id) (0 :: O)) && forallb (ids_ok (id :: O)) l
  | _ => true
  end.

(** The part of the stack above a fixed suffix; [O]: groups open now, [O0]: open at the suffix. *)
Fixpoint pre_ok (O : list nat) (pre : list atom) (O0 : list nat) : Prop :=
  match pre with
  | [] => O = O0
  | AR r :: tl => ids_ok O r = true /\ pre_ok O tl O0
  | ANum id :: tl => match O with i :: O' => i = id /\ ~ In i O' /\ pre_ok O' tl O0 | [] => False end
  | _ => False
  end.

Lemma pre_incl : forall pre O O0, pre_ok O pre O0 -> incl O0 O.
Proof.
  induction pre as [|a pre IH]; cbn; intros O O0 H.
  - subst. apply incl_refl.
  - destruct a; try contradiction.
    + apply IH. tauto.
    + destruct O as [|i O']; [contradiction|]. destruct H as (_ & _ & H).
      apply incl_tl. apply IH. assumption.
Qed.

Definition ids (c : caps) : list nat := map (fun e => fst (fst e)) (cl c).

Record Inv (len lo : nat) (O : list nat) (c : caps) : Prop := {
  i_dup : NoDup (ids c);
  i_pos : ~ In 0 O;
  i_c0 : s_m (c0 c) = false;
  i_span : forall id sl, find_id id (cl c) = Some sl -> s_m sl = true ->
    exists b e, s_beg sl = Some b /\ s_end sl = Some e /\ e <= len /\
                (b <= e \/ (In id O /\ b <= lo));
  i_open : forall id, In id O -> exists sl b, find_id id (cl c) = Some sl /\ s_beg sl = Some b
                                              /\ b <= lo;
  i_blank : forall id sl, find_id id (cl c) = Some sl -> s_m sl = false ->
    s_end sl = None /\ (s_beg sl = None \/ In id O)
}.

Definition rel (c c1 : caps) (O : list nat) : Prop :=
  map fst (cl c1) = map fst (cl c) /\ s_beg (c0 c1) = s_beg (c0 c) /\
  forall id, In id O ->
    option_map s_beg (find_id id (cl c1)) = option_map s_beg (find_id id (cl c)).

Lemma rel_refl : forall c O, rel c c O.
Proof. intros c O. repeat split. Qed.
Lemma rel_trans : forall a b c O O', incl O' O -> rel a b O -> rel b c O' -> rel a c O'.
Proof.
  intros a b c O O' HI (A1 & A2 & A3) (B1 & B2 & B3).
  repeat split; try congruence. intros id Hid. rewrite B3 by auto. apply A3. auto.
Qed.
Lemma rel_incl : forall a b O O', incl O' O -> rel a b O -> rel a b O'.
Proof. intros a b O O' HI (A1 & A2 & A3). repeat split; auto. Qed.

Lemma Inv_lower : forall len lo lo' O O0 c c1,
  Inv len lo O c -> incl O0 O -> rel c c1 O0 -> Inv len lo' O0 c1 -> Inv len lo O0 c1.
Proof.
  intros len lo lo' O O0 c c1 I HI (R1 & R2 & R3) I1. constructor.
  - apply (i_dup _ _ _ _ I1).
  - apply (i_pos _ _ _ _ I1).
  - apply (i_c0 _ _ _ _ I1).
  - intros id sl Hf Hm.
    destruct (i_span _ _ _ _ I1 id sl Hf Hm) as (b & e & H1 & H2 & H3 & H4).
    exists b, e. repeat split; auto. destruct H4 as [H4 | [H4 H5]]; auto. right. split; auto.
    specialize (R3 id H4). destruct (i_open _ _ _ _ I id (HI _ H4)) as (sl0 & b0 & E1 & E2 & E3).
    rewrite Hf, E1 in R3. cbn in R3. congruence.
  - intros id Hid. destruct (i_open _ _ _ _ I id (HI _ Hid)) as (sl0 & b0 & E1 & E2 & E3).
    specialize (R3 id Hid). rewrite E1 in R3. cbn in R3.
    destruct (find_id id (cl c1)) as [sl|] eqn:Hs; cbn in R3; [|discriminate].
    exists sl, b0. repeat split; congruence.
  - apply (i_blank _ _ _ _ I1).
Qed.

Lemma Inv_raise : forall len lo lo' O c, lo <= lo' -> Inv len lo O c -> Inv len lo' O c.
Proof.
  intros len lo lo' O c Hle I. constructor; try apply I.
  - intros id sl Hf Hm.
    destruct (i_span _ _ _ _ I id sl Hf Hm) as (b & e & H1 & H2 & H3 & H4).
    exists b, e. repeat split; auto. destruct H4 as [H4 | [H4 H5]]; auto.
    right; split; auto; lia.
  - intros id Hid. destruct (i_open _ _ _ _ I id Hid) as (sl & b & H1 & H2 & H3).
    exists sl, b; repeat split; auto; lia.
Qed.

(** ** Updates *)
Lemma upd_id_map : forall id g l l', upd_id id g l = Some l' -> map fst l' = map fst l.
Proof.
  induction l as [|[[i nm] s] l IH]; cbn; intros l' H; [discriminate|].
  destruct (Nat.eqb i id).
  - injection H as <-. reflexivity.
  - destruct (upd_id id g l) as [t|]; [|discriminate]. injection H as <-. cbn.
    f_equal. auto.
Qed.
Lemma find_upd_same : forall id g l l', upd_id id g l = Some l' ->
  exists sl, find_id id l = Some sl /\ find_id id l' = Some (g sl).
Proof.
  induction l as [|[[i nm] s] l IH]; cbn; intros l' H; [discriminate|].
  destruct (Nat.eqb i id) eqn:E.
  - injection H as <-. cbn. rewrite E. eauto.
  - destruct (upd_id id g l) as [t|]; [|discriminate]. injection H as <-. cbn. rewrite E.
    apply IH. reflexivity.
Qed.
Lemma find_upd_other : forall id id' g l l', id <> id' -> upd_id id g l = Some l' ->
  find_id id' l' = find_id id' l.
Proof.
  induction l as [|[[i nm] s] l IH]; cbn; intros l' Hn H; [discriminate|].
  destruct (Nat.eqb i id) eqn:E.
  - injection H as <-. cbn. apply Nat.eqb_eq in E. subst i.
    apply Nat.eqb_neq in Hn. rewrite Hn. reflexivity.
  - destruct (upd_id id g l) as [t|]; [|discriminate]. injection H as <-. cbn.
    destruct (Nat.eqb i id'); auto.
Qed.
Lemma ids_map : forall c c', map fst (cl c') = map fst (cl c) -> ids c' = ids c.
Proof.
  intros c c' H. unfold ids.
  assert (E : forall l : list entry, map (fun e => fst (fst e)) l = map fst (map fst l))
    by (intros l; rewrite map_map; reflexivity).
  rewrite !E, H. reflexivity.
Qed.

Lemma Inv_start : forall len lo O c id p c', Inv len lo O c -> id <> 0 -> ~ In id O ->
  lo <= p -> p <= len -> start_capture id p c = Some c' ->
  Inv len p (id :: O) c' /\ rel c c' O.
Proof.
  intros len lo O c id p c' I H0 Hn Hlo Hp H.
  unfold start_capture, upd_caps in H. apply Nat.eqb_neq in H0 as H0'. rewrite H0' in H.
  destruct (upd_id id _ (cl c)) as [l|] eqn:E; [|discriminate]. injection H as <-.
  pose proof (upd_id_map _ _ _ _ E) as Em.
  destruct (find_upd_same _ _ _ _ E) as (sl & F1 & F2).
  split.
  - constructor; cbn [c0 cl].
    + rewrite (ids_map c (mkCaps (c0 c) l) Em). apply (i_dup _ _ _ _ I).
    + intros [->|Hin]; [congruence|]. apply (i_pos _ _ _ _ I Hin).
    + apply (i_c0 _ _ _ _ I).
    + intros id' sl' Hf Hm. destruct (Nat.eq_dec id id') as [<-|Hne].
      * rewrite F2 in Hf. injection Hf as <-. cbn in *.
        destruct (i_span _ _ _ _ I id sl F1 Hm) as (b & e & _ & E2 & E3 & _).
        exists p, e. repeat split; auto.
      * rewrite (find_upd_other _ _ _ _ _ Hne E) in Hf.
        destruct (i_span _ _ _ _ I id' sl' Hf Hm) as (b & e & E1 & E2 & E3 & E4).
        exists b, e. repeat split; auto. destruct E4 as [E4|[E4 E5]]; auto.
        right; split; [right; assumption | lia].
    + intros id' [<-|Hin].
      * eexists _, p. repeat split; [exact F2 | reflexivity | lia].
      * destruct (i_open _ _ _ _ I id' Hin) as (sl' & b & E1 & E2 & E3).
        exists sl', b. repeat split; auto; [|lia].
        rewrite (find_upd_other id id' _ _ _ ltac:(congruence) E). assumption.
    + intros id' sl' Hf Hm. destruct (Nat.eq_dec id id') as [<-|Hne].
      * rewrite F2 in Hf. injection Hf as <-. cbn in *.
        split; [apply (i_blank _ _ _ _ I id sl F1 Hm)|right; left; reflexivity].
      * rewrite (find_upd_other _ _ _ _ _ Hne E) in Hf.
        destruct (i_blank _ _ _ _ I id' sl' Hf Hm) as [E1 [E2|E2]]; split; auto. right; right; assumption.
  - repeat split; auto. intros id' Hin. cbn.
    rewrite (find_upd_other id id' _ _ _ ltac:(congruence) E). reflexivity.
Qed.

Lemma Inv_end : forall len lo O c id p c', Inv len lo (id :: O) c -> ~ In id O ->
  lo <= p -> p <= len -> end_capture id p c = Some c' ->
  Inv len lo O c' /\ rel c c' O.
Proof.
  intros len lo O c id p c' I Hn Hlo Hp H.
  assert (H0 : id <> 0) by (intros ->; apply (i_pos _ _ _ _ I); left; reflexivity).
  unfold end_capture, upd_caps in H. apply Nat.eqb_neq in H0 as H0'. rewrite H0' in H.
  destruct (upd_id id _ (cl c)) as [l|] eqn:E; [|discriminate]. injection H as <-.
  pose proof (upd_id_map _ _ _ _ E) as Em.
  destruct (find_upd_same _ _ _ _ E) as (sl & F1 & F2).
  split.
  - constructor; cbn [c0 cl].
    + rewrite (ids_map c (mkCaps (c0 c) l) Em). apply (i_dup _ _ _ _ I).
    + intros Hin. apply (i_pos _ _ _ _ I). right; auto.
    + apply (i_c0 _ _ _ _ I).
    + intros id' sl' Hf Hm. destruct (Nat.eq_dec id id') as [<-|Hne].
      * rewrite F2 in Hf. injection Hf as <-. cbn in *.
        destruct (i_open _ _ _ _ I id ltac:(left; reflexivity)) as (sl' & b & E1 & E2 & E3).
        rewrite F1 in E1. injection E1 as <-.
        exists b, p. repeat split; auto. left; lia.
      * rewrite (find_upd_other _ _ _ _ _ Hne E) in Hf.
        destruct (i_span _ _ _ _ I id' sl' Hf Hm) as (b & e & E1 & E2 & E3 & E4).
        exists b, e. repeat split; auto. destruct E4 as [E4|[[E4|E4] E5]]; auto; congruence.
    + intros id' Hin. destruct (i_open _ _ _ _ I id' ltac:(right; auto)) as (sl' & b & E1 & E2 & E3).
      exists sl', b. repeat split; auto.
      rewrite (find_upd_other id id' _ _ _ ltac:(congruence) E). assumption.
    + intros id' sl' Hf Hm. destruct (Nat.eq_dec id id') as [<-|Hne].
      * rewrite F2 in Hf. injection Hf as <-. cbn in Hm. discriminate.
      * rewrite (find_upd_other _ _ _ _ _ Hne E) in Hf.
        destruct (i_blank _ _ _ _ I id' sl' Hf Hm) as [E1 [E2|[E2|E2]]]; split; auto; congruence.
  - repeat split; auto. intros id' Hin. cbn.
    rewrite (find_upd_other id id' _ _ _ ltac:(congruence) E). reflexivity.
Qed.

(** Changes of the outer capture are invisible to the invariant. *)
Lemma Inv_c0 : forall len lo O c c', cl c' = cl c -> s_m (c0 c') = false ->
  Inv len lo O c -> Inv len lo O c'.
Proof.
  intros len lo O c c' E Hm I.
  constructor; unfold ids; rewrite ?E; try apply I; assumption.
Qed.

(** ** A named group is found under its number *)
Lemma find_id_in : forall id nm sl l, NoDup (map (fun e : entry => fst (fst e)) l) ->
  In (id, nm, sl) l -> find_id id l = Some sl.
Proof.
  induction l as [|[[i n0] s0] l IH]; cbn; intros Hd Hin; [contradiction|].
  inversion Hd; subst. destruct Hin as [Hin|Hin].
  - injection Hin as -> -> ->. rewrite Nat.eqb_refl. reflexivity.
  - destruct (Nat.eqb i id) eqn:E; [|auto]. apply Nat.eqb_eq in E. subst.
    exfalso. apply H1. apply in_map_iff. exists (id, nm, sl). auto.
Qed.
Lemma get_name_in : forall nm l sl, get_name nm l = Some sl ->
  exists id, In (id, Some nm, sl) l.
Proof.
  induction l as [|[[i n0] s0] l IH]; cbn; intros sl H; [discriminate|].
  destruct n0 as [n0|].
  - unfold name_eqb in H. destruct (list_eq_dec Z.eq_dec nm n0).
    + injection H as <-. subst. eauto.
    + destruct (IH _ H) as [id Hin]. eauto.
  - destruct (IH _ H) as [id Hin]. eauto.
Qed.

(** * Pieces that do not recurse *)
Lemma match_string_safe : forall len v ci str cur, safe len v -> cur <= len ->
  match match_string v ci str cur with
  | Ok p => p <= len /\ (vconv v = true -> cur <= p)
  | No => True
  | _ => False
  end.
Proof.
  intros len v ci str. induction str as [|ch tl IH]; cbn; intros cur S Hc.
  - auto.
  - destruct (sf_end _ _ S cur Hc) as [[|] He]; rewrite He; cbn; auto.
    destruct (sf_next _ _ S cur Hc He) as (q & x & H1 & H2 & H3 & H4).
    rewrite H4, H1. cbn. destruct (match_lit ci ch x); auto.
    specialize (IH q S H2). destruct (match_string v ci tl q); auto.
    destruct IH as [I1 I2]. split; auto. intros Hv. specialize (I2 Hv).
    pose proof (sf_mono _ _ S Hv cur q H1). lia.
Qed.

Lemma match_range_safe : forall len n v cur b e, safe len v -> vsame v = true ->
  cur <= len -> e <= len -> (b <= e \/ b <= cur) ->
  match match_range_loop n v cur b e with
  | Ok (p, _) => p <= len /\ cur <= p
  | Fuel => True
  | _ => False
  end.
Proof.
  intros len n v cur b e Sv Hs. destruct (sf_same _ _ Sv Hs) as (S1 & S2 & S3).
  revert cur b. induction n as [|n IH]; cbn; intros cur b Hc He Hb; auto.
  rewrite S1. cbn.
  destruct (Nat.eqb cur len) eqn:E1; cbn; [auto|].
  destruct (Nat.eqb e b) eqn:E2; cbn; [auto|].
  apply Nat.eqb_neq in E1, E2.
  destruct (S2 cur ltac:(lia)) as [x Hx]. destruct (S2 b ltac:(lia)) as [y Hy].
  rewrite Hx, Hy. cbn. destruct (Z.eqb x y); [|auto].
  rewrite !S3 by lia. cbn.
  specialize (IH (S cur) (S b) ltac:(lia) He ltac:(lia)).
  destruct (match_range_loop n v (S cur) (S b) e) as [[p q]| | | |]; auto; lia.
Qed.

Lemma around_safe : forall len v ci k cur, safe len v -> cur <= len ->
  exists x y, around v ci k cur = Ok (x, y).
Proof.
  intros len v ci k cur S Hc. unfold around.
  destruct (sf_end _ _ S cur Hc) as [e He]. rewrite He. cbn.
  destruct (sf_beg _ _ S cur Hc) as [b Hb]. rewrite Hb. cbn.
  assert (A : exists a, (if e then Some false else option_map (match_cls ci k) (vget v cur))
                        = Some a).
  { destruct e; [eauto|]. destruct (sf_next _ _ S cur Hc He) as (q & x & _ & _ & _ & H4).
    rewrite H4. cbn. eauto. }
  destruct A as [a ->]. cbn. destruct b; cbn; [eauto|].
  destruct (sf_prev _ _ S cur Hc Hb) as (q & x & H1 & _ & _ & H4). rewrite H1, H4. cbn. eauto.
Qed.

Lemma assert_safe : forall len v ml a cur, safe len v -> cur <= len ->
  exists x, eval_assert v ml a cur = Ok x.
Proof.
  intros len v ml a cur S Hc.
  destruct (sf_end _ _ S cur Hc) as [e He]. destruct (sf_beg _ _ S cur Hc) as [b Hb].
  destruct a; cbn; rewrite ?He, ?Hb; cbn; eauto.
  - destruct e; eauto. destruct ml; eauto.
    destruct (sf_next _ _ S cur Hc He) as (q & x & H1 & H2 & H3 & H4). rewrite H4. cbn.
    destruct (Z.eqb x 10); eauto. rewrite H1. cbn.
    destruct (sf_end _ _ S q H2) as [e' He']. rewrite He'. cbn. eauto.
  - destruct b; eauto. destruct ml; eauto.
    destruct (sf_prev _ _ S cur Hc Hb) as (q & x & H1 & H2 & H3 & H4). rewrite H1. cbn.
    rewrite H4. cbn. eauto.
  - destruct e; eauto. destruct ml; eauto.
    destruct (sf_next _ _ S cur Hc He) as (q & x & H1 & H2 & H3 & H4). rewrite H4. cbn. eauto.
Qed.

(** * Every success (and every undefined behaviour) comes from the suffix of the stack *)
Definition from_suffix (len lo : nat) (opt : bool) (n : nat) (v w : view) (cur : nat) (c : caps)
    (sfx : list atom) (O0 : list nat) (x : res caps) : Prop :=
  match x with
  | Ok _ | UB =>
      exists n' cur' f' c1, n' <= n /\ x = eval opt n' v w cur' f' c1 sfx /\ cur' <= len /\
        (vconv v = true -> cur <= cur') /\ Inv len lo O0 c1 /\ rel c c1 O0
  | _ => True
  end.

Lemma from_suffix_weaken : forall len lo opt n n' v w cur cur' c c' sfx O O0 x,
  n' <= n -> (vconv v = true -> cur <= cur') -> incl O0 O -> rel c c' O ->
  from_suffix len lo opt n' v w cur' c' sfx O0 x -> from_suffix len lo opt n v w cur c sfx O0 x.
Proof.
  intros len lo opt n n' v w cur cur' c c' sfx O O0 x Hn Hc HI HR H.
  destruct x; cbn in *; auto; destruct H as (m & q & f' & c1 & H1 & H2 & H3 & H4 & H5 & H6);
    exists m, q, f', c1; (split; [lia|]); (split; [assumption|]); (split; [assumption|]);
    (split; [intros Hv; specialize (Hc Hv); specialize (H4 Hv); lia|]); (split; [assumption|]);
    apply (rel_trans c c' c1 O O0); auto.
Qed.

(** One body evaluation [cycle content]. *)
Definition cycle_post (len lo : nat) (v : view) (cur : nat) (c : caps) (O : list nat)
    (x : res caps) : Prop :=
  match x with
  | Ok c' => exists p, s_end (c0 c') = Some p /\ p <= len /\ (vconv v = true -> cur <= p)
                       /\ Inv len lo O (unmatch c') /\ rel c (unmatch c') O
  | UB => False
  | _ => True
  end.

Definition req_post (len lo : nat) (v : view) (cur : nat) (c : caps) (O : list nat)
    (x : res (nat * caps)) : Prop :=
  match x with
  | Ok (p, c') => p <= len /\ (vconv v = true -> cur <= p) /\ Inv len lo O c' /\ rel c c' O
  | UB => False
  | _ => True
  end.

Definition setting (len lo : nat) (v w : view) (cur : nat) (O : list nat) (c : caps) : Prop :=
  safe len v /\ safe len w /\ (vconv v = true -> v = w) /\ cur <= len /\ Inv len lo O c /\
  (vconv v = true -> lo <= cur).

Lemma pre_seq : forall l O O0 tl, forallb (ids_ok O) l = true -> pre_ok O tl O0 ->
  pre_ok O (map AR l ++ tl) O0.
Proof.
  induction l as [|x l IH]; cbn; intros O O0 tl H Ht; auto.
  apply andb_true_iff in H as [H1 H2]. split; auto.
Qed.

Lemma neg_exists : forall id O, negb (existsb (Nat.eqb id) (0 :: O)) = true -> id <> 0 /\ ~ In id O.
Proof.
  intros id O H. apply negb_true_iff in H. cbn in H. apply orb_false_iff in H as [H1 H2].
  split.
  - apply Nat.eqb_neq. assumption.
  - intros Hin. assert (E : existsb (Nat.eqb id) O = true).
    { apply existsb_exists. exists id. split; auto. apply Nat.eqb_refl. }
    congruence.
Qed.

Ltac weaken := eapply from_suffix_weaken; [ | | apply incl_refl || eassumption | | eassumption].

Ltac sp := unfold setting; repeat match goal with |- _ /\ _ => split end.

Lemma inv_all : forall len n,
  (forall opt lo v w cur f c pre sfx O O0,
     setting len lo v w cur O c -> pre_ok O pre O0 ->
     from_suffix len lo opt n v w cur c sfx O0 (eval opt n v w cur f c (pre ++ sfx))) /\
  (forall opt lo v w cur f c a i l O,
     setting len lo v w cur O c -> forallb (ids_ok O) l = true ->
     req_post len lo v cur c O (req_loop opt n v w cur f c a i l)) /\
  (forall opt lo v w cur f c b i l pre sfx O O0,
     setting len lo v w cur O c -> forallb (ids_ok O) l = true -> pre_ok O pre O0 ->
     vconv v = true ->
     from_suffix len lo opt n v w cur c sfx O0 (lazy_loop opt n v w cur f c b i l (pre ++ sfx))) /\
  (forall opt lo v w st cur f c a b i l pre sfx O O0,
     setting len lo v w cur O c -> forallb (ids_ok O) l = true -> pre_ok O pre O0 ->
     from_suffix len lo opt n v w cur c sfx O0
       (poss_loop opt n v w st cur f c a b i l (pre ++ sfx))) /\
  (forall opt lo v w cur f c b i l pre sfx O O0,
     setting len lo v w cur O c -> forallb (ids_ok O) l = true -> pre_ok O pre O0 ->
     from_suffix len lo opt n v w cur c sfx O0 (rec_loop opt n v w cur f c b i l (pre ++ sfx))).
Proof.
  intros len. induction n as [|n IH].
  { repeat split; intros; exact I. }
  destruct IH as (IHe & IHq & IHl & IHp & IHr).
  (* one iteration *)
  assert (IHc : forall opt lo v w cur f c l O, setting len lo v w cur O c ->
     forallb (ids_ok O) l = true ->
     cycle_post len lo v cur c O (eval opt n v w cur f c (cycle l))).
  { intros opt lo v w cur f c l O Hset Hl.
    unfold cycle.
    pose proof (IHe opt lo v w cur f c (map AR l) [AEndCycle] O O Hset) as H.
    assert (Hp : pre_ok O (map AR l) O).
    { rewrite <- (app_nil_r (map AR l)). apply pre_seq; cbn; auto. }
    specialize (H Hp).
    destruct (eval opt n v w cur f c (map AR l ++ [AEndCycle])) as [c'| | | |] eqn:E; cbn; auto.
    - destruct H as (n' & q & f' & c1 & H1 & H2 & H3 & H4 & H5 & H6).
      destruct n' as [|n']; [discriminate|]. cbn [eval] in H2.
      destruct (vconv v); cbn in H2; [|discriminate].
      destruct (f_block f'); [discriminate|]. injection H2 as ->.
      exists q. cbn. sp; auto.
      + apply (Inv_c0 len lo O c1); auto.
    - destruct H as (n' & q & f' & c1 & H1 & H2 & _).
      destruct n' as [|n']; [discriminate|]. cbn [eval] in H2.
      destruct (vconv v); cbn in H2; [|discriminate].
      destruct (f_block f'); discriminate. }
  (* a lookaround body *)
  assert (IHk : forall opt lo v w cur f c l O m, setting len lo v w cur O c ->
     forallb (ids_ok O) l = true -> m = AEndAhead \/ m = AEndBehind ->
     match eval opt n v w cur f c [AR (RSeq l); m] with
     | Ok c' => Inv len lo O (unmatch c') /\ rel c (unmatch c') O
     | UB => False
     | _ => True
     end).
  { intros opt lo v w cur f c l O m Hset Hl Hm.
    pose proof (IHe opt lo v w cur f c [AR (RSeq l)] [m] O O Hset) as H.
    specialize (H ltac:(cbn; auto)). cbn [app] in H.
    destruct (eval opt n v w cur f c [AR (RSeq l); m]) as [c'| | | |] eqn:E; cbn; auto.
    - destruct H as (n' & q & f' & c1 & H1 & H2 & H3 & H4 & H5 & H6).
      destruct n' as [|n']; [discriminate|]. cbn [eval] in H2.
      assert (Ec : c' = set_matched c1) by (destruct Hm as [-> | ->]; congruence). subst c'.
      split.
      + apply (Inv_c0 len lo O c1); auto.
      + exact H6.
    - destruct H as (n' & q & f' & c1 & H1 & H2 & _).
      destruct n' as [|n']; [discriminate|]. cbn [eval] in H2.
      destruct Hm as [-> | ->]; discriminate. }
  sp.
  - (* eval *)
    intros opt lo v w cur f c pre sfx O O0 Hset Hpre.
    pose proof (pre_incl _ _ _ Hpre) as HI.
    destruct Hset as (Sv & Sw & Hvw & Hcur & HInv & Hlo).
    destruct pre as [|a pre].
    { cbn in Hpre. subst O0. cbn [app].
      destruct (eval opt (S n) v w cur f c sfx) eqn:E; cbn [from_suffix]; auto;
        exists (S n), cur, f, c; sp; auto; apply rel_refl. }
    destruct a as [r| | | | | | |id]; cbn [pre_ok] in Hpre; try contradiction.
    2: { (* numeric mark *)
      cbn [app eval]. destruct O as [|i O']; [contradiction|].
      destruct Hpre as (-> & Hni & Hpre).
      destruct (vconv v) eqn:Hv; [|exact I].
      destruct (end_capture id cur c) as [c'|] eqn:Ee; cbn [or_ill]; [|exact I].
      destruct (Inv_end len lo O' c id cur c' HInv Hni (Hlo eq_refl) Hcur Ee) as [HI' HR].
      assert (Hset' : setting len lo v w cur O' c') by (sp; auto).
      pose proof (IHe opt lo v w cur f c' pre sfx O' O0 Hset' Hpre) as H.
      eapply from_suffix_weaken; [ | | | exact HR | exact H]; auto.
      apply (pre_incl pre); assumption. }
    destruct Hpre as [Hr Hpre].
    assert (Hset : setting len lo v w cur O c) by (sp; auto).
    assert (Htl : forall lo cur' f' c', lo <= lo -> cur' <= len -> (vconv v = true -> cur <= cur') ->
       Inv len lo O c' -> rel c c' O -> (vconv v = true -> lo <= cur') ->
       from_suffix len lo opt (S n) v w cur c sfx O0 (eval opt n v w cur' f' c' (pre ++ sfx))).
    { intros lo2 cur' f' c' _ H1 H2 H3 H4 H5.
      assert (Hset' : setting len lo2 v w cur' O c') by (sp; auto).
      pose proof (IHe opt lo2 v w cur' f' c' pre sfx O O0 Hset' Hpre) as H.
      eapply from_suffix_weaken; [ | | | exact H4 | exact H]; auto. }
    assert (Htl0 : forall f', from_suffix len lo opt (S n) v w cur c sfx O0
                                (eval opt n v w cur f' c (pre ++ sfx))).
    { intros f'. apply Htl; auto. apply rel_refl. }
    assert (Htl1 : forall cur' f', cur' <= len -> (vconv v = true -> cur <= cur') ->
       from_suffix len lo opt (S n) v w cur c sfx O0 (eval opt n v w cur' f' c (pre ++ sfx))).
    { intros cur' f' H1 H2. apply Htl; auto. apply rel_refl.
      intros Hv. specialize (H2 Hv). specialize (Hlo Hv). lia. }
    assert (Hpush : forall f' pre', pre_ok O pre' O ->
       from_suffix len lo opt (S n) v w cur c sfx O0
         (eval opt n v w cur f' c ((pre' ++ pre) ++ sfx))).
    { intros f' pre' Hp'.
      assert (Hp2 : pre_ok O (pre' ++ pre) O0).
      { clear - Hp' Hpre. revert Hp'. generalize O at 1 3 as O1.
        induction pre' as [|a pre' IH']; cbn; intros O1 Hp'.
        - subst. assumption.
        - destruct a; try contradiction.
          + destruct Hp'; split; auto.
          + destruct O1; [contradiction|]. destruct Hp' as (-> & H1 & H2). auto. }
      pose proof (IHe opt lo v w cur f' c (pre' ++ pre) sfx O O0 Hset Hp2) as H.
      eapply from_suffix_weaken; [ | | apply incl_refl | | exact H]; auto.
      apply rel_refl. }
    cbn [app]. destruct r; cbn [eval].
    + (* RCls *)
      destruct (sf_end _ _ Sv cur Hcur) as [e He]. rewrite He. cbn [or_ub].
      destruct e; [exact I|].
      destruct (sf_next _ _ Sv cur Hcur He) as (q & x & H1 & H2 & H3 & H4).
      rewrite H4. cbn [or_ub]. destruct (match_cls _ _ x); [|exact I].
      rewrite H1. cbn [or_ub]. apply Htl1; auto.
      intros Hv. apply (sf_mono _ _ Sv Hv cur q H1).
    + (* RAny *)
      destruct (sf_end _ _ Sv cur Hcur) as [e He]. rewrite He. cbn [or_ub].
      destruct e; [exact I|].
      destruct (sf_next _ _ Sv cur Hcur He) as (q & x & H1 & H2 & H3 & H4).
      assert (E : exists nl, (if f_ml f then option_map (fun x : Z => Z.eqb x 10) (vget v cur)
                              else Some false) = Some nl).
      { destruct (f_ml f); [rewrite H4; cbn|]; eauto. }
      destruct E as [nl ->]. cbn [or_ub]. destruct nl; [exact I|].
      rewrite H1. cbn [or_ub]. apply Htl1; auto.
      intros Hv. apply (sf_mono _ _ Sv Hv cur q H1).
    + (* RStr *)
      pose proof (match_string_safe len v (f_ci f) l cur Sv Hcur) as H.
      destruct (match_string v (f_ci f) l cur); try exact I; try contradiction.
      apply Htl1; tauto.
    + (* RSelect *)
      destruct l as [|x xs]; [exact I|].
      cbn [ids_ok forallb] in Hr. apply andb_true_iff in Hr as [Hx Hxs].
      pose proof (Hpush f [AR x] ltac:(cbn; auto)) as H. cbn [app] in H.
      destruct (eval opt n v w cur f c (AR x :: pre ++ sfx)); try exact H; try exact I.
      apply (Hpush f [AR (RSelect xs)]). cbn; auto.
    + (* RSeq *)
      destruct l as [|x xs]; [exact I|].
      cbn [ids_ok forallb] in Hr. apply andb_true_iff in Hr as [Hx Hxs].
      destruct xs as [|y ys].
      * apply (Hpush f [AR x]). cbn; auto.
      * apply (Hpush f [AR x; AR (RSeq (y :: ys))]). cbn [pre_ok ids_ok]. auto.
    + (* REmpty *) apply Htl0.
    + (* RReject *) exact I.
    + (* RRep *)
      destruct (negb (N.eqb b 0) && N.ltb b a); [exact I|].
      cbn [ids_ok] in Hr.
      assert (Hreq : vconv v = true -> req_post len lo v cur c O (req_loop opt n v w cur f c a 0 content)).
      { intros Hv. apply IHq; auto. }
      destruct k.
      * destruct (becomes_possessive opt content (pre ++ sfx)) as [[|]|]; [| |exact I].
        { apply (Hpush f [AR (RRep Possessive a b content)]). cbn; auto. }
        destruct (vconv v) eqn:Hv; cbn [negb]; [|exact I].
        specialize (Hreq eq_refl).
        destruct (req_loop opt n v w cur f c a 0 content) as [[p c']| | | |]; cbn [req_post] in Hreq;
          try exact I; try contradiction.
        destruct Hreq as (R1 & R2 & R3 & R4). rewrite Hv in R2.
        assert (Hset' : setting len lo v w p O c').
        { sp; auto. intros _. specialize (R2 eq_refl). specialize (Hlo eq_refl). lia. }
        pose proof (IHr opt lo v w p f c' b a content pre sfx O O0 Hset' Hr Hpre) as H.
        eapply from_suffix_weaken; [ | | | exact R4 | exact H]; auto.
      * destruct (vconv v) eqn:Hv; cbn [negb]; [|exact I].
        specialize (Hreq eq_refl).
        destruct (req_loop opt n v w cur f c a 0 content) as [[p c']| | | |]; cbn [req_post] in Hreq;
          try exact I; try contradiction.
        destruct Hreq as (R1 & R2 & R3 & R4). rewrite Hv in R2.
        assert (Hle : lo <= p).
        { specialize (R2 eq_refl). specialize (Hlo eq_refl). lia. }
        assert (Hset' : setting len lo v w p O c') by (sp; auto).
        pose proof (IHl opt lo v w p f c' b a content pre sfx O O0 Hset' Hr Hpre Hv) as H.
        match goal with |- from_suffix _ _ _ _ _ _ _ _ _ _ (match ?e with _ => _ end) =>
          pose proof (Htl lo p (consumed_something f (negb (Nat.eqb cur p))) c' ltac:(lia) R1
            ltac:(intros; apply R2; auto) R3 R4 ltac:(auto)) as H'
        end.
        destruct (eval opt n v w p _ c' (pre ++ sfx)); try exact H'; try exact I.
        eapply from_suffix_weaken; [ | | | exact R4 | exact H]; auto.
      * destruct (vconv v) eqn:Hv; cbn [negb]; [|exact I].
        pose proof (IHp opt lo v w cur cur f c a b 0%N content pre sfx O O0 Hset Hr Hpre) as H.
        eapply from_suffix_weaken; [ | | | | exact H]; auto; [apply incl_refl | apply rel_refl].
    + (* RCap *)
      cbn [ids_ok] in Hr. apply andb_true_iff in Hr as [Hid Hl].
      apply neg_exists in Hid as [Hid0 Hid].
      destruct (vconv v) eqn:Hv; [|exact I].
      destruct (start_capture id cur c) as [c'|] eqn:Es; cbn [or_ill]; [|exact I].
      destruct (Inv_start len lo O c id cur c' HInv Hid0 Hid (Hlo eq_refl) Hcur Es) as [HI' HR].
      assert (Hset' : setting len cur v w cur (id :: O) c') by (sp; auto).
      pose proof (IHe opt cur v w cur f c' (AR (RSeq content) :: ANum id :: pre) sfx (id :: O) O0
                    Hset') as H.
      specialize (H ltac:(cbn [pre_ok ids_ok]; sp; auto)).
      cbn [app] in H.
      destruct (eval opt n v w cur f c' (AR (RSeq content) :: ANum id :: pre ++ sfx));
        cbn [from_suffix] in H |- *; auto;
        destruct H as (n' & q & f' & c1 & H1 & H2 & H3 & H4 & H5 & H6);
        exists n', q, f', c1; sp; auto;
        assert (HR1 : rel c c1 O0) by (apply (rel_trans c c' c1 O O0); auto);
        try apply HR1; apply (Inv_lower len lo cur O O0 c c1); auto.
    + (* RNCap *)
      cbn [ids_ok] in Hr. apply andb_true_iff in Hr as [Hid Hl].
      apply neg_exists in Hid as [Hid0 Hid].
      destruct (vconv v) eqn:Hv; [|exact I].
      destruct (start_capture id cur c) as [c'|] eqn:Es; cbn [or_ill]; [|exact I].
      destruct (Inv_start len lo O c id cur c' HInv Hid0 Hid (Hlo eq_refl) Hcur Es) as [HI' HR].
      assert (Hset' : setting len cur v w cur (id :: O) c') by (sp; auto).
      pose proof (IHe opt cur v w cur f c' (AR (RSeq content) :: ANum id :: pre) sfx (id :: O) O0
                    Hset') as H.
      specialize (H ltac:(cbn [pre_ok ids_ok]; sp; auto)).
      cbn [app] in H.
      destruct (eval opt n v w cur f c' (AR (RSeq content) :: ANum id :: pre ++ sfx));
        cbn [from_suffix] in H |- *; auto;
        destruct H as (n' & q & f' & c1 & H1 & H2 & H3 & H4 & H5 & H6);
        exists n', q, f', c1; sp; auto;
        assert (HR1 : rel c c1 O0) by (apply (rel_trans c c' c1 O O0); auto);
        try apply HR1; apply (Inv_lower len lo cur O O0 c c1); auto.
    + (* RBack *)
      destruct (vsame v) eqn:Hs; cbn [negb]; [|exact I].
      destruct (get_id id c) as [sl|] eqn:Hg; cbn [or_ill]; [|exact I].
      destruct (s_m sl) eqn:Hm; [|exact I].
      unfold get_id in Hg. destruct (Nat.eqb id 0) eqn:H0.
      { injection Hg as <-. rewrite (i_c0 _ _ _ _ HInv) in Hm. discriminate. }
      destruct (i_span _ _ _ _ HInv id sl Hg Hm) as (b & e & E1 & E2 & E3 & E4).
      rewrite E1, E2. cbn [or_ub].
      assert (Hb : b <= e \/ b <= cur).
      { destruct E4 as [E4|[_ E4]]; auto. right.
        specialize (Hlo (sf_conv _ _ Sv Hs)). lia. }
      pose proof (match_range_safe len n v cur b e Sv Hs Hcur E3 Hb) as H.
      destruct (match_range_loop n v cur b e) as [[p [|]]| | | |]; try exact I; try contradiction.
      apply Htl1; tauto.
    + (* RNBack *)
      destruct (vsame v) eqn:Hs; cbn [negb]; [|exact I].
      destruct (get_name name (cl c)) as [sl|] eqn:Hg; cbn [or_ill]; [|exact I].
      destruct (s_m sl) eqn:Hm; [|exact I].
      apply get_name_in in Hg as [id Hin].
      pose proof (find_id_in id _ sl (cl c) (i_dup _ _ _ _ HInv) Hin) as Hg.
      destruct (i_span _ _ _ _ HInv id sl Hg Hm) as (b & e & E1 & E2 & E3 & E4).
      rewrite E1, E2. cbn [or_ub].
      assert (Hb : b <= e \/ b <= cur).
      { destruct E4 as [E4|[_ E4]]; auto. right.
        specialize (Hlo (sf_conv _ _ Sv Hs)). lia. }
      pose proof (match_range_safe len n v cur b e Sv Hs Hcur E3 Hb) as H.
      destruct (match_range_loop n v cur b e) as [[p [|]]| | | |]; try exact I; try contradiction.
      apply Htl1; tauto.
    + (* RAhead *)
      cbn [ids_ok] in Hr.
      pose proof (IHk opt lo v w cur f c content O AEndAhead Hset Hr ltac:(auto)) as H.
      destruct neg; destruct (eval opt n v w cur f c [AR (RSeq content); AEndAhead]);
        try exact I; try contradiction; auto.
      apply Htl; auto; tauto.
    + (* RBehind *)
      cbn [ids_ok] in Hr.
      assert (Hset' : setting len lo (rev_view v) w cur O c).
      { sp; auto; cbn; try discriminate. apply safe_rev; assumption. }
      pose proof (IHk opt lo (rev_view v) w cur f c content O AEndBehind Hset' Hr ltac:(auto)) as H.
      destruct neg; destruct (eval opt n (rev_view v) w cur f c [AR (RSeq content); AEndBehind]);
        try exact I; try contradiction; auto.
      apply Htl; auto; tauto.
    + (* RAtomic *)
      cbn [ids_ok] in Hr.
      apply (Hpush f [AR (RRep Possessive 1 1 content)]). cbn; auto.
    + (* RBound *)
      destruct (around_safe len v (f_ci f) c1 cur Sv Hcur) as (x & y & ->) ||
      (match goal with |- context [around v (f_ci f) ?k cur] =>
         destruct (around_safe len v (f_ci f) k cur Sv Hcur) as (x & y & ->) end).
      destruct (Bool.eqb x y); [exact I | apply Htl0].
    + (* RNotBound *)
      match goal with |- context [around v (f_ci f) ?k cur] =>
        destruct (around_safe len v (f_ci f) k cur Sv Hcur) as (x & y & ->) end.
      destruct (Bool.eqb x y); [apply Htl0 | exact I].
    + (* RAssert *)
      destruct (assert_safe len v (f_ml f) a cur Sv Hcur) as [[|] ->]; [apply Htl0 | exact I].
    + (* RMode *) apply Htl0.
  - (* req_loop *)
    intros opt lo v w cur f c a i l O Hset Hl. cbn [req_loop].
    pose proof Hset as (Sv & Sw & Hvw & Hcur & HInv & Hlo).
    destruct (less_than a i); [|cbn; sp; auto; apply rel_refl].
    pose proof (IHc opt lo v w cur (not_empty_match f) c l O Hset Hl) as H.
    destruct (eval opt n v w cur (not_empty_match f) c (cycle l)) as [c'| | | |];
      try exact I; try contradiction.
    destruct H as (p & H1 & H2 & H3 & H4 & H5). rewrite H1. cbn [or_ub].
    assert (Hset' : setting len lo v w p O (unmatch c')).
    { sp; auto. intros Hv. specialize (H3 Hv). specialize (Hlo Hv). lia. }
    pose proof (IHq opt lo v w p f (unmatch c') a (N.succ i) l O Hset' Hl) as H.
    destruct (req_loop opt n v w p f (unmatch c') a (N.succ i) l) as [[q c2]| | | |];
      try exact I; try contradiction.
    destruct H as (K1 & K2 & K3 & K4). cbn. sp; auto.
    + intros Hv. specialize (H3 Hv). specialize (K2 Hv). lia.
    + apply (rel_trans c (unmatch c') c2 O O); auto. apply incl_refl.
  - (* lazy_loop *)
    intros opt lo v w cur f c b i l pre sfx O O0 Hset Hl Hpre Hv. cbn [lazy_loop].
    pose proof Hset as (Sv & Sw & Hvw & Hcur & HInv & Hlo).
    pose proof (pre_incl _ _ _ Hpre) as HI.
    assert (Htl : forall f', from_suffix len lo opt (S n) v w cur c sfx O0
                                (eval opt n v w cur f' c (pre ++ sfx))).
    { intros f'. pose proof (IHe opt lo v w cur f' c pre sfx O O0 Hset Hpre) as H.
      eapply from_suffix_weaken; [ | | apply incl_refl | apply rel_refl | exact H]; auto. }
    destruct (less_than_or_infinite b i); [|apply Htl].
    pose proof (IHc opt lo v w cur (not_empty_match f) c l O Hset Hl) as H.
    destruct (eval opt n v w cur (not_empty_match f) c (cycle l)) as [c'| | | |];
      try exact I; try contradiction.
    destruct H as (p & H1 & H2 & H3 & H4 & H5). rewrite H1. cbn [or_ub].
    assert (Hset' : setting len lo v w p O (unmatch c')).
    { sp; auto. intros _. specialize (H3 Hv). specialize (Hlo Hv). lia. }
    rewrite <- (Hvw Hv).
    assert (Hset2 : setting len lo v v p O (unmatch c')).
    { rewrite (Hvw Hv) in Hset' |- *. assumption. }
    pose proof (IHe opt lo v v p (consumed_something f true) (unmatch c') pre sfx O O0 Hset2 Hpre)
      as H.
    pose proof (IHl opt lo v v p f (unmatch c') b (N.succ i) l pre sfx O O0 Hset2 Hl Hpre Hv) as H'.
    destruct (eval opt n v v p (consumed_something f true) (unmatch c') (pre ++ sfx));
      try exact I;
      (eapply from_suffix_weaken; [ | | | exact H5 | first [exact H | exact H']]; auto).
  - (* poss_loop *)
    intros opt lo v w st cur f c a b i l pre sfx O O0 Hset Hl Hpre. cbn [poss_loop].
    pose proof Hset as (Sv & Sw & Hvw & Hcur & HInv & Hlo).
    pose proof (pre_incl _ _ _ Hpre) as HI.
    assert (Htl : forall f', from_suffix len lo opt (S n) v w cur c sfx O0
                                (eval opt n v w cur f' c (pre ++ sfx))).
    { intros f'. pose proof (IHe opt lo v w cur f' c pre sfx O O0 Hset Hpre) as H.
      eapply from_suffix_weaken; [ | | apply incl_refl | apply rel_refl | exact H]; auto. }
    destruct (less_than_or_infinite b i); [|apply Htl].
    pose proof (IHc opt lo v w cur (not_empty_match f) c l O Hset Hl) as H.
    destruct (eval opt n v w cur (not_empty_match f) c (cycle l)) as [c'| | | |];
      try exact I; try contradiction.
    + destruct H as (p & H1 & H2 & H3 & H4 & H5). rewrite H1. cbn [or_ub].
      assert (Hset' : setting len lo v w p O (unmatch c')).
      { sp; auto. intros Hv. specialize (H3 Hv). specialize (Hlo Hv). lia. }
      pose proof (IHp opt lo v w st p f (unmatch c') a b (N.succ i) l pre sfx O O0 Hset' Hl Hpre)
        as H.
      eapply from_suffix_weaken; [ | | | exact H5 | exact H]; auto.
    + destruct (less_than a i); [exact I | apply Htl].
  - (* rec_loop *)
    intros opt lo v w cur f c b i l pre sfx O O0 Hset Hl Hpre. cbn [rec_loop].
    pose proof Hset as (Sv & Sw & Hvw & Hcur & HInv & Hlo).
    pose proof (pre_incl _ _ _ Hpre) as HI.
    assert (Htl : forall f', from_suffix len lo opt (S n) v w cur c sfx O0
                                (eval opt n v w cur f' c (pre ++ sfx))).
    { intros f'. pose proof (IHe opt lo v w cur f' c pre sfx O O0 Hset Hpre) as H.
      eapply from_suffix_weaken; [ | | apply incl_refl | apply rel_refl | exact H]; auto. }
    destruct (less_than_or_infinite b i); [|apply Htl].
    pose proof (IHc opt lo v w cur (not_empty_match f) c l O Hset Hl) as H.
    destruct (eval opt n v w cur (not_empty_match f) c (cycle l)) as [c'| | | |];
      try exact I; try contradiction; [|apply Htl].
    destruct H as (p & H1 & H2 & H3 & H4 & H5). rewrite H1. cbn [or_ub].
    assert (Hset' : setting len lo v w p O (unmatch c')).
    { sp; auto. intros Hv. specialize (H3 Hv). specialize (Hlo Hv). lia. }
    pose proof (IHr opt lo v w p f (unmatch c') b (N.succ i) l pre sfx O O0 Hset' Hl Hpre) as H.
    destruct (rec_loop opt n v w p f (unmatch c') b (N.succ i) l (pre ++ sfx));
      try exact I; try apply Htl;
      (eapply from_suffix_weaken; [ | | | exact H5 | exact H]; auto).
Qed.
