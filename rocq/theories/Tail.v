(** Exchanging the end of the evaluation stack: the content of a lookahead is matched exactly as the
    same pattern at the top level. *)
From Coq Require Import List ZArith NArith Bool Lia Arith.
From Verif Require Import Chars Syntax First View Eval Api EvalMono EvalInv ApiProofs.
Import ListNotations.

(** No group has number 0. *)
Fixpoint pos_ids (r : re) : bool :=
  match r with
  | RSelect l | RSeq l | RRep _ _ _ l | RAhead _ l | RBehind _ l | RAtomic l => forallb pos_ids l
  | RCap id l | RNCap id _ l => negb (Nat.eqb id 0) && forallb pos_ids l
  | _ => true
  end.
Definition pos_atom (a : atom) : bool :=
  match a with AR r => pos_ids r | ANum id => negb (Nat.eqb id 0) | _ => true end.

Lemma ids_pos : forall r O, ids_ok O r = true -> pos_ids r = true.
Proof.
  refine (re_ind2 _ (fun l => forall O, forallb (ids_ok O) l = true -> forallb pos_ids l = true) _ _ _ _ _ _ _ _ _ _ _ _ _ _ _ _ _ _ _ _ _);
    try reflexivity; try (intros; reflexivity); intros; cbn [ids_ok pos_ids forallb] in *; eauto.
  - apply andb_true_iff in H1 as [H1 H2]. rewrite (H _ H1), (H0 _ H2). reflexivity.
  - apply andb_true_iff in H0 as [H1 H2]. rewrite (H _ H2). cbn [existsb] in H1. destruct (Nat.eqb i 0); [discriminate|reflexivity].
  - apply andb_true_iff in H0 as [H1 H2]. rewrite (H _ H2). cbn [existsb] in H1. destruct (Nat.eqb i 0); [discriminate|reflexivity].
Qed.

Definition Rc (c c' : caps) : Prop := cl c = cl c' /\ s_m (c0 c) = false /\ s_m (c0 c') = false.
Definition RR {A} (Q : A -> A -> Prop) (x y : res A) : Prop :=
  match x, y with
  | Fuel, _ => True
  | Ok a, Ok b => Q a b
  | No, No | UB, UB | Ill, Ill => True
  | _, _ => False
  end.
Definition Qcyc (a b : caps) : Prop := cl a = cl b /\ s_end (c0 a) = s_end (c0 b).
Definition Qcl (a b : caps) : Prop := cl a = cl b.
Definition Qreq (a b : nat * caps) : Prop := fst a = fst b /\ Rc (snd a) (snd b).

Record tails (T1 T2 : list atom) (k : nat) (V : view -> Prop) (Q : caps -> caps -> Prop) : Prop := {
  tl_first : forall acc, first_stack T1 acc = first_stack T2 acc;
  tl_eval : forall opt n v w cur f c c', V v -> Rc c c' ->
    RR Q (eval opt n v w cur f c T1) (eval opt (n + k) v w cur f c' T2) }.

Definition anyv (v : view) : Prop := True.
Lemma tails_cycle : forall k, tails [AEndCycle] [AEndCycle] k anyv Qcyc.
Proof.
  intros k. constructor; [reflexivity|]. intros opt [|n] v w cur f c c' _ (H & _); [exact I|]. cbn [plus eval].
  destruct (vconv v); [|exact I]. destruct (f_block f); [exact I|]. split; [exact H|reflexivity].
Qed.
Lemma tails_ahead : forall k, tails [AEndAhead] [AEndAhead] k anyv Qcl.
Proof. intros k. constructor; [reflexivity|]. intros opt [|n] v w cur f c c' _ (H & _); [exact I|]. exact H. Qed.
Lemma tails_behind : forall k, tails [AEndBehind] [AEndBehind] k anyv Qcl.
Proof. intros k. constructor; [reflexivity|]. intros opt [|n] v w cur f c c' _ (H & _); [exact I|]. exact H. Qed.
Lemma tails_top : tails [AEnd; AAccept] [AEndAhead] 0 (fun v => vconv v = true) Qcl.
Proof.
  constructor; [reflexivity|]. intros opt [|[|n]] v w cur f c c' Hv (H & _); try exact I;
    cbn [plus eval]; rewrite Hv; [exact I|exact H].
Qed.

Lemma Rc_c0 : forall c c' x y, Rc c c' -> s_m x = false -> s_m y = false -> Rc (mkCaps x (cl c)) (mkCaps y (cl c')).
Proof. intros c c' x y (H & _) Hx Hy. split; [exact H|]. split; assumption. Qed.
Lemma Rc_unmatch : forall a b, cl a = cl b -> Rc (unmatch a) (unmatch b).
Proof. intros a b H. split; [exact H|]. split; reflexivity. Qed.
Lemma Rc_upd : forall id g c c', id <> 0 -> Rc c c' ->
  match upd_caps id g c, upd_caps id g c' with
  | Some a, Some b => Rc a b
  | None, None => True
  | _, _ => False
  end.
Proof.
  intros id g c c' Hid (H1 & H2 & H3). unfold upd_caps. destruct (Nat.eqb_spec id 0); [contradiction|].
  rewrite H1. destruct (upd_id id g (cl c')); [|exact I]. split; [reflexivity|]. split; assumption.
Qed.

Definition TE (n : nat) : Prop := forall T1 T2 k (V : view -> Prop) Q w, V w -> tails T1 T2 k V Q ->
  forall opt v cur f c c' pre, V v -> Rc c c' -> forallb inner pre = true -> forallb pos_atom pre = true ->
  RR Q (eval opt n v w cur f c (pre ++ T1)) (eval opt (n + k) v w cur f c' (pre ++ T2)).
Definition TReq (n : nat) : Prop := forall k opt v w cur f c c' a i l, Rc c c' -> forallb pos_ids l = true ->
  RR Qreq (req_loop opt n v w cur f c a i l) (req_loop opt (n + k) v w cur f c' a i l).
Definition TLaz (n : nat) : Prop := forall T1 T2 k (V : view -> Prop) Q w, V w -> tails T1 T2 k V Q ->
  forall opt v cur f c c' b i l pre, V v -> Rc c c' -> forallb pos_ids l = true -> forallb inner pre = true -> forallb pos_atom pre = true ->
  RR Q (lazy_loop opt n v w cur f c b i l (pre ++ T1)) (lazy_loop opt (n + k) v w cur f c' b i l (pre ++ T2)).
Definition TPos (n : nat) : Prop := forall T1 T2 k (V : view -> Prop) Q w, V w -> tails T1 T2 k V Q ->
  forall opt v st cur f c c' a b i l pre, V v -> Rc c c' -> forallb pos_ids l = true -> forallb inner pre = true -> forallb pos_atom pre = true ->
  RR Q (poss_loop opt n v w st cur f c a b i l (pre ++ T1)) (poss_loop opt (n + k) v w st cur f c' a b i l (pre ++ T2)).
Definition TRec (n : nat) : Prop := forall T1 T2 k (V : view -> Prop) Q w, V w -> tails T1 T2 k V Q ->
  forall opt v cur f c c' b i l pre, V v -> Rc c c' -> forallb pos_ids l = true -> forallb inner pre = true -> forallb pos_atom pre = true ->
  RR Q (rec_loop opt n v w cur f c b i l (pre ++ T1)) (rec_loop opt (n + k) v w cur f c' b i l (pre ++ T2)).

Lemma body_same : forall n, TE n -> forall k opt v w cur f c c' l, Rc c c' -> forallb pos_ids l = true ->
  RR Qcyc (eval opt n v w cur f c (cycle l)) (eval opt (n + k) v w cur f c' (cycle l)).
Proof.
  intros n HE k opt v w cur f c c' l Hc Hl. unfold cycle.
  apply (HE [AEndCycle] [AEndCycle] k anyv Qcyc w I (tails_cycle k)); auto; [exact I| |].
  - clear. induction l; [reflexivity|assumption].
  - clear -Hl. induction l as [|x l IH]; [reflexivity|]. cbn in *. apply andb_true_iff in Hl as [-> Hl]. auto.
Qed.
Lemma look_same : forall n, TE n -> forall k t v w opt cur f c c' l, t = AEndAhead \/ t = AEndBehind -> Rc c c' -> forallb pos_ids l = true ->
  RR Qcl (eval opt n v w cur f c [AR (RSeq l); t]) (eval opt (n + k) v w cur f c' [AR (RSeq l); t]).
Proof.
  intros n HE k t v w opt cur f c c' l Ht Hc Hl.
  assert (Hp : forallb pos_atom [AR (RSeq l)] = true) by (cbn [forallb pos_atom pos_ids]; rewrite Hl; reflexivity).
  destruct Ht as [-> | ->].
  - apply (HE [AEndAhead] [AEndAhead] k anyv Qcl w I (tails_ahead k) opt v cur f c c' [AR (RSeq l)]); auto; exact I.
  - apply (HE [AEndBehind] [AEndBehind] k anyv Qcl w I (tails_behind k) opt v cur f c c' [AR (RSeq l)]); auto; exact I.
Qed.
Lemma RR_seq : forall Q (x1 x2 y1 y2 : res caps), RR Q x1 x2 -> RR Q y1 y2 ->
  RR Q (match x1 with Ok a => Ok a | No => y1 | Fuel => Fuel | UB => UB | Ill => Ill end)
       (match x2 with Ok a => Ok a | No => y2 | Fuel => Fuel | UB => UB | Ill => Ill end).
Proof. intros Q x1 x2 y1 y2 H1 H2. destruct x1, x2; cbn in *; auto; contradiction. Qed.

(** Case analysis on two related results. *)
Ltac both H :=
  match type of H with RR _ ?x ?y =>
    destruct x; try exact I; destruct y; cbn [RR] in H; try contradiction; try exact I end.

Theorem tail_all : forall n, TE n /\ TReq n /\ TLaz n /\ TPos n /\ TRec n.
Proof.
  induction n as [|n (HE & HRq & HLz & HPs & HRc)].
  { split; [|split; [|split; [|split]]]; repeat intro; exact I. }
  split; [|split; [|split; [|split]]].
  - intros T1 T2 k0 V Q w Vw HT opt v cur f c c' pre Vv Hc Hi Hp.
    destruct pre as [|a pre]; [apply (tl_eval _ _ _ _ _ HT); assumption|].
    cbn [forallb] in Hi, Hp. apply andb_true_iff in Hi as [Ha Hi]. apply andb_true_iff in Hp as [Hpa Hp].
    assert (Push : forall cur f c c' pre', Rc c c' -> forallb inner pre' = true -> forallb pos_atom pre' = true ->
      RR Q (eval opt n v w cur f c (pre' ++ pre ++ T1)) (eval opt (n + k0) v w cur f c' (pre' ++ pre ++ T2))).
    { intros cur1 f1 c1 c1' pre' H1 H2 H3. rewrite !app_assoc.
      apply (HE T1 T2 k0 V Q w Vw HT); auto; rewrite forallb_app; [rewrite H2, Hi|rewrite H3, Hp]; reflexivity. }
    assert (Next : forall cur f c c', Rc c c' -> RR Q (eval opt n v w cur f c (pre ++ T1)) (eval opt (n + k0) v w cur f c' (pre ++ T2))).
    { intros cur1 f1 c1 c1' H1. apply (Push cur1 f1 c1 c1' []); auto. }
    destruct a as [r| | | | | | |id]; try discriminate; cbn [app].
    + cbn [pos_atom] in Hpa.
      destruct r as [ k | | t | l | l | | | k a b l | id l | id nm l | id | nm | neg l | neg l | l | k | k | a | m ]; cbn [plus eval].
      * destruct (vend v cur) as [[|]|]; cbn [or_ub]; try exact I.
        destruct (vget v cur); cbn [or_ub]; try exact I.
        destruct (match_cls _ _ _); try exact I.
        destruct (vnext v cur); cbn [or_ub]; try exact I. auto.
      * destruct (vend v cur) as [[|]|]; cbn [or_ub]; try exact I.
        destruct (if f_ml f then _ else _) as [[|]|]; cbn [or_ub]; try exact I.
        destruct (vnext v cur); cbn [or_ub]; try exact I. auto.
      * destruct (match_string v (f_ci f) t cur); try exact I. auto.
      * destruct l as [|x xs]; [exact I|]. cbn [pos_ids forallb] in Hpa. apply andb_true_iff in Hpa as [P1 P2].
        apply RR_seq; [apply (Push cur f c c' [AR x]) | apply (Push cur f c c' [AR (RSelect xs)])]; auto;
          cbn [forallb pos_atom pos_ids]; [rewrite P1|rewrite P2]; reflexivity.
      * destruct l as [|x [|y ys]]; [exact I| |]; cbn [pos_ids forallb] in Hpa; apply andb_true_iff in Hpa as [P1 P2].
        -- apply (Push cur f c c' [AR x]); auto. cbn [forallb pos_atom]. rewrite P1. reflexivity.
        -- apply (Push cur f c c' [AR x; AR (RSeq (y :: ys))]); auto. cbn [forallb pos_atom pos_ids]. rewrite P1, P2. reflexivity.
      * auto.
      * exact I.
      * cbn [pos_ids] in Hpa. destruct (negb (N.eqb b 0) && N.ltb b a); [exact I|].
        destruct k.
        -- assert (E : becomes_possessive opt l (pre ++ T1) = becomes_possessive opt l (pre ++ T2)).
           { unfold becomes_possessive, calculate_first. destruct opt; [|reflexivity].
             rewrite (first_stack_ext pre T1 T2 (tl_first _ _ _ _ _ HT)). reflexivity. }
           rewrite E. destruct (becomes_possessive opt l (pre ++ T2)) as [[|]|]; [ | |exact I].
           ++ apply (Push cur f c c' [AR (RRep Possessive a b l)]); auto. cbn [forallb pos_atom pos_ids]. rewrite Hpa. reflexivity.
           ++ destruct (vconv v); cbn [negb]; [|exact I].
              pose proof (HRq k0 opt v w cur f c c' a 0%N l Hc Hpa) as H. both H.
              destruct a0 as [p1 c1], a1 as [p2 c2]. destruct H as [H1 H2]. cbn [fst snd] in *. subst p2.
              apply (HRc T1 T2 k0 V Q w Vw HT); auto.
        -- destruct (vconv v); cbn [negb]; [|exact I].
           pose proof (HRq k0 opt v w cur f c c' a 0%N l Hc Hpa) as H. both H.
           destruct a0 as [p1 c1], a1 as [p2 c2]. destruct H as [H1 H2]. cbn [fst snd] in *. subst p2.
           apply RR_seq; [auto|]. apply (HLz T1 T2 k0 V Q w Vw HT); auto.
        -- destruct (vconv v); cbn [negb]; [|exact I]. apply (HPs T1 T2 k0 V Q w Vw HT); auto.
      * destruct (vconv v); [|exact I]. cbn [pos_ids] in Hpa. apply andb_true_iff in Hpa as [P1 P2].
        pose proof (Rc_upd id (fun s => mkSlot (Some cur) (s_end s) (s_m s)) c c' ltac:(intros ->; discriminate) Hc) as H.
        unfold start_capture. destruct (upd_caps id _ c) as [a|], (upd_caps id _ c') as [b|]; try contradiction; [|exact I].
        cbn [or_ill]. apply (Push cur f a b [AR (RSeq l); ANum id]); auto. cbn [forallb pos_atom pos_ids]. rewrite P1, P2. reflexivity.
      * destruct (vconv v); [|exact I]. cbn [pos_ids] in Hpa. apply andb_true_iff in Hpa as [P1 P2].
        pose proof (Rc_upd id (fun s => mkSlot (Some cur) (s_end s) (s_m s)) c c' ltac:(intros ->; discriminate) Hc) as H.
        unfold start_capture. destruct (upd_caps id _ c) as [a|], (upd_caps id _ c') as [b|]; try contradiction; [|exact I].
        cbn [or_ill]. apply (Push cur f a b [AR (RSeq l); ANum id]); auto. cbn [forallb pos_atom pos_ids]. rewrite P1, P2. reflexivity.
      * destruct (vsame v); cbn [negb]; [|exact I]. destruct Hc as (C1 & C2 & C3).
        unfold get_id. destruct (Nat.eqb id 0).
        { cbn [or_ill]. rewrite C2, C3. exact I. }
        rewrite <- C1. destruct (find_id id (cl c)) as [sl|]; cbn [or_ill]; [|exact I].
        destruct (s_m sl); [|exact I].
        destruct (s_beg sl) as [b|]; cbn [or_ub]; [|exact I].
        destruct (s_end sl) as [e|]; cbn [or_ub]; [|exact I].
        destruct (match_range_mono n (n + k0) v cur b e ltac:(lia)) as [M|M]; [rewrite M; exact I|]. rewrite <- M.
        destruct (match_range_loop n v cur b e) as [[p [|]]| | | |]; try exact I.
        apply Next. split; auto.
      * destruct (vsame v); cbn [negb]; [|exact I]. destruct Hc as (C1 & C2 & C3).
        rewrite <- C1. destruct (get_name nm (cl c)) as [sl|]; cbn [or_ill]; [|exact I].
        destruct (s_m sl); [|exact I].
        destruct (s_beg sl) as [b|]; cbn [or_ub]; [|exact I].
        destruct (s_end sl) as [e|]; cbn [or_ub]; [|exact I].
        destruct (match_range_mono n (n + k0) v cur b e ltac:(lia)) as [M|M]; [rewrite M; exact I|]. rewrite <- M.
        destruct (match_range_loop n v cur b e) as [[p [|]]| | | |]; try exact I.
        apply Next. split; auto.
      * cbn [pos_ids] in Hpa.
        pose proof (look_same n HE k0 AEndAhead v w opt cur f c c' l (or_introl eq_refl) Hc Hpa) as H.
        destruct neg; both H; auto. apply Next. apply Rc_unmatch. exact H.
      * cbn [pos_ids] in Hpa.
        pose proof (look_same n HE k0 AEndBehind (rev_view v) w opt cur f c c' l (or_intror eq_refl) Hc Hpa) as H.
        destruct neg; both H; auto. apply Next. apply Rc_unmatch. exact H.
      * apply (Push cur f c c' [AR (RRep Possessive 1 1 l)]); auto. cbn [forallb pos_atom pos_ids] in *. rewrite Hpa. reflexivity.
      * destruct (around v _ _ cur) as [[x y]| | | |]; try exact I.
        destruct (Bool.eqb x y); [exact I | auto].
      * destruct (around v _ _ cur) as [[x y]| | | |]; try exact I.
        destruct (Bool.eqb x y); [auto | exact I].
      * destruct (eval_assert v (f_ml f) a cur) as [[|]| | | |]; try exact I. auto.
      * auto.
    + cbn [plus eval]. destruct (vconv v); [|exact I]. apply Next. destruct Hc as (C1 & C2 & C3). split; auto.
    + cbn [plus eval]. destruct (vconv v); [|exact I]. apply Next. destruct Hc as (C1 & C2 & C3). split; auto.
    + cbn [plus eval]. destruct (vconv v); [|exact I]. cbn [pos_atom] in Hpa.
      pose proof (Rc_upd id (fun s => mkSlot (s_beg s) (Some cur) true) c c' ltac:(intros ->; discriminate) Hc) as H.
      unfold end_capture. destruct (upd_caps id _ c) as [a|], (upd_caps id _ c') as [b|]; try contradiction; [|exact I].
      cbn [or_ill]. auto.
  - intros k0 opt v w cur f c c' a i l Hc Hl. cbn [plus req_loop].
    destruct (less_than a i); [|split; [reflexivity|exact Hc]].
    pose proof (body_same n HE k0 opt v w cur (not_empty_match f) c c' l Hc Hl) as H. both H.
    destruct H as [H1 H2]. rewrite H2. destruct (s_end (c0 a1)); cbn [or_ub]; [|exact I].
    apply HRq; [apply Rc_unmatch|]; assumption.
  - intros T1 T2 k0 V Q w Vw HT opt v cur f c c' b i l pre Vv Hc Hl Hi Hp. cbn [plus lazy_loop].
    destruct (less_than_or_infinite b i); [|apply (HE T1 T2 k0 V Q w Vw HT); auto].
    pose proof (body_same n HE k0 opt v w cur (not_empty_match f) c c' l Hc Hl) as H. both H.
    destruct H as [H1 H2]. rewrite H2. destruct (s_end (c0 a0)); cbn [or_ub]; [|exact I].
    apply RR_seq; [apply (HE T1 T2 k0 V Q w Vw HT)|apply (HLz T1 T2 k0 V Q w Vw HT)]; auto using Rc_unmatch.
  - intros T1 T2 k0 V Q w Vw HT opt v st cur f c c' a b i l pre Vv Hc Hl Hi Hp. cbn [plus poss_loop].
    destruct (less_than_or_infinite b i); [|apply (HE T1 T2 k0 V Q w Vw HT); auto].
    pose proof (body_same n HE k0 opt v w cur (not_empty_match f) c c' l Hc Hl) as H. both H.
    + destruct H as [H1 H2]. rewrite H2. destruct (s_end (c0 a1)); cbn [or_ub]; [|exact I].
      apply (HPs T1 T2 k0 V Q w Vw HT); auto using Rc_unmatch.
    + destruct (less_than a i); [exact I|]. apply (HE T1 T2 k0 V Q w Vw HT); auto.
  - intros T1 T2 k0 V Q w Vw HT opt v cur f c c' b i l pre Vv Hc Hl Hi Hp. cbn [plus rec_loop].
    destruct (less_than_or_infinite b i); [|apply (HE T1 T2 k0 V Q w Vw HT); auto].
    pose proof (body_same n HE k0 opt v w cur (not_empty_match f) c c' l Hc Hl) as H. both H.
    + destruct H as [H1 H2]. rewrite H2. destruct (s_end (c0 a0)); cbn [or_ub]; [|exact I].
      apply RR_seq; [apply (HRc T1 T2 k0 V Q w Vw HT)|apply (HE T1 T2 k0 V Q w Vw HT)]; auto using Rc_unmatch.
    + apply (HE T1 T2 k0 V Q w Vw HT); auto.
Qed.

(** * Lookahead as a whole pattern *)
Lemma fresh_ahead : forall neg r, fresh (RAhead neg [r]) = fresh r.
Proof. intros neg r. unfold fresh. cbn [find_captures]. rewrite app_nil_r. reflexivity. Qed.

(** The content of a lookahead at the top level: [n] steps there are enough for both. *)
Lemma ahead_content : forall opt n v f r p, vconv v = true -> pos_ids r = true ->
  RR Qcl (eval opt n v v p f (set_start_mark p (fresh r)) [AR r; AEnd; AAccept])
         (eval opt (S n) v v p f (set_start_mark p (fresh r)) [AR (RSeq [r]); AEndAhead]).
Proof.
  intros opt n v f r p Hv Hr. cbn [eval].
  destruct (tail_all n) as (HE & _).
  pose proof (HE [AEnd; AAccept] [AEndAhead] 0 (fun v => vconv v = true) Qcl v Hv tails_top opt v p f
    (set_start_mark p (fresh r)) (set_start_mark p (fresh r)) [AR r] Hv) as H.
  rewrite Nat.add_0_r in H. apply H; [|reflexivity|cbn; rewrite Hr; reflexivity].
  split; [reflexivity|]. split; reflexivity.
Qed.

Lemma ahead_attempt : forall opt n n' s f r p c neg x, pos_ids r = true ->
  attempt opt n' s f (RAhead neg [r]) p = x -> attempt opt n s f r p = c -> x <> Fuel -> c <> Fuel ->
  match c with
  | Ok c => if neg then x = No else exists c', x = Ok c' /\ cl c' = cl c /\ s_end (c0 c') = Some p
  | No => if neg then exists c', x = Ok c' /\ cl c' = cl (fresh r) /\ s_end (c0 c') = Some p else x = No
  | UB => x = UB
  | Ill => x = Ill
  | Fuel => False
  end.
Proof.
  intros opt n n' s f r p c neg x Hr Hx Hc Nx Nc. subst x c. unfold attempt in *. rewrite fresh_ahead in *.
  destruct n as [|n]; [contradiction Nc; reflexivity|]. cbn [eval] in Nc. cbn [eval].
  cbn [arr_view vconv] in *. fold (arr_view s) in *.
  pose proof (ahead_content opt n (arr_view s) f r p eq_refl Hr) as H.
  set (big := n + n' + 5).
  assert (E : eval opt n' (arr_view s) (arr_view s) p f (fresh r) [AStart; AR (RAhead neg [r]); AEnd; AAccept]
            = eval opt big (arr_view s) (arr_view s) p f (fresh r) [AStart; AR (RAhead neg [r]); AEnd; AAccept]).
  { symmetry. eapply eval_mono; [|reflexivity|exact Nx]. unfold big; lia. }
  rewrite E. clear E Nx.
  set (X := eval opt n (arr_view s) (arr_view s) p f (set_start_mark p (fresh r)) [AR r; AEnd; AAccept]) in *.
  assert (Eb : exists k, big = S (S (S (S k))) /\ n <= k) by (exists (n + n' + 1); unfold big; split; lia).
  destruct Eb as (k & -> & Hk). clearbody X.
  assert (E2 : eval opt (S (S k)) (arr_view s) (arr_view s) p f (set_start_mark p (fresh r)) [AR (RSeq [r]); AEndAhead]
             = eval opt (S n) (arr_view s) (arr_view s) p f (set_start_mark p (fresh r)) [AR (RSeq [r]); AEndAhead]).
  { eapply eval_mono; [|reflexivity|]; [lia|]. intros E. rewrite E in H. destruct X; try contradiction. }
  assert (Tl : forall c, eval opt (S (S k)) (arr_view s) (arr_view s) p f c [AEnd; AAccept] = Ok (set_matched (set_end_mark p c))) by reflexivity.
  remember (S (S k)) as k1 eqn:Ek. cbn [eval]. cbn [arr_view vconv]. fold (arr_view s). rewrite E2.
  destruct neg;
    destruct X; cbn [RR] in H; try contradiction;
    destruct (eval opt (S n) (arr_view s) (arr_view s) p f (set_start_mark p (fresh r)) [AR (RSeq [r]); AEndAhead]); try contradiction; try reflexivity;
    rewrite Tl; eexists; (split; [reflexivity|]); cbn; auto.
Qed.
