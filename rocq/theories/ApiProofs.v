(** Whole-call consequences of the evaluator invariants: spans, leftmost search, the chain
    match / starts_with / search, failed results. *)
From Coq Require Import List ZArith NArith Bool Arith Lia.
From Verif Require Import Chars Syntax First View Eval Api EvalMono EvalInv.
Import ListNotations.

(** Group numbers are positive and pairwise different. *)
Definition well_numbered (r : re) : Prop :=
  ids_ok [] r = true /\ NoDup (map fst (find_captures r)).

Lemma find_fresh : forall id l sl,
  find_id id (map (fun p : nat * option (list Z) => (p, empty_slot)) l) = Some sl ->
  sl = empty_slot.
Proof.
  intros id l. induction l as [|[i nm] l IH]; cbn; intros sl H; [discriminate|].
  destruct (Nat.eqb i id); [congruence | auto].
Qed.

Lemma fresh_inv : forall len lo r, NoDup (map fst (find_captures r)) -> Inv len lo [] (fresh r).
Proof.
  intros len lo r Hd. constructor; cbn; auto.
  - unfold ids. cbn. rewrite map_map. cbn. assumption.
  - intros id sl H Hm. apply find_fresh in H. subst. discriminate.
  - contradiction.
  - intros id sl H _. apply find_fresh in H. subst. auto.
Qed.

Lemma arr_setting : forall s lo cur O c, cur <= length s -> lo <= cur ->
  Inv (length s) lo O c -> setting (length s) lo (arr_view s) (arr_view s) cur O c.
Proof. intros. unfold setting. pose proof (safe_arr s). tauto. Qed.

(** Success of an attempt, for any terminal part of the stack. *)
Lemma attempt_spec : forall opt n s f r p sfx,
  well_numbered r -> p <= length s ->
  from_suffix (length s) p opt n (arr_view s) (arr_view s) p (set_start_mark p (fresh r)) sfx []
    (eval opt n (arr_view s) (arr_view s) p f (fresh r) (AStart :: AR r :: sfx)).
Proof.
  intros opt n s f r p sfx [Hi Hd] Hp.
  destruct n as [|n]; [exact I|]. cbn [eval arr_view vconv].
  destruct (inv_all (length s) n) as (He & _).
  assert (Hs : setting (length s) p (arr_view s) (arr_view s) p [] (set_start_mark p (fresh r))).
  { apply arr_setting; auto. apply (Inv_c0 (length s) p [] (fresh r)); auto.
    apply fresh_inv; assumption. }
  pose proof (He opt p (arr_view s) (arr_view s) p f (set_start_mark p (fresh r)) [AR r] sfx [] []
                Hs ltac:(cbn; auto)) as H.
  cbn [app] in H. change (eval opt n (arr_view s) (arr_view s) p f (set_start_mark p (fresh r))
    (AR r :: sfx)) with (eval opt n (arr_view s) (arr_view s) p f (set_start_mark p (fresh r))
    (AR r :: sfx)) in H.
  match goal with |- from_suffix _ _ _ _ _ _ _ _ _ _ ?x => set (X := x) in * end.
  eapply from_suffix_weaken; [ | | apply incl_refl | apply rel_refl | exact H]; auto.
Qed.

Lemma end_accept : forall opt n s p f c x,
  eval opt n (arr_view s) (arr_view s) p f c [AEnd; AAccept] = x ->
  x = Fuel \/ x = Ok (set_matched (set_end_mark p c)).
Proof.
  intros opt n s p f c x H. destruct n as [|n]; [left; subst; reflexivity|]. cbn in H.
  destruct n as [|n]; [left; subst; reflexivity|]. cbn in H. right; congruence.
Qed.

(** The outcome of an attempt [starts_with] at [p]. *)
Definition attempt (opt : bool) (n : nat) (s : list Z) (f : flags) (r : re) (p : nat) : res caps :=
  eval opt n (arr_view s) (arr_view s) p f (fresh r) [AStart; AR r; AEnd; AAccept].

Definition spans_ok (len : nat) (c : caps) : Prop :=
  forall id sl, find_id id (cl c) = Some sl -> s_m sl = true ->
    exists b e, s_beg sl = Some b /\ s_end sl = Some e /\ b <= e /\ e <= len.

Lemma inv_spans : forall len lo c, Inv len lo [] c -> spans_ok len c.
Proof.
  intros len lo c I id sl H Hm.
  destruct (i_span _ _ _ _ I id sl H Hm) as (b & e & H1 & H2 & H3 & H4).
  exists b, e. repeat split; auto. destruct H4 as [H4 | [[] _]]; assumption.
Qed.

Lemma attempt_ok : forall opt n s f r p x, well_numbered r -> p <= length s ->
  attempt opt n s f r p = x ->
  match x with
  | Ok c => matched c = true /\ s_beg (c0 c) = Some p /\
            (exists e, s_end (c0 c) = Some e /\ p <= e <= length s) /\ spans_ok (length s) c /\
            map fst (cl c) = find_captures r
  | UB => False
  | _ => True
  end.
Proof.
  intros opt n s f r p x Hw Hp Hx.
  pose proof (attempt_spec opt n s f r p [AEnd; AAccept] Hw Hp) as H.
  unfold attempt in Hx. rewrite Hx in H.
  destruct x; auto; cbn [from_suffix] in H;
    destruct H as (n' & q & f' & c1 & H1 & H2 & H3 & H4 & H5 & H6);
    symmetry in H2; apply end_accept in H2 as [H2|H2]; try discriminate.
  injection H2 as ->. cbn. destruct H6 as (R1 & R2 & R3).
  split; [reflexivity|]. split; [rewrite R2; reflexivity|].
  split; [exists q; split; [reflexivity|]; specialize (H4 eq_refl); lia|].
  split; [exact (inv_spans _ _ _ H5)|].
  rewrite R1. cbn. rewrite map_map. cbn. apply map_id.
Qed.

Definition whole (opt : bool) (n : nat) (s : list Z) (f : flags) (r : re) (p : nat) : res caps :=
  eval opt n (arr_view s) (arr_view s) p f (fresh r)
    [AStart; AR r; AR (RAssert ASubjectEnd); AEnd; AAccept].

Lemma whole_ok : forall opt n s f r p x, well_numbered r -> p <= length s ->
  whole opt n s f r p = x ->
  match x with
  | Ok c => matched c = true /\ s_beg (c0 c) = Some p /\ s_end (c0 c) = Some (length s) /\
            spans_ok (length s) c /\ map fst (cl c) = find_captures r
  | UB => False
  | _ => True
  end.
Proof.
  intros opt n s f r p x Hw Hp Hx.
  pose proof (attempt_spec opt n s f r p [AR (RAssert ASubjectEnd); AEnd; AAccept] Hw Hp) as H.
  unfold whole in Hx. rewrite Hx in H.
  destruct x; auto; cbn [from_suffix] in H;
    destruct H as (n' & q & f' & c1 & H1 & H2 & H3 & H4 & H5 & H6);
    (destruct n' as [|n']; [discriminate|]);
    cbn [eval eval_assert arr_view vend or_ub] in H2;
    destruct (Nat.eqb q (length s)) eqn:E; try discriminate;
    symmetry in H2; apply end_accept in H2 as [H2|H2]; try discriminate.
  injection H2 as ->. cbn. destruct H6 as (R1 & R2 & R3). apply Nat.eqb_eq in E. subst q.
  split; [reflexivity|]. split; [rewrite R2; reflexivity|]. split; [reflexivity|].
  split; [exact (inv_spans _ _ _ H5)|].
  rewrite R1. cbn. rewrite map_map. cbn. apply map_id.
Qed.

(** * search *)
Lemma search_loop_spec : forall opt n s f r m it x,
  well_numbered r -> it <= length s ->
  starts_with_anchor f r = false ->
  search_loop opt n (arr_view s) (arr_view s) f r m it = x ->
  match x with
  | Ok c =>
      (exists q, it <= q <= length s /\ attempt opt n s f r q = Ok c /\
                 forall p, it <= p < q -> attempt opt n s f r p = No)
      \/ (c = set_end_mark (length s) (fresh r) /\
          forall p, it <= p <= length s -> attempt opt n s f r p = No)
  | UB => False
  | No => False
  | _ => True
  end.
Proof.
  intros opt n s f r. induction m as [|m IH]; intros it x Hw Hit Ha Hx.
  { cbn in Hx. subst x. exact I. }
  cbn [search_loop arr_view vend or_ub] in Hx. rewrite Ha in Hx. cbn [negb andb] in Hx.
  destruct (Nat.eqb it (length s)) eqn:E; cbn [negb andb] in Hx.
  - apply Nat.eqb_eq in E. subst it. unfold search_last in Hx.
    fold (arr_view s) in Hx.
    change (eval opt n (arr_view s) (arr_view s) (length s) f (fresh r)
              [AStart; AR r; AEnd; AAccept]) with (attempt opt n s f r (length s)) in Hx.
    pose proof (attempt_ok opt n s f r (length s) _ Hw Hit eq_refl) as H.
    destruct (attempt opt n s f r (length s)) eqn:Ea; subst x; auto.
    + left. exists (length s). repeat split; auto. intros p Hp. lia.
    + right. split; auto. intros p Hp. assert (p = length s) by lia. subst. assumption.
  - fold (arr_view s) in Hx.
    change (eval opt n (arr_view s) (arr_view s) it f (fresh r)
              [AStart; AR r; AEnd; AAccept]) with (attempt opt n s f r it) in Hx.
    pose proof (attempt_ok opt n s f r it _ Hw Hit eq_refl) as H.
    apply Nat.eqb_neq in E.
    destruct (attempt opt n s f r it) eqn:Ea; subst x; auto.
    + left. exists it. repeat split; auto. intros p Hp. lia.
    + cbn [vnext arr_view]. assert (L : it < length s) by lia. apply Nat.ltb_lt in L as L'.
      rewrite L'. cbn [or_ub].
      specialize (IH (S it) _ Hw L Ha eq_refl).
      destruct (search_loop opt n (arr_view s) (arr_view s) f r m (S it)); auto.
      destruct IH as [(q & Q1 & Q2 & Q3) | (Q1 & Q2)].
      * left. exists q. repeat split; try lia; auto. intros p Hp.
        destruct (Nat.eq_dec p it) as [->|]; auto. apply Q3. lia.
      * right. split; auto. intros p Hp.
        destruct (Nat.eq_dec p it) as [->|]; auto. apply Q2. lia.
Qed.

Lemma search_anchored : forall opt n s f r m it, it <= length s ->
  starts_with_anchor f r = true -> m <> 0 ->
  search_loop opt n (arr_view s) (arr_view s) f r m it =
  search_last opt n (arr_view s) (arr_view s) f r it.
Proof.
  intros opt n s f r m it Hit Ha Hm. destruct m as [|m]; [congruence|].
  cbn [search_loop arr_view vend or_ub]. rewrite Ha.
  destruct (Nat.eqb it (length s)); reflexivity.
Qed.

(** * match, starts_with, search *)

(** Fewer demands at the end of the stack: what a success / a failure becomes. *)
Definition easier {A} (x y : res A) : Prop :=
  match x with
  | Ok _ => exists c, y = Ok c
  | No => y = No \/ exists c, y = Ok c
  | _ => True
  end.

Lemma easier_refl : forall A (x : res A), easier x x.
Proof. intros A []; cbn; eauto. Qed.

Section ReExt.
  Lemma first_ext : forall r k k' acc, (forall a, k a = k' a) -> first_re r k acc = first_re r k' acc.
  Proof.
    intros r.
    apply (re_ind2
      (fun r => forall k k' acc, (forall a, k a = k' a) -> first_re r k acc = first_re r k' acc)
      (fun l => (forall k k' acc, (forall a, k a = k' a) -> first_l l k acc = first_l l k' acc) /\
                (forall k k' acc, (forall a, k a = k' a) ->
                   first_re (RSelect l) k acc = first_re (RSelect l) k' acc))).
    - split; intros; cbn; auto.
    - intros x l Hx [H1 H2]. split; intros k k' acc Hk.
      + cbn. apply Hx. intros a. apply H1. assumption.
      + cbn. rewrite (Hx k k' acc Hk). destruct (first_re x k' acc); auto.
        apply (H2 k k' l0 Hk).
    - reflexivity.
    - reflexivity.
    - intros [|z l] k k' acc Hk; cbn; auto.
    - intros l [_ H] k k' acc Hk. apply H. assumption.
    - intros l [H _] k k' acc Hk. apply (H k k' acc Hk).
    - intros k k' acc Hk. apply Hk.
    - reflexivity.
    - intros kd a b l [H _] k k' acc Hk. cbn [first_re].
      change ((if is_optional kd a b
        then match first_l l k acc with Some acc' => k acc' | None => None end
        else if N.eqb a 0 then match k acc with Some acc' => first_l l k acc' | None => None end
        else first_l l k acc) =
       (if is_optional kd a b
        then match first_l l k' acc with Some acc' => k' acc' | None => None end
        else if N.eqb a 0 then match k' acc with Some acc' => first_l l k' acc' | None => None end
        else first_l l k' acc)).
      rewrite (H k k' acc Hk), Hk.
      destruct (is_optional kd a b).
      + destruct (first_l l k' acc); auto.
      + destruct (N.eqb a 0); auto. destruct (k' acc); auto.
    - intros i l [H _] k k' acc Hk. apply (H k k' acc Hk).
    - intros i nm l [H _] k k' acc Hk. apply (H k k' acc Hk).
    - reflexivity.
    - reflexivity.
    - reflexivity.
    - reflexivity.
    - intros l [H _] k k' acc Hk. apply (H k k' acc Hk).
    - intros c k k' acc Hk. apply Hk.
    - reflexivity.
    - intros [] k k' acc Hk; cbn; auto.
    - reflexivity.
  Qed.
End ReExt.

Lemma first_stack_ext : forall pre T1 T2, (forall acc, first_stack T1 acc = first_stack T2 acc) ->
  forall acc, first_stack (pre ++ T1) acc = first_stack (pre ++ T2) acc.
Proof.
  induction pre as [|a pre IH]; cbn; intros T1 T2 H acc; auto.
  destruct a; cbn; auto. apply first_ext. intros a. apply IH. assumption.
Qed.

(** Items that may precede the terminal part. *)
Definition inner (a : atom) : bool :=
  match a with AR _ | AStart | AEnd | ANum _ => true | _ => false end.

(** Replace a larger-fuel subterm by the smaller-fuel one. *)
Ltac lower M :=
  let H := fresh "M" in
  pose proof M as H; destruct H as [H | H]; [rewrite H; cbn; exact I | rewrite <- H; clear H].

Lemma easier_all : forall T1 T2 k (V : view -> Prop) w, V w ->
  (forall acc, first_stack T1 acc = first_stack T2 acc) ->
  (forall opt n v cur f c, V v ->
     easier (eval opt n v w cur f c T1) (eval opt (n + k) v w cur f c T2)) ->
  forall n,
  (forall opt v cur f c pre, V v -> forallb inner pre = true ->
     easier (eval opt n v w cur f c (pre ++ T1)) (eval opt (n + k) v w cur f c (pre ++ T2))) /\
  (forall opt v cur f c b i l pre, V v -> forallb inner pre = true ->
     easier (lazy_loop opt n v w cur f c b i l (pre ++ T1))
            (lazy_loop opt (n + k) v w cur f c b i l (pre ++ T2))) /\
  (forall opt v st cur f c a b i l pre, V v -> forallb inner pre = true ->
     easier (poss_loop opt n v w st cur f c a b i l (pre ++ T1))
            (poss_loop opt (n + k) v w st cur f c a b i l (pre ++ T2))) /\
  (forall opt v cur f c b i l pre, V v -> forallb inner pre = true ->
     easier (rec_loop opt n v w cur f c b i l (pre ++ T1))
            (rec_loop opt (n + k) v w cur f c b i l (pre ++ T2))).
Proof.
  intros T1 T2 k0 V w Vw HF HT. induction n as [|n (IHe & IHl & IHp & IHr)].
  { repeat split; intros; exact I. }
  assert (Seq : forall (x1 x2 y1 y2 : res caps), easier x1 x2 -> easier y1 y2 ->
    easier (match x1 with Ok a => Ok a | No => y1 | Fuel => Fuel | UB => UB | Ill => Ill end)
           (match x2 with Ok a => Ok a | No => y2 | Fuel => Fuel | UB => UB | Ill => Ill end)).
  { intros x1 x2 y1 y2 H1 H2. destruct x1; cbn in *; auto.
    - destruct H1 as [c ->]. eauto.
    - destruct H1 as [->|[c ->]]; auto. destruct y1; cbn; eauto. }
  assert (Hn : n <= n + k0) by lia.
  destruct (mono_all n (n + k0) Hn) as (Me & Mq & _).
  pose proof (match_range_mono n (n + k0)) as Mr.
  repeat split.
  - intros opt v cur f c pre Vv Hp.
    destruct pre as [|a pre]; [apply HT; assumption|].
    cbn [forallb] in Hp. apply andb_true_iff in Hp as [Ha Hp].
    assert (Push : forall f c pre', forallb inner pre' = true ->
      easier (eval opt n v w cur f c (pre' ++ pre ++ T1))
             (eval opt (n + k0) v w cur f c (pre' ++ pre ++ T2))).
    { intros f' c' pre' H. rewrite !app_assoc. apply IHe; auto. rewrite forallb_app, H, Hp. reflexivity. }
    destruct a as [r| | | | | | |id]; try discriminate; cbn [app].
    + destruct r; cbn [plus eval].
      * destruct (vend v cur) as [[|]|]; cbn [or_ub]; try apply easier_refl.
        destruct (vget v cur); cbn [or_ub]; try apply easier_refl.
        destruct (match_cls _ _ _); try apply easier_refl.
        destruct (vnext v cur); cbn [or_ub]; try apply easier_refl. apply IHe; assumption.
      * destruct (vend v cur) as [[|]|]; cbn [or_ub]; try apply easier_refl.
        destruct (if f_ml f then _ else _) as [[|]|]; cbn [or_ub]; try apply easier_refl.
        destruct (vnext v cur); cbn [or_ub]; try apply easier_refl. apply IHe; assumption.
      * destruct (match_string v (f_ci f) l cur); try apply easier_refl. apply IHe; assumption.
      * destruct l as [|x xs]; [apply easier_refl|].
        apply Seq; [apply (Push f c [AR x]) | apply (Push f c [AR (RSelect xs)])]; reflexivity.
      * destruct l as [|x [|y ys]]; [apply easier_refl| |].
        -- apply (Push f c [AR x]); reflexivity.
        -- apply (Push f c [AR x; AR (RSeq (y :: ys))]); reflexivity.
      * apply IHe; assumption.
      * apply easier_refl.
      * destruct (negb (N.eqb b 0) && N.ltb b a); [apply easier_refl|].
        destruct k.
        -- assert (E : becomes_possessive opt content (pre ++ T1) =
                       becomes_possessive opt content (pre ++ T2)).
           { unfold becomes_possessive, calculate_first. destruct opt; [|reflexivity].
             rewrite (first_stack_ext pre T1 T2 HF). reflexivity. }
           rewrite E. destruct (becomes_possessive opt content (pre ++ T2)) as [[|]|];
             [ | |apply easier_refl].
           ++ apply (Push f c [AR (RRep Possessive a b content)]); reflexivity.
           ++ destruct (vconv v); cbn [negb]; [|apply easier_refl].
              lower (Mq opt v w cur f c a 0%N content);
             destruct (req_loop opt n v w cur f c a 0 content) as [[p c']| | | |];
                try apply easier_refl. apply IHr; assumption.
        -- destruct (vconv v); cbn [negb]; [|apply easier_refl].
           lower (Mq opt v w cur f c a 0%N content);
             destruct (req_loop opt n v w cur f c a 0 content) as [[p c']| | | |];
             try apply easier_refl. apply Seq; [apply IHe | apply IHl]; assumption.
        -- destruct (vconv v); cbn [negb]; [|apply easier_refl]. apply IHp; assumption.
      * destruct (vconv v); [|apply easier_refl].
        destruct (start_capture id cur c) as [c'|]; cbn [or_ill]; [|apply easier_refl].
        apply (Push f c' [AR (RSeq content); ANum id]); reflexivity.
      * destruct (vconv v); [|apply easier_refl].
        destruct (start_capture id cur c) as [c'|]; cbn [or_ill]; [|apply easier_refl].
        apply (Push f c' [AR (RSeq content); ANum id]); reflexivity.
      * destruct (vsame v); cbn [negb]; [|apply easier_refl].
        destruct (get_id id c) as [sl|]; cbn [or_ill]; [|apply easier_refl].
        destruct (s_m sl); [|apply easier_refl].
        destruct (s_beg sl) as [b|]; cbn [or_ub]; [|apply easier_refl].
        destruct (s_end sl) as [e|]; cbn [or_ub]; [|apply easier_refl].
        lower (Mr v cur b e Hn).
        destruct (match_range_loop n v cur b e) as [[p [|]]| | | |]; try apply easier_refl.
        apply IHe; assumption.
      * destruct (vsame v); cbn [negb]; [|apply easier_refl].
        destruct (get_name name (cl c)) as [sl|]; cbn [or_ill]; [|apply easier_refl].
        destruct (s_m sl); [|apply easier_refl].
        destruct (s_beg sl) as [b|]; cbn [or_ub]; [|apply easier_refl].
        destruct (s_end sl) as [e|]; cbn [or_ub]; [|apply easier_refl].
        lower (Mr v cur b e Hn).
        destruct (match_range_loop n v cur b e) as [[p [|]]| | | |]; try apply easier_refl.
        apply IHe; assumption.
      * destruct neg; lower (Me opt v w cur f c [AR (RSeq content); AEndAhead]);
        destruct (eval opt n v w cur f c [AR (RSeq content); AEndAhead]);
          try apply easier_refl; apply IHe; assumption.
      * destruct neg; lower (Me opt (rev_view v) w cur f c [AR (RSeq content); AEndBehind]);
        destruct (eval opt n (rev_view v) w cur f c [AR (RSeq content); AEndBehind]);
          try apply easier_refl; apply IHe; assumption.
      * apply (Push f c [AR (RRep Possessive 1 1 content)]); reflexivity.
      * destruct (around v _ _ cur) as [[x y]| | | |]; try apply easier_refl.
        destruct (Bool.eqb x y); [apply easier_refl | apply IHe; assumption].
      * destruct (around v _ _ cur) as [[x y]| | | |]; try apply easier_refl.
        destruct (Bool.eqb x y); [apply IHe; assumption | apply easier_refl].
      * destruct (eval_assert v (f_ml f) a cur) as [[|]| | | |]; try apply easier_refl.
        apply IHe; assumption.
      * apply IHe; assumption.
    + cbn [plus eval]. destruct (vconv v); [apply IHe; assumption | apply easier_refl].
    + cbn [plus eval]. destruct (vconv v); [apply IHe; assumption | apply easier_refl].
    + cbn [plus eval]. destruct (vconv v); [|apply easier_refl].
      destruct (end_capture id cur c); cbn [or_ill]; [apply IHe; assumption | apply easier_refl].
  - intros opt v cur f c b i l pre Vv Hp. cbn [plus lazy_loop].
    destruct (less_than_or_infinite b i); [|apply IHe; assumption].
    lower (Me opt v w cur (not_empty_match f) c (cycle l));
    destruct (eval opt n v w cur (not_empty_match f) c (cycle l)); try apply easier_refl.
    destruct (s_end (c0 a)); cbn [or_ub]; [|apply easier_refl].
    apply Seq; [apply IHe | apply IHl]; assumption.
  - intros opt v st cur f c a b i l pre Vv Hp. cbn [plus poss_loop].
    destruct (less_than_or_infinite b i); [|apply IHe; assumption].
    lower (Me opt v w cur (not_empty_match f) c (cycle l));
    destruct (eval opt n v w cur (not_empty_match f) c (cycle l)); try apply easier_refl.
    + destruct (s_end (c0 a0)); cbn [or_ub]; [|apply easier_refl]. apply IHp; assumption.
    + destruct (less_than a i); [apply easier_refl | apply IHe; assumption].
  - intros opt v cur f c b i l pre Vv Hp. cbn [plus rec_loop].
    destruct (less_than_or_infinite b i); [|apply IHe; assumption].
    lower (Me opt v w cur (not_empty_match f) c (cycle l));
    destruct (eval opt n v w cur (not_empty_match f) c (cycle l)); try apply easier_refl.
    + destruct (s_end (c0 a)); cbn [or_ub]; [|apply easier_refl].
      apply Seq; [apply IHr | apply IHe]; assumption.
    + apply IHe; assumption.
Qed.

Lemma whole_attempt : forall opt n v w f r p, vconv v = true -> vconv w = true ->
  easier (eval opt n v w p f (fresh r) [AStart; AR r; AR (RAssert ASubjectEnd); AEnd; AAccept])
         (eval opt (n + 2) v w p f (fresh r) [AStart; AR r; AEnd; AAccept]).
Proof.
  intros opt n v w f r p Hv Hw.
  pose proof (easier_all [AR (RAssert ASubjectEnd); AEnd; AAccept] [AEnd; AAccept] 2
                (fun u => vconv u = true) w Hw ltac:(reflexivity)) as H.
  assert (HT : forall opt n v cur f c, vconv v = true ->
     easier (eval opt n v w cur f c [AR (RAssert ASubjectEnd); AEnd; AAccept])
            (eval opt (n + 2) v w cur f c [AEnd; AAccept])).
  { clear. intros opt n v cur f c Hv. destruct n as [|n]; [exact I|].
    rewrite Nat.add_comm. cbn [plus eval]. rewrite Hv.
    destruct (eval_assert v (f_ml f) ASubjectEnd cur) as [[|]| | | |] eqn:E; cbn; eauto.
    destruct (eval opt n v w cur f c [AEnd; AAccept]); cbn; eauto. }
  destruct (H HT n) as (He & _).
  apply (He opt v p f (fresh r) [AStart; AR r] Hv). reflexivity.
Qed.

(** Every success of the evaluator is marked as matched. *)
Lemma ok_matched : forall n,
  (forall opt v w cur f c stk c', eval opt n v w cur f c stk = Ok c' -> matched c' = true) /\
  (forall opt v w cur f c b i l tl c', lazy_loop opt n v w cur f c b i l tl = Ok c' ->
     matched c' = true) /\
  (forall opt v w st cur f c a b i l tl c', poss_loop opt n v w st cur f c a b i l tl = Ok c' ->
     matched c' = true) /\
  (forall opt v w cur f c b i l tl c', rec_loop opt n v w cur f c b i l tl = Ok c' ->
     matched c' = true).
Proof.
  induction n as [|n (IHe & IHl & IHp & IHr)]; [repeat split; discriminate|].
  repeat split; intros *; cbn [eval lazy_loop poss_loop rec_loop]; intros H;
  repeat first
    [ discriminate
    | match type of H with Ok _ = Ok _ => injection H as <-; first [reflexivity | solve [eauto]] end
    | solve [eauto]
    | match type of H with
      | or_ub ?o _ = _ => destruct o; cbn [or_ub] in H
      | or_ill ?o _ = _ => destruct o; cbn [or_ill] in H
      | (match ?x with _ => _ end) = _ => destruct x eqn:?
      end ].
Qed.

(** * Statements about the entry points *)
Lemma returned_cases : forall r x c, returned r x = Ok c ->
  (x = Ok c) \/ (x = No /\ c = fresh r).
Proof. intros r x c H. destruct x; cbn in H; try discriminate; auto. right; split; congruence. Qed.

Lemma fresh_unmatched : forall r, matched (fresh r) = false.
Proof. reflexivity. Qed.

Lemma fresh_group : forall r id, group (fresh r) id = None.
Proof.
  intros r id. unfold group, get_id. destruct (Nat.eqb id 0); [reflexivity|]. cbn [fresh cl].
  destruct (find_id id _) as [sl|] eqn:E; [|reflexivity].
  apply find_fresh in E. subst. reflexivity.
Qed.

Lemma match_matched : forall opt n s f r c, ctre_match opt n s f r = Ok c -> matched c = true ->
  whole opt n s f r 0 = Ok c.
Proof.
  intros opt n s f r c H Hm. apply returned_cases in H as [H|[H ->]]; [exact H | discriminate].
Qed.
Lemma starts_matched : forall opt n s f r c, ctre_starts_with opt n s f r = Ok c ->
  matched c = true -> attempt opt n s f r 0 = Ok c.
Proof.
  intros opt n s f r c H Hm. apply returned_cases in H as [H|[H ->]]; [exact H | discriminate].
Qed.
Lemma attempt_matched : forall opt n s f r p c, attempt opt n s f r p = Ok c -> matched c = true.
Proof. intros. eapply (proj1 (ok_matched n)). eassumption. Qed.

Lemma c0_group : forall c b e, matched c = true -> s_beg (c0 c) = Some b -> s_end (c0 c) = Some e ->
  group c 0 = Some (b, e).
Proof.
  intros c b e Hm Hb He. unfold matched in Hm. unfold group. cbn [get_id Nat.eqb].
  destruct (c0 c) as [sb se sm]. cbn [s_beg s_end s_m] in *. subst. reflexivity.
Qed.

Lemma match_span : forall opt n s f r c, well_numbered r -> ctre_match opt n s f r = Ok c ->
  matched c = true -> group c 0 = Some (0, length s).
Proof.
  intros opt n s f r c Hw H Hm. pose proof (match_matched _ _ _ _ _ _ H Hm) as E.
  apply whole_ok in E; auto with arith. destruct E as (E1 & E2 & E3 & _).
  apply c0_group; assumption.
Qed.
Lemma starts_span : forall opt n s f r c, well_numbered r -> ctre_starts_with opt n s f r = Ok c ->
  matched c = true -> exists e, group c 0 = Some (0, e) /\ e <= length s.
Proof.
  intros opt n s f r c Hw H Hm. pose proof (starts_matched _ _ _ _ _ _ H Hm) as E.
  apply attempt_ok in E; auto with arith. destruct E as (E1 & E2 & (e & E3 & E4) & _).
  exists e. split; [apply c0_group; assumption | lia].
Qed.

(** Shape of every terminated search. *)
Lemma search_cases : forall opt n s f r c p, well_numbered r -> p <= length s ->
  exec_search opt n (arr_view s) (arr_view s) f r p = Ok c ->
  (exists q, p <= q <= length s /\ attempt opt n s f r q = Ok c /\
             (starts_with_anchor f r = true -> q = p) /\
             forall p', p <= p' < q -> attempt opt n s f r p' = No) \/
  (exists q, c = set_end_mark q (fresh r) /\
             (if starts_with_anchor f r then q = p /\ attempt opt n s f r p = No
              else q = length s /\ forall p', p <= p' <= length s -> attempt opt n s f r p' = No)).
Proof.
  intros opt n s f r c p Hw Hp H. unfold exec_search in H.
  destruct (starts_with_anchor f r) eqn:Ha.
  - destruct (Nat.eq_dec n 0) as [->|Hn]; [discriminate|].
    rewrite search_anchored in H by auto. unfold search_last in H.
    change (eval opt n (arr_view s) (arr_view s) p f (fresh r) [AStart; AR r; AEnd; AAccept])
      with (attempt opt n s f r p) in H.
    destruct (attempt opt n s f r p) eqn:E; try discriminate.
    + injection H as <-. left. exists p. repeat split; auto; lia.
    + injection H as <-. right. exists p. repeat split; auto.
  - apply search_loop_spec in H; auto.
    destruct H as [(q & H1 & H2 & H3) | (H1 & H2)].
    + left. exists q. repeat split; auto; try lia; try discriminate.
    + right. exists (length s). auto.
Qed.

Lemma search_span : forall opt n s f r c, well_numbered r -> ctre_search opt n s f r = Ok c ->
  matched c = true -> exists b e, group c 0 = Some (b, e) /\ b <= e <= length s.
Proof.
  intros opt n s f r c Hw H Hm.
  apply search_cases in H; auto with arith.
  destruct H as [(q & H1 & H2 & _) | (q & -> & _)]; [|discriminate].
  apply attempt_ok in H2; auto; [|lia]. destruct H2 as (E1 & E2 & (e & E3 & E4) & _).
  exists q, e. split; [apply c0_group; assumption | lia].
Qed.

Lemma spans_group : forall len c id sl, spans_ok len c -> id <> 0 ->
  get_id id c = Some sl -> s_m sl = true ->
  exists b e, group c id = Some (b, e) /\ b <= e <= len.
Proof.
  intros len c id sl H H0 Hg Hm. unfold group. rewrite Hg.
  unfold get_id in Hg. apply Nat.eqb_neq in H0. rewrite H0 in Hg.
  destruct (H id sl Hg Hm) as (b & e & H1 & H2 & H3 & H4).
  destruct sl as [sb se sm]. cbn in *. subst. exists b, e. auto.
Qed.

Definition call := bool -> nat -> list Z -> flags -> re -> res caps.
Definition entry_point (m : call) : Prop :=
  m = ctre_match \/ m = ctre_starts_with \/ m = ctre_search.

Lemma call_spans : forall m opt n s f r c, entry_point m -> well_numbered r ->
  m opt n s f r = Ok c -> matched c = true -> spans_ok (length s) c.
Proof.
  intros m opt n s f r c [->|[->| ->]] Hw H Hm.
  - pose proof (match_matched _ _ _ _ _ _ H Hm) as E.
    apply whole_ok in E; auto with arith. tauto.
  - pose proof (starts_matched _ _ _ _ _ _ H Hm) as E.
    apply attempt_ok in E; auto with arith. tauto.
  - apply search_cases in H; auto with arith.
    destruct H as [(q & H1 & H2 & _) | (q & -> & _)]; [|discriminate].
    apply attempt_ok in H2; auto; [|lia]. tauto.
Qed.

Lemma call_groups : forall m opt n s f r c id sl, entry_point m -> well_numbered r ->
  m opt n s f r = Ok c -> matched c = true -> get_id id c = Some sl -> s_m sl = true ->
  exists b e, group c id = Some (b, e) /\ b <= e <= length s.
Proof.
  intros m opt n s f r c id sl Hm Hw H Hc Hg Hs.
  destruct (Nat.eq_dec id 0) as [->|Hid].
  - destruct Hm as [->|[->| ->]].
    + exists 0, (length s). split; [eapply match_span; eassumption | lia].
    + destruct (starts_span _ _ _ _ _ _ Hw H Hc) as (e & E1 & E2). exists 0, e. split; [auto|lia].
    + eapply search_span; eassumption.
  - eapply spans_group; eauto. eapply call_spans; eassumption.
Qed.

Lemma call_no_ub : forall m opt n s f r, entry_point m -> well_numbered r -> m opt n s f r <> UB.
Proof.
  intros m opt n s f r [->|[->| ->]] Hw H.
  - unfold ctre_match, exec_match in H.
    pose proof (whole_ok opt n s f r 0 _ Hw ltac:(lia) eq_refl) as E.
    unfold whole in E. destruct (eval _ _ _ _ _ _ _ _); try discriminate. contradiction.
  - unfold ctre_starts_with, exec_starts_with in H.
    pose proof (attempt_ok opt n s f r 0 _ Hw ltac:(lia) eq_refl) as E.
    unfold attempt in E. destruct (eval _ _ _ _ _ _ _ _); try discriminate. contradiction.
  - unfold ctre_search, exec_search in H.
    destruct (starts_with_anchor f r) eqn:Ha.
    + destruct (Nat.eq_dec n 0) as [->|Hn]; [discriminate|].
      rewrite search_anchored in H by (auto with arith). unfold search_last in H.
      pose proof (attempt_ok opt n s f r 0 _ Hw ltac:(lia) eq_refl) as E.
      unfold attempt in E. destruct (eval _ _ _ _ _ _ _ _); try discriminate. contradiction.
    + apply search_loop_spec in H; auto with arith.
Qed.

Lemma call_failed : forall m opt n s f r c, entry_point m -> well_numbered r ->
  m opt n s f r = Ok c -> matched c = false -> forall id, group c id = None.
Proof.
  intros m opt n s f r c [->|[->| ->]] Hw H Hm id.
  - apply returned_cases in H as [H|[_ ->]]; [|apply fresh_group].
    apply (proj1 (ok_matched n)) in H. congruence.
  - apply returned_cases in H as [H|[_ ->]]; [|apply fresh_group].
    apply (proj1 (ok_matched n)) in H. congruence.
  - apply search_cases in H; auto with arith. destruct H as [(q & _ & H & _) | (q & -> & _)].
    + apply attempt_matched in H. congruence.
    + pose proof (fresh_group r id) as F. unfold group, get_id in *.
      destruct (Nat.eqb id 0); [reflexivity | exact F].
Qed.

Lemma match_starts : forall opt n s f r c, ctre_match opt n s f r = Ok c -> matched c = true ->
  forall n', n' >= n + 2 -> exists c', ctre_starts_with opt n' s f r = Ok c' /\ matched c' = true.
Proof.
  intros opt n s f r c H Hm n' Hn. pose proof (match_matched _ _ _ _ _ _ H Hm) as E.
  pose proof (whole_attempt opt n (arr_view s) (arr_view s) f r 0 eq_refl eq_refl) as W.
  unfold whole in E. rewrite E in W. destruct W as [c' W].
  assert (W' : attempt opt n' s f r 0 = Ok c')
    by (eapply eval_mono; [exact Hn | exact W | discriminate]).
  exists c'. split.
  - unfold ctre_starts_with, exec_starts_with. unfold attempt in W'. rewrite W'. reflexivity.
  - eapply attempt_matched; eassumption.
Qed.

Lemma starts_search : forall opt n s f r c, ctre_starts_with opt n s f r = Ok c ->
  matched c = true -> forall n', n' >= n -> ctre_search opt n' s f r = Ok c.
Proof.
  intros opt n s f r c H Hm n' Hn. pose proof (starts_matched _ _ _ _ _ _ H Hm) as E.
  assert (Hn0 : n <> 0) by (intros ->; discriminate).
  assert (E' : attempt opt n' s f r 0 = Ok c)
    by (eapply eval_mono; [exact Hn | exact E | discriminate]).
  unfold ctre_search, exec_search. destruct n' as [|n']; [lia|].
  cbn [search_loop]. unfold attempt in E'. unfold search_last. rewrite E'.
  cbn [arr_view vend or_ub].
  destruct (negb (Nat.eqb 0 (length s)) && negb (starts_with_anchor f r)); reflexivity.
Qed.

Lemma search_leftmost : forall opt n s f r c, well_numbered r ->
  starts_with_anchor f r = false -> ctre_search opt n s f r = Ok c ->
  (matched c = true ->
     exists b e, group c 0 = Some (b, e) /\
       exec_starts_with opt n (arr_view s) (arr_view s) f r b = Ok c /\
       forall p, p < b -> exec_starts_with opt n (arr_view s) (arr_view s) f r p = Ok (fresh r)) /\
  (matched c = false ->
     forall p, p <= length s ->
       exec_starts_with opt n (arr_view s) (arr_view s) f r p = Ok (fresh r)).
Proof.
  intros opt n s f r c Hw Ha H. apply search_cases in H; auto with arith. rewrite Ha in H.
  destruct H as [(q & H1 & H2 & _ & H3) | (q & -> & H1 & H2)].
  - split; [|intros Hm; apply attempt_matched in H2; congruence]. intros _.
    pose proof (attempt_ok _ _ _ _ _ _ _ Hw (proj2 H1) H2) as (E1 & E2 & (e & E3 & E4) & _).
    exists q, e. split; [apply c0_group; assumption|].
    unfold exec_starts_with. unfold attempt in H2, H3. rewrite H2. split; [reflexivity|].
    intros p Hp. rewrite H3 by lia. reflexivity.
  - split; [discriminate|]. intros _ p Hp. unfold exec_starts_with. unfold attempt in H2.
    rewrite H2 by lia. reflexivity.
Qed.
