(** The evaluator computes the first outcome of the specification ([enum] with the library's
    discipline), for contiguous subjects. *)
From Coq Require Import List ZArith NArith Bool Lia Arith ZifyBool ZifyN ZifyNat.
From Verif Require Import Chars Syntax First View Eval Spec CharProofs EvalInv.
Import ListNotations.

(** * The fragment *)

(** Every success consumes something, whatever the subject. *)
Fixpoint nonnull (r : re) : bool :=
  match r with
  | RCls _ | RAny | RReject | RAtomic _ => true
  | RStr t => negb (Nat.eqb (length t) 0)
  | RSelect l => forallb nonnull l
  | RSeq l | RCap _ l | RNCap _ _ l => existsb nonnull l
  | RRep _ a _ _ => negb (N.eqb a 0)
  | _ => false
  end.

(** The block-empty-match flag is cleared only when something was consumed. A greedy repetition that
    iterates zero times clears it all the same (evaluation.hpp lines 359, 366, 375). *)
Fixpoint accurate (r : re) : bool :=
  match r with
  | RSelect l | RSeq l | RCap _ l | RNCap _ _ l => forallb accurate l
  | RRep Greedy a _ _ => negb (N.eqb a 0)
  | _ => true
  end.

(** Bodies of repetitions in the fragment. *)
Definition body_ok (l : list re) : bool := existsb nonnull l || forallb accurate l.

Definition nonempty {A} (l : list A) : bool := match l with [] => false | _ => true end.
Definition not_in (id : nat) (O : list nat) : bool := negb (existsb (Nat.eqb id) (0 :: O)).

(** Content of a lookbehind. *)
Fixpoint bwf (ci : bool) (r : re) : bool :=
  match r with
  | RCls c | RBound c | RNotBound c => cls_ok ci c
  | RStr t => forallb lit_ok t
  | RSelect l => forallb (bwf ci) l
  | RSeq l => nonempty l && forallb (bwf ci) l
  | RAny | REmpty => true
  | _ => false
  end.

(** [O]: the groups that are open around [r]. *)
Fixpoint wf (ci : bool) (names : list Z -> option nat) (O : list nat) (r : re) : bool :=
  match r with
  | RCls c | RBound c | RNotBound c => cls_ok ci c
  | RStr t => forallb lit_ok t
  | RSelect l => forallb (wf ci names O) l
  | RSeq l | RAhead _ l => nonempty l && forallb (wf ci names O) l
  | RAny | REmpty | RReject | RAssert _ => true
  | RRep _ _ _ l | RAtomic l => body_ok l && forallb (wf ci names O) l
  | RCap id l | RNCap id _ l =>
      not_in id O && nonempty l && forallb (wf ci names (id :: O)) l
  | RBack id => not_in id O
  | RNBack nm => match names nm with Some id => not_in id O | None => true end
  | RBehind _ l => nonempty l && forallb (bwf ci) l
  | RMode _ => false
  end.

Lemma not_in_spec : forall id O, not_in id O = true -> id <> 0 /\ ~ In id O.
Proof.
  intros id O H. unfold not_in in H. apply negb_true_iff in H. cbn in H.
  apply orb_false_iff in H as [H1 H2]. apply Nat.eqb_neq in H1. split; [assumption|].
  intros Hin. assert (existsb (Nat.eqb id) O = true); [|congruence].
  apply existsb_exists. exists id. split; [assumption | apply Nat.eqb_refl].
Qed.

(** * Unfolding the specification *)
Section Unfold.
  Variables (s : list Z) (ml ci : bool) (names : list Z -> option nat) (cut : bool).
  Notation enum := (enum s ml ci names cut).
  Notation enums := (enums s ml ci names cut).
  Notation benum := (benum s ml ci).
  Notation bseq := (bseq s ml ci).

  Lemma enum_seq : forall l st, enum (RSeq l) st = enums l st.
  Proof. reflexivity. Qed.
  Lemma enum_select_cons : forall x xs st,
    enum (RSelect (x :: xs)) st = enum x st ++ enum (RSelect xs) st.
  Proof. reflexivity. Qed.
  Lemma enum_rep : forall k a b l st, enum (RRep k a b l) st = iterate s cut (enums l) k a b st.
  Proof. reflexivity. Qed.
  Lemma enum_cap : forall id l st, enum (RCap id l) st =
    map (fun st' => (fst st', (id, (fst st, fst st')) :: snd st')) (enums l st).
  Proof. reflexivity. Qed.
  Lemma enum_ncap : forall id nm l st, enum (RNCap id nm l) st =
    map (fun st' => (fst st', (id, (fst st, fst st')) :: snd st')) (enums l st).
  Proof. reflexivity. Qed.
  Lemma enum_ahead : forall neg l st, enum (RAhead neg l) st =
    if neg then match enums l st with [] => [st] | _ :: _ => [] end
    else match enums l st with [] => [] | x :: _ => [(fst st, snd x)] end.
  Proof. intros [] l st; reflexivity. Qed.
  Lemma enum_behind : forall neg l st, enum (RBehind neg l) st =
    if neg then match bseq l (fst st) with [] => [st] | _ :: _ => [] end
    else match bseq l (fst st) with [] => [] | _ :: _ => [st] end.
  Proof. intros [] l st; reflexivity. Qed.
  Lemma enum_atomic : forall l st,
    enum (RAtomic l) st = firstn 1 (progress cut st (enums l st)).
  Proof. reflexivity. Qed.
  Lemma enums_cons : forall x xs st, enums (x :: xs) st = flat_map (enums xs) (enum x st).
  Proof. reflexivity. Qed.
  Lemma benum_seq : forall l p, benum (RSeq l) p = bseq l p.
  Proof. reflexivity. Qed.
  Lemma benum_select_cons : forall x xs p,
    benum (RSelect (x :: xs)) p = benum x p ++ benum (RSelect xs) p.
  Proof. reflexivity. Qed.
  Lemma bseq_cons : forall x xs p, bseq (x :: xs) p = flat_map (bseq xs) (benum x p).
  Proof. reflexivity. Qed.
End Unfold.

Lemma flat_map_one : forall A B (g : A -> list B) x, flat_map g [x] = g x.
Proof. intros. cbn. apply app_nil_r. Qed.
Lemma flat_map_flat : forall A B C (g : B -> list C) (h : A -> list B) l,
  flat_map g (flat_map h l) = flat_map (fun x => flat_map g (h x)) l.
Proof.
  intros A B C g h l. induction l as [|x l IH]; [reflexivity|]. cbn. rewrite flat_map_app, IH.
  reflexivity.
Qed.
Lemma flat_map_ext_all : forall A B (g h : A -> list B) l, (forall x, g x = h x) ->
  flat_map g l = flat_map h l.
Proof. intros A B g h l H. induction l as [|x l IH]; cbn; [reflexivity|]. rewrite H, IH. reflexivity. Qed.
Lemma flat_map_map : forall A B C (g : B -> list C) (h : A -> B) l,
  flat_map g (map h l) = flat_map (fun x => g (h x)) l.
Proof. intros A B C g h l. induction l as [|x l IH]; cbn; [reflexivity|]. rewrite IH. reflexivity. Qed.
Lemma filter_flat_map : forall A B (P : B -> bool) (g : A -> list B) l,
  filter P (flat_map g l) = flat_map (fun x => filter P (g x)) l.
Proof.
  intros A B P g l. induction l as [|x l IH]; [reflexivity|]. cbn.
  rewrite filter_app, IH. reflexivity.
Qed.
Lemma flat_map_single : forall A (l : list A), flat_map (fun x => [x]) l = l.
Proof. intros A l. induction l as [|x l IH]; cbn; [reflexivity|]. rewrite IH. reflexivity. Qed.

(** * Character tests and zero-width tests on an array *)
Section Tests.
  Variables (s : list Z) (ml ci : bool).
  Hypothesis s_ok : forallb val_ok s = true.
  Notation v := (arr_view s).

  Lemma nth_val : forall p x, nth_error s p = Some x -> val_ok x = true.
  Proof.
    intros p x H. rewrite forallb_forall in s_ok. apply s_ok. eapply nth_error_In. eassumption.
  Qed.

  Lemma match_string_walk : forall t p L, forallb lit_ok t = true -> p <= length s ->
    match match_string v ci t p with
    | Ok p' => walk s ci t (p, L) = [(p', L)] /\ p' = p + length t /\ p' <= length s
    | No => walk s ci t (p, L) = []
    | _ => True
    end.
  Proof.
    induction t as [|a t IH]; cbn [match_string walk forallb length]; intros p L Ht Hp.
    - rewrite Nat.add_0_r. auto.
    - apply andb_true_iff in Ht as [Ha Ht]. cbn [arr_view vend vget vnext or_ub].
      unfold step. cbn [fst snd].
      destruct (Nat.eqb_spec p (length s)) as [E|E].
      { subst. replace (nth_error s (length s)) with (@None Z); [reflexivity|].
        symmetry. apply nth_error_None. lia. }
      destruct (nth_error s p) as [x|] eqn:Ex; [|exfalso; apply nth_error_None in Ex; lia].
      cbn [or_ub]. destruct (Nat.ltb_spec p (length s)) as [Hlt|]; [|lia]. cbn [or_ub].
      rewrite match_lit_spec by (auto; eapply nth_val; eassumption).
      destruct (lit_has ci a x); [|reflexivity]. rewrite flat_map_one.
      specialize (IH (S p) L Ht ltac:(lia)).
      destruct (match_string v ci t (S p)); auto.
      destruct IH as (I1 & I2 & I3). repeat split; auto. lia.
  Qed.

  Lemma around_boundary : forall c p, cls_ok ci c = true -> p <= length s ->
    around v ci c p = Ok (char_before s (cls_has ci c) p, char_after s (cls_has ci c) p).
  Proof.
    intros c p Hc Hp. unfold around. cbn [arr_view vend vget vnext vbeg vprev or_ub].
    assert (E1 : (if Nat.eqb p (length s) then Some false
                  else option_map (match_cls ci c) (nth_error s p))
                 = Some (char_after s (cls_has ci c) p)).
    { unfold char_after. destruct (Nat.eqb_spec p (length s)) as [E|E].
      - subst. replace (nth_error s (length s)) with (@None Z); [reflexivity|].
        symmetry. apply nth_error_None. lia.
      - destruct (nth_error s p) as [x|] eqn:Ex; [|exfalso; apply nth_error_None in Ex; lia].
        cbn. rewrite match_cls_spec; auto. eapply nth_val; eassumption. }
    rewrite E1. cbn [or_ub].
    assert (E2 : (if Nat.eqb p 0 then Some false
                  else match (match p with 0 => None | S p' => Some p' end) with
                       | Some q => option_map (match_cls ci c) (nth_error s q)
                       | None => None end)
                 = Some (char_before s (cls_has ci c) p)).
    { unfold char_before. destruct p as [|q]; [reflexivity|]. cbn [Nat.eqb].
      destruct (nth_error s q) as [x|] eqn:Ex; [|exfalso; apply nth_error_None in Ex; lia].
      cbn. rewrite match_cls_spec; auto. eapply nth_val; eassumption. }
    rewrite E2. reflexivity.
  Qed.

  Lemma around_boundary_rev : forall c p, cls_ok ci c = true -> p <= length s ->
    around (rev_view v) ci c p
    = Ok (char_after s (cls_has ci c) p, char_before s (cls_has ci c) p).
  Proof.
    intros c p Hc Hp. unfold around. cbn [rev_view arr_view vend vget vnext vbeg vprev or_ub].
    assert (E2 : (if Nat.eqb p 0 then Some false
                  else option_map (match_cls ci c)
                    (match (match p with 0 => None | S p' => Some p' end) with
                       | Some q => nth_error s q
                       | None => None end))
                 = Some (char_before s (cls_has ci c) p)).
    { unfold char_before. destruct p as [|q]; [reflexivity|]. cbn [Nat.eqb].
      destruct (nth_error s q) as [x|] eqn:Ex; [|exfalso; apply nth_error_None in Ex; lia].
      cbn. rewrite match_cls_spec; auto. eapply nth_val; eassumption. }
    rewrite E2. cbn [or_ub].
    unfold char_after. destruct (Nat.eqb_spec p (length s)) as [E|E]; cbn [or_ub].
    - subst. replace (nth_error s (length s)) with (@None Z); [reflexivity|].
      symmetry. apply nth_error_None. lia.
    - destruct (Nat.ltb_spec p (length s)) as [Hlt|]; [|lia].
      destruct (nth_error s p) as [x|] eqn:Ex; [|exfalso; apply nth_error_None in Ex; lia].
      cbn. rewrite match_cls_spec; auto. eapply nth_val; eassumption.
  Qed.

  Lemma assert_holds : forall a p, p <= length s -> eval_assert v ml a p = Ok (holds s ml a p).
  Proof.
    intros a p Hp. unfold eval_assert, holds, at_begin, at_end.
    cbn [arr_view vend vget vnext vbeg vprev or_ub].
    assert (Hn : Nat.eqb p (length s) = false -> exists x, nth_error s p = Some x).
    { intros H. apply Nat.eqb_neq in H. destruct (nth_error s p) eqn:E; eauto.
      apply nth_error_None in E. lia. }
    destruct a; try reflexivity.
    - destruct (Nat.eqb p (length s)) eqn:E; [reflexivity|]. destruct ml; [|reflexivity].
      destruct (Hn eq_refl) as [x Hx]. unfold char_after. rewrite Hx. cbn [or_ub orb andb].
      rewrite (Z.eqb_sym 10). destruct (Z.eqb x 10); [|reflexivity].
      apply Nat.eqb_neq in E. destruct (Nat.ltb_spec p (length s)); [reflexivity|lia].
    - destruct (Nat.eqb p 0) eqn:E; [reflexivity|]. destruct ml; [|reflexivity].
      destruct p as [|q]; [discriminate|]. cbn [or_ub char_before orb andb].
      destruct (nth_error s q) as [x|] eqn:Ex; [|exfalso; apply nth_error_None in Ex; lia].
      cbn [or_ub]. rewrite (Z.eqb_sym 10). reflexivity.
    - destruct (Nat.eqb p (length s)) eqn:E; [reflexivity|]. destruct ml; [|reflexivity].
      destruct (Hn eq_refl) as [x Hx]. unfold char_after. rewrite Hx. cbn [or_ub orb andb].
      rewrite (Z.eqb_sym 10). reflexivity.
  Qed.

  (** Backreference: comparison with a span of the subject. *)
  Lemma match_range_prefix : forall n p b e, p <= length s -> b <= e <= length s ->
    match match_range_loop n v p b e with
    | Ok (p', true) => prefix_at s (text s b e) p = true /\ p' = p + (e - b) /\ p' <= length s
    | Ok (_, false) => prefix_at s (text s b e) p = false
    | No => False
    | _ => True
    end.
  Proof.
    induction n as [|n IH]; intros p b e Hp Hb; cbn [match_range_loop]; [exact I|].
    cbn [arr_view vend vget vnext or_ub].
    destruct (Nat.eqb_spec e b) as [E|E].
    - subst. rewrite andb_false_r. rewrite Nat.eqb_refl. unfold text. rewrite Nat.sub_diag. cbn.
      repeat split; lia.
    - assert (Hbx : exists y, nth_error s b = Some y).
      { destruct (nth_error s b) eqn:Ey; eauto. apply nth_error_None in Ey. lia. }
      destruct Hbx as [y Hy].
      assert (Ht : text s b e = y :: text s (S b) e).
      { unfold text. replace (e - b) with (S (e - S b)) by lia.
        assert (Hs : skipn b s = y :: skipn (S b) s).
        { clear - Hy. revert s Hy. induction b as [|b IHb]; intros [|z s] Hy; try discriminate.
          - cbn in *. congruence.
          - cbn [skipn]. cbn in Hy. rewrite (IHb s Hy). reflexivity. }
        rewrite Hs. reflexivity. }
      rewrite Ht. cbn [prefix_at negb]. rewrite andb_true_r.
      destruct (Nat.eqb_spec p (length s)) as [Ep|Ep]; cbn [negb].
      + subst. replace (nth_error s (length s)) with (@None Z)
          by (symmetry; apply nth_error_None; lia).
        destruct (Nat.eqb_spec b e); [lia|reflexivity].
      + destruct (nth_error s p) as [x|] eqn:Ex; [|exfalso; apply nth_error_None in Ex; lia].
        cbn [or_ub]. rewrite Hy. cbn [or_ub].
        destruct (Z.eqb x y); [|reflexivity].
        destruct (Nat.ltb_spec p (length s)) as [Hlt|]; [|lia].
        destruct (Nat.ltb_spec b (length s)) as [Hlt'|]; [|lia]. cbn [or_ub andb].
        specialize (IH (S p) (S b) e ltac:(lia) ltac:(lia)).
        destruct (match_range_loop n v (S p) (S b) e) as [[p' []]| | | |]; auto.
        destruct IH as (I1 & I2 & I3). repeat split; auto. lia.
  Qed.

  (** * Lookbehind content: evaluation on the reversed subject *)
  Lemma match_string_bwalk : forall t p, forallb lit_ok t = true -> p <= length s ->
    match match_string (rev_view v) ci t p with
    | Ok p' => bwalk s ci t p = [p'] /\ p' <= length s
    | No => bwalk s ci t p = []
    | _ => True
    end.
  Proof.
    induction t as [|a t IH]; cbn [match_string bwalk forallb]; intros p Ht Hp; [auto|].
    apply andb_true_iff in Ht as [Ha Ht].
    cbn [rev_view arr_view vend vget vnext vprev vbeg or_ub].
    destruct p as [|q]; [reflexivity|]. cbn [Nat.eqb bstep].
    destruct (nth_error s q) as [x|] eqn:Ex; [|exfalso; apply nth_error_None in Ex; lia].
    cbn [or_ub]. rewrite match_lit_spec by (auto; eapply nth_val; eassumption).
    destruct (lit_has ci a x); [|reflexivity]. rewrite flat_map_one.
    apply (IH q Ht). lia.
  Qed.

  Lemma behind_spec : forall opt n w p f c l, f_ml f = ml -> f_ci f = ci ->
    forallb (bwf ci) l = true -> p <= length s ->
    match eval opt n (rev_view v) w p f c (map AR l ++ [AEndBehind]) with
    | Ok c' => c' = set_matched c /\ bseq s ml ci l p <> []
    | No => bseq s ml ci l p = []
    | _ => True
    end.
  Proof.
    intros opt. induction n as [|n IH]; intros w p f c l Hml Hci Hl Hp; [exact I|].
    destruct l as [|r l]; [cbn; split; [reflexivity|discriminate]|].
    cbn [map app forallb] in *. apply andb_true_iff in Hl as [Hr Hl]. rewrite bseq_cons.
    assert (Hfl : forall q b, q <= length s ->
      match eval opt n (rev_view v) w q (consumed_something f b) c (map AR l ++ [AEndBehind]) with
      | Ok c' => c' = set_matched c /\ bseq s ml ci l q <> []
      | No => bseq s ml ci l q = []
      | _ => True
      end).
    { intros q b Hq. apply IH; auto; destruct b; auto. }
    destruct r; cbn [bwf] in Hr; try discriminate; cbn [eval].
    - (* RCls *) cbn [rev_view arr_view vend vget vnext vprev vbeg or_ub benum bstep].
      destruct p as [|q]; [reflexivity|]. cbn [Nat.eqb bstep].
      destruct (nth_error s q) as [x|] eqn:Ex; [|exfalso; apply nth_error_None in Ex; lia].
      cbn [or_ub]. rewrite Hci. rewrite match_cls_spec by (auto; eapply nth_val; eassumption).
      destruct (cls_has ci c0 x); [|reflexivity]. rewrite flat_map_one. apply Hfl. lia.
    - (* RAny *) cbn [rev_view arr_view vend vget vnext vprev vbeg or_ub benum bstep].
      destruct p as [|q]; [reflexivity|]. cbn [Nat.eqb bstep].
      destruct (nth_error s q) as [x|] eqn:Ex; [|exfalso; apply nth_error_None in Ex; lia].
      cbn [or_ub]. rewrite Hml. unfold dot. destruct ml; cbn [option_map or_ub andb].
      + destruct (Z.eqb x 10); [reflexivity|]. cbn [negb]. rewrite flat_map_one. apply Hfl. lia.
      + cbn [negb]. rewrite flat_map_one. apply Hfl. lia.
    - (* RStr *) pose proof (match_string_bwalk l0 p Hr Hp) as M. rewrite Hci.
      cbn [benum].
      destruct (match_string (rev_view v) ci l0 p); auto.
      + destruct M as [M1 M2]. rewrite M1, flat_map_one. apply Hfl. assumption.
      + rewrite M. reflexivity.
    - (* RSelect *) destruct l0 as [|x xs]; [reflexivity|].
      cbn [forallb] in Hr. apply andb_true_iff in Hr as [Hx Hxs].
      rewrite benum_select_cons, flat_map_app.
      pose proof (IH w p f c (x :: l) Hml Hci) as I1. cbn [forallb] in I1. rewrite Hx, Hl in I1.
      specialize (I1 eq_refl Hp). cbn [map app] in I1. rewrite bseq_cons in I1.
      destruct (eval opt n (rev_view v) w p f c (AR x :: map AR l ++ [AEndBehind])); auto.
      + destruct I1 as [I1 I2]. split; [assumption|]. intros H. apply app_eq_nil in H. tauto.
      + rewrite I1. cbn [app].
        pose proof (IH w p f c (RSelect xs :: l) Hml Hci) as I2. cbn [forallb bwf] in I2.
        rewrite Hxs, Hl in I2. specialize (I2 eq_refl Hp). cbn [map app] in I2.
        rewrite bseq_cons in I2. exact I2.
    - (* RSeq *) destruct l0 as [|x xs]; [discriminate|]. cbn [nonempty andb forallb] in Hr.
      apply andb_true_iff in Hr as [Hx Hxs]. rewrite benum_seq.
      destruct xs as [|y ys].
      + pose proof (IH w p f c (x :: l) Hml Hci) as I1. cbn [forallb] in I1. rewrite Hx, Hl in I1.
        specialize (I1 eq_refl Hp). cbn [map app] in I1. rewrite bseq_cons in I1 |- *.
        replace (flat_map (bseq s ml ci []) (benum s ml ci x p)) with (benum s ml ci x p);
          [exact I1|].
        symmetry. apply flat_map_single.
      + pose proof (IH w p f c (x :: RSeq (y :: ys) :: l) Hml Hci) as I1.
        cbn [forallb] in I1. rewrite Hx, Hl in I1. cbn [bwf nonempty] in I1. rewrite Hxs in I1.
        specialize (I1 eq_refl Hp). cbn [map app] in I1. rewrite bseq_cons in I1 |- *.
        rewrite flat_map_flat.
        replace (flat_map (fun q => flat_map (bseq s ml ci l) (bseq s ml ci (y :: ys) q))
                          (benum s ml ci x p))
          with (flat_map (bseq s ml ci (RSeq (y :: ys) :: l)) (benum s ml ci x p)); [exact I1|].
        apply flat_map_ext_all. intros q. rewrite bseq_cons. reflexivity.
    - (* REmpty *) cbn [benum]. rewrite flat_map_one. apply (IH w p f c l); auto.
    - (* RBound *) rewrite Hci, around_boundary_rev by auto. cbn [benum].
      unfold boundary. rewrite xorb_comm.
      destruct (char_after s (cls_has ci c0) p), (char_before s (cls_has ci c0) p);
        cbn [Bool.eqb xorb flat_map]; auto; rewrite app_nil_r; apply IH; auto.
    - (* RNotBound *) rewrite Hci, around_boundary_rev by auto. cbn [benum].
      unfold boundary. rewrite xorb_comm.
      destruct (char_after s (cls_has ci c0) p), (char_before s (cls_has ci c0) p);
        cbn [Bool.eqb xorb flat_map]; auto; rewrite app_nil_r; apply IH; auto.
  Qed.
End Tests.
