(** How the number of steps grows with the length of the subject (C54): a degree computed from the pattern. *)
From Coq Require Import List ZArith NArith Bool Lia Arith ZifyBool ZifyN ZifyNat.
From Verif Require Import Chars Syntax First Utf8 View Eval Api EvalMono Term Cost.
Import ListNotations.
Local Open Scope N_scope.
(** * How the count grows with the subject *)
(** [rank opt r tl = (a, b)]: on subjects of length [n], [r] in front of [tl] takes at most
    [A * (n + 2) ^ a + A * (n + 2) ^ b * k] steps, where [tl] takes at most [k] and [A] depends on [r] and [tl] only. *)
Definition after (x y : nat * nat) : nat * nat := (Nat.max (fst x) (snd x + fst y), snd x + snd y)%nat.
Definition either_rank (x y : nat * nat) : nat * nat := (Nat.max (fst x) (fst y), Nat.max (snd x) (snd y)).
Definition top (x : nat * nat) : nat := Nat.max (fst x) (snd x).
Definition unbounded (b : N) : nat := if N.eqb b 0 then 1%nat else 0%nat.
Section Rank.
Variable opt : bool.
Fixpoint rank (r : re) (tl : list atom) {struct r} : nat * nat :=
  let seq := fix seq (l : list re) (tl : list atom) : nat * nat :=
    match l with
    | [] => (0, 0)%nat
    | [x] => rank x tl
    | x :: xs => after (rank x (AR (RSeq xs) :: tl)) (seq xs tl)
    end in
  let sel := fix sel (l : list re) : nat * nat := match l with [] => (0, 0)%nat | x :: xs => either_rank (rank x tl) (sel xs) end in
  let cyc := fix cyc (l : list re) : nat * nat := match l with [] => (0, 0)%nat | x :: xs => after (rank x (cycle xs)) (cyc xs) end in
  let poss b l := (unbounded b + top (cyc l), 0)%nat in
  let full b l := (unbounded b + top (cyc l), unbounded b)%nat in
  match r with
  | RSelect l => sel l
  | RSeq l => seq l tl
  | RRep Possessive _ b l => poss b l
  | RRep Lazy _ b l => full b l
  | RRep Greedy _ b l => match becomes_possessive opt l tl with Some true => poss b l | _ => full b l end
  | RAtomic l => poss 1 l
  | RCap id l | RNCap id _ l => after (seq l (ANum id :: tl)) (0, 0)%nat
  | RBack _ | RNBack _ => (1, 0)%nat
  | RAhead _ l => (top (seq l [AEndAhead]), 0)%nat
  | RBehind _ l => (top (seq l [AEndBehind]), 0)%nat
  | _ => (0, 0)%nat
  end.
Fixpoint cycle_rank (l : list re) : nat * nat := match l with [] => (0, 0)%nat | x :: xs => after (rank x (cycle xs)) (cycle_rank xs) end.

Definition pw (n : N) (a : nat) : N := (n + 2) ^ N.of_nat a.
Definition under (g : N -> N -> N) (ab : nat * nat) : Prop := exists A, forall n k, g n k <= A * pw n (fst ab) + A * pw n (snd ab) * k.
Lemma pw_mono : forall n a b, (a <= b)%nat -> pw n a <= pw n b.
Proof. intros n a b H. apply N.pow_le_mono_r; lia. Qed.
Lemma pw_pos : forall n a, 1 <= pw n a.
Proof. intros n a. pose proof (pw_mono n 0 a ltac:(lia)) as H. exact H. Qed.
Lemma pw_add : forall n a b, pw n (a + b) = pw n a * pw n b.
Proof. intros n a b. unfold pw. rewrite Nat2N.inj_add. apply N.pow_add_r. Qed.
Lemma pw_0 : forall n, pw n 0 = 1. Proof. reflexivity. Qed.
Lemma pw_1 : forall n, pw n 1 = n + 2. Proof. intros n. apply N.pow_1_r. Qed.
Lemma under_ext : forall g h ab, (forall n k, h n k <= g n k) -> under g ab -> under h ab.
Proof. intros g h ab E [A H]. exists A. intros n k. eapply N.le_trans; [apply E|apply H]. Qed.
Lemma under_const : forall c ab, under (fun _ _ => c) ab.
Proof. intros c [a b]. exists c. intros n k. cbn [fst snd]. pose proof (pw_pos n a). nia. Qed.
Lemma under_id : under (fun _ k => k) (0, 0)%nat.
Proof. exists 1. intros n k. cbn [fst snd]. rewrite !pw_0. lia. Qed.
Lemma under_mono : forall g ab ab', (fst ab <= fst ab')%nat -> (snd ab <= snd ab')%nat -> under g ab -> under g ab'.
Proof.
  intros g [a b] [a' b'] H1 H2 [A H]. exists A. intros n k. specialize (H n k). cbn [fst snd] in *.
  pose proof (pw_mono n a a' H1). pose proof (pw_mono n b b' H2). 
  assert (A * pw n a <= A * pw n a') by (apply N.mul_le_mono_l; assumption).
  assert (A * pw n b * k <= A * pw n b' * k) by (apply N.mul_le_mono_r, N.mul_le_mono_l; assumption). lia.
Qed.
Lemma under_add : forall g h x, under g x -> under h x -> under (fun n k => g n k + h n k) x.
Proof. intros g h [a b] [A HA] [B HB]. exists (A + B). intros n k. specialize (HA n k). specialize (HB n k). cbn [fst snd] in *. nia. Qed.
Lemma under_after : forall g h x y, under g x -> under h y -> under (fun n k => g n (h n k)) (after x y).
Proof.
  intros g h [a b] [a' b'] [A HA] [B HB]. exists (A + A * B). intros n k. specialize (HA n (h n k)). specialize (HB n k). unfold after. cbn [fst snd] in *.
  rewrite pw_add. pose proof (pw_mono n a (Nat.max a (b + a')) ltac:(lia)) as P1. pose proof (pw_mono n (b + a') (Nat.max a (b + a')) ltac:(lia)) as P2.
  rewrite pw_add in P2. set (U := pw n (Nat.max a (b + a'))) in *. set (X := pw n a) in *. set (Y := pw n b) in *.
  set (T := pw n a') in *. set (W := pw n b') in *.
  assert (Q1 : A * X <= A * U) by (apply N.mul_le_mono_l; assumption).
  assert (Q2 : A * Y * h n k <= A * Y * (B * T + B * W * k)) by (apply N.mul_le_mono_l; assumption).
  assert (Q3 : A * B * (Y * T) <= A * B * U) by (apply N.mul_le_mono_l; assumption).
  assert (Q4 : A * Y * (B * T + B * W * k) = A * B * (Y * T) + A * B * (Y * W) * k) by ring.
  replace ((A + A * B) * U + (A + A * B) * (Y * W) * k) with (A * U + A * B * U + A * B * (Y * W) * k + A * (Y * W) * k) by ring. lia.
Qed.
Lemma under_fixed : forall g x c, under g x -> exists A, forall n, g n c <= A * pw n (top x).
Proof.
  intros g [a b] c [A HA]. exists (A + A * c). intros n. specialize (HA n c). cbn [fst snd] in *. unfold top. cbn [fst snd].
  pose proof (pw_mono n a (Nat.max a b) ltac:(lia)) as P1. pose proof (pw_mono n b (Nat.max a b) ltac:(lia)) as P2. set (U := pw n (Nat.max a b)) in *.
  assert (A * pw n a <= A * U) by (apply N.mul_le_mono_l; assumption).
  assert (A * pw n b * c <= A * U * c) by (apply N.mul_le_mono_r, N.mul_le_mono_l; assumption).
  replace ((A + A * c) * U) with (A * U + A * U * c) by ring. lia.
Qed.
Lemma turns_pw : forall b, exists A, forall n, turns n b + 1 <= A * pw n (unbounded b).
Proof.
  intros b. unfold turns, unbounded. destruct (N.eqb b 0); [exists 1; intros n; rewrite pw_1; lia|exists (b + 1); intros n; rewrite pw_0; lia].
Qed.
(** A loop: the turns, the body, and what follows. *)
Lemma under_poss : forall b (g : N -> N) t, (exists A, forall n, g n <= A * pw n t) ->
  under (fun n k => 1 + (1 + g n) * (turns n b + 1) + k) (unbounded b + t, 0)%nat.
Proof.
  intros b g t [A HA]. destruct (turns_pw b) as [B HB]. exists (1 + (1 + A) * B). intros n k. specialize (HA n). specialize (HB n). cbn [fst snd].
  rewrite pw_add, pw_0. set (X := pw n (unbounded b)) in *. pose proof (pw_pos n t) as PY. set (Y := pw n t) in *. pose proof (pw_pos n (unbounded b)) as PX. fold X in PX.
  assert (1 + g n <= (1 + A) * Y) by nia. assert ((1 + g n) * (turns n b + 1) <= (1 + A) * Y * (B * X)) by (apply N.mul_le_mono; assumption).
  assert (1 <= X * Y) by nia. nia.
Qed.
Lemma under_full : forall b (g : N -> N) t, (exists A, forall n, g n <= A * pw n t) ->
  under (fun n k => 1 + (1 + g n) * (turns n b + 1) + k + (1 + g n + k) * (turns n b + 1)) (unbounded b + t, unbounded b)%nat.
Proof.
  intros b g t H.
  assert (U1 : under (fun n k => 1 + (1 + g n) * (turns n b + 1) + k) (unbounded b + t, unbounded b)%nat).
  { eapply under_mono; [| |apply under_poss, H]; cbn [fst snd]; lia. }
  assert (U2 : under (fun n k => k * (turns n b + 1)) (unbounded b + t, unbounded b)%nat).
  { destruct (turns_pw b) as [B HB]. exists B. intros n k. specialize (HB n). cbn [fst snd]. nia. }
  eapply under_ext; [|apply under_add; [apply under_add; [exact U1|exact U1]|exact U2]].
  intros n k. cbv beta. set (G := g n). set (T := turns n b + 1).
  replace ((1 + G + k) * T) with ((1 + G) * T + k * T) by ring. lia.
Qed.
Lemma rank_cyc_fix : forall l, (fix cyc (l : list re) : nat * nat := match l with [] => (0, 0)%nat | x :: xs => after (rank x (cycle xs)) (cyc xs) end) l = cycle_rank l.
Proof. induction l as [|x l IH]; [reflexivity|]. cbn [cycle_rank]. rewrite <- IH. reflexivity. Qed.
Lemma heavy_poss : forall n a b l tl k, weigh opt n (RRep Possessive a b l) tl k = 1 + (1 + weighs opt n (cycle l)) * (turns n b + 1) + k.
Proof. intros n a b l tl k. pose proof (weigh_poss opt (N.to_nat n) a b l tl k) as H. unfold poss_weight in H. rewrite N2Nat.id in H. exact H. Qed.
Lemma heavy_lazy : forall n a b l tl k, weigh opt n (RRep Lazy a b l) tl k =
  1 + (1 + weighs opt n (cycle l)) * (turns n b + 1) + k + (1 + weighs opt n (cycle l) + k) * (turns n b + 1).
Proof. intros n a b l tl k. pose proof (weigh_lazy opt (N.to_nat n) a b l tl k) as H. unfold full_weight, poss_weight in H. rewrite N2Nat.id in H. exact H. Qed.
Lemma heavy_greedy : forall n a b l tl k, weigh opt n (RRep Greedy a b l) tl k =
  match becomes_possessive opt l tl with
  | Some true => 1 + (1 + (1 + weighs opt n (cycle l)) * (turns n b + 1) + k)
  | _ => 1 + (1 + weighs opt n (cycle l)) * (turns n b + 1) + k + (1 + weighs opt n (cycle l) + k) * (turns n b + 1)
  end.
Proof. intros n a b l tl k. pose proof (weigh_greedy opt (N.to_nat n) a b l tl k) as H. unfold full_weight, poss_weight in H. rewrite N2Nat.id in H. exact H. Qed.
Lemma heavy_atomic : forall n l tl k, weigh opt n (RAtomic l) tl k = 1 + (1 + (1 + weighs opt n (cycle l)) * (turns n 1 + 1) + k).
Proof. intros n l tl k. pose proof (weigh_atomic opt (N.to_nat n) l tl k) as H. unfold poss_weight in H. rewrite N2Nat.id in H. exact H. Qed.
Theorem rank_bound : forall r tl, under (fun n k => weigh opt n r tl k) (rank r tl).
Proof.
  intros r. induction r using re_ind2 with
    (Q := fun l => (forall tl, under (fun n k => weigh opt n (RSeq l) tl k) (rank (RSeq l) tl)) /\
                   (forall tl, under (fun n k => weigh opt n (RSelect l) tl k) (rank (RSelect l) tl)) /\
                   under (fun n k => weighs opt n (cycle l)) (cycle_rank l)).
  - split; [|split]; intros; eapply under_ext; try apply (under_const 2); intros n k; cbn; lia.
  - destruct IHr0 as (I1 & I2 & I3). split; [|split].
    + intros tl. destruct l as [|y l].
      * eapply under_ext; [|apply under_add; [apply (under_const 1)|apply (IHr tl)]]. intros n k. apply N.le_refl.
      * change (rank (RSeq (r :: y :: l)) tl) with (after (rank r (AR (RSeq (y :: l)) :: tl)) (rank (RSeq (y :: l)) tl)).
        eapply under_ext; [|apply under_add; [apply (under_const 1)|apply under_after; [apply (IHr (AR (RSeq (y :: l)) :: tl))|apply (I1 tl)]]].
        intros n k. apply N.le_refl.
    + intros tl. change (rank (RSelect (r :: l)) tl) with (either_rank (rank r tl) (rank (RSelect l) tl)).
      eapply under_ext; [|apply under_add; [apply (under_const 1)|apply under_add;
        [eapply under_mono; [| |apply (IHr tl)]|eapply under_mono; [| |apply (I2 tl)]]]]; try (unfold either_rank; cbn [fst snd]; lia).
      intros n k. apply N.le_refl.
    + cbn [cycle_rank]. eapply under_ext; [|apply under_after; [apply (IHr (cycle l))|exact I3]]. intros n k. apply N.le_refl.
  - intros tl. eapply under_ext; [|apply under_add; [apply (under_const 1)|apply under_id]]. intros n k. cbn [weigh]. apply N.le_refl.
  - intros tl. eapply under_ext; [|apply under_add; [apply (under_const 1)|apply under_id]]. intros n k. cbn [weigh]. apply N.le_refl.
  - intros tl. eapply under_ext; [|apply under_add; [apply (under_const (1 + N.of_nat (length l)))|apply under_id]]. intros n k. cbn [weigh]. apply N.le_refl.
  - apply IHr.
  - apply IHr.
  - intros tl. eapply under_ext; [|apply under_add; [apply (under_const 1)|apply under_id]]. intros n k. cbn [weigh]. apply N.le_refl.
  - intros tl. eapply under_ext; [|apply under_add; [apply (under_const 1)|apply under_id]]. intros n k. cbn [weigh]. apply N.le_refl.
  - destruct IHr as (_ & _ & I3). apply (under_fixed _ _ 0) in I3.
    pose proof (under_poss b _ _ I3) as UP. pose proof (under_full b _ _ I3) as UF. intros tl.
    destruct k.
    + cbn [rank]. rewrite rank_cyc_fix. destruct (becomes_possessive opt l tl) as [[]|] eqn:Eb.
      * eapply under_ext; [|apply under_add; [apply (under_const 1)|exact UP]]. intros n k. rewrite (heavy_greedy n), Eb. apply N.le_refl.
      * eapply under_ext; [|exact UF]. intros n k. rewrite (heavy_greedy n), Eb. apply N.le_refl.
      * eapply under_ext; [|exact UF]. intros n k. rewrite (heavy_greedy n), Eb. apply N.le_refl.
    + cbn [rank]. rewrite rank_cyc_fix. eapply under_ext; [|exact UF]. intros n k. rewrite (heavy_lazy n). apply N.le_refl.
    + cbn [rank]. rewrite rank_cyc_fix. eapply under_ext; [|exact UP]. intros n k. rewrite (heavy_poss n). apply N.le_refl.
  - destruct IHr as (I1 & _). intros tl. specialize (I1 (ANum i :: tl)).
    change (rank (RCap i l) tl) with (after (rank (RSeq l) (ANum i :: tl)) (0, 0)%nat).
    eapply under_ext; [|apply under_add; [apply (under_const 1)|apply under_after; [exact I1|apply under_add; [apply (under_const 1)|apply under_id]]]].
    intros n k. apply N.le_refl.
  - destruct IHr as (I1 & _). intros tl. specialize (I1 (ANum i :: tl)).
    change (rank (RNCap i nm l) tl) with (after (rank (RSeq l) (ANum i :: tl)) (0, 0)%nat).
    eapply under_ext; [|apply under_add; [apply (under_const 1)|apply under_after; [exact I1|apply under_add; [apply (under_const 1)|apply under_id]]]].
    intros n k. apply N.le_refl.
  - intros tl. exists 2. intros n k. cbn [rank weigh fst snd]. rewrite pw_0, pw_1. lia.
  - intros tl. exists 2. intros n0 k. cbn [rank weigh fst snd]. rewrite pw_0, pw_1. lia.
  - destruct IHr as (I1 & _). intros tl. destruct (under_fixed _ _ 2 (I1 [AEndAhead])) as [A HA].
    exists (A + 1). intros m k. specialize (HA m). change (weigh opt m (RAhead n l) tl k) with (1 + weigh opt m (RSeq l) [AEndAhead] 2 + k).
    change (rank (RAhead n l) tl) with (top (rank (RSeq l) [AEndAhead]), 0%nat). cbn [fst snd]. rewrite pw_0.
    pose proof (pw_pos m (top (rank (RSeq l) [AEndAhead]))). nia.
  - destruct IHr as (I1 & _). intros tl. destruct (under_fixed _ _ 2 (I1 [AEndBehind])) as [A HA].
    exists (A + 1). intros m k. specialize (HA m). change (weigh opt m (RBehind n l) tl k) with (1 + weigh opt m (RSeq l) [AEndBehind] 2 + k).
    change (rank (RBehind n l) tl) with (top (rank (RSeq l) [AEndBehind]), 0%nat). cbn [fst snd]. rewrite pw_0.
    pose proof (pw_pos m (top (rank (RSeq l) [AEndBehind]))). nia.
  - destruct IHr as (_ & _ & I3). apply (under_fixed _ _ 0) in I3. pose proof (under_poss 1 _ _ I3) as UP. intros tl.
    cbn [rank]. rewrite rank_cyc_fix. eapply under_ext; [|apply under_add; [apply (under_const 1)|exact UP]]. intros n k. rewrite (heavy_atomic n). apply N.le_refl.
  - intros tl. eapply under_ext; [|apply under_add; [apply (under_const 1)|apply under_id]]. intros n k. cbn [weigh]. apply N.le_refl.
  - intros tl. eapply under_ext; [|apply under_add; [apply (under_const 1)|apply under_id]]. intros n k. cbn [weigh]. apply N.le_refl.
  - intros tl. eapply under_ext; [|apply under_add; [apply (under_const 1)|apply under_id]]. intros n k. cbn [weigh]. apply N.le_refl.
  - intros tl. eapply under_ext; [|apply under_add; [apply (under_const 1)|apply under_id]]. intros n k. cbn [weigh]. apply N.le_refl.
Qed.
End Rank.

(** * The entry points *)
Definition match_tail : list atom := [AR (RAssert ASubjectEnd); AEnd; AAccept].
Definition open_tail : list atom := [AEnd; AAccept].
(** The degree of the bound. *)
Definition degree (opt : bool) (r : re) (tl : list atom) : nat := top (rank opt r tl).
Section Entries.
Variables (opt : bool) (r : re).
Hypothesis Hr : terminating r = true.
Lemma stack_bound : forall tl, sterm tl = true -> (exists k, forall n, weighs opt n tl = k) ->
  exists A, forall len n v w f c p, fwd len v -> fwd len w -> cost opt n v w p f c (AStart :: AR r :: tl) <= A * pw (N.of_nat len) (degree opt r tl).
Proof.
  intros tl Ht [k Hk]. destruct (under_fixed _ _ k (rank_bound opt r tl)) as [A HA]. exists (A + 1). intros len n v w f c p Hv Hw.
  destruct (cost_all opt len n) as [HE _]. specialize (HE v w p f c (AStart :: AR r :: tl)).
  assert (G : good len v (AStart :: AR r :: tl)) by (left; split; [exact Hv|]; unfold sterm in *; cbn [forallb]; rewrite Hr; exact Ht).
  specialize (HE G Hw). cbn [weighs] in HE. rewrite Hk in HE. specialize (HA (N.of_nat len)).
  unfold degree. pose proof (pw_pos (N.of_nat len) (top (rank opt r tl))). nia.
Qed.
Lemma match_steps : exists A, forall len n v w f p, fwd len v -> fwd len w -> match_cost opt n v w f r p <= A * pw (N.of_nat len) (degree opt r match_tail).
Proof. destruct (stack_bound match_tail eq_refl ltac:(exists 4; intros n; reflexivity)) as [A H]. exists A. intros. apply H; assumption. Qed.
Lemma starts_steps : exists A, forall len n v w f p, fwd len v -> fwd len w -> starts_cost opt n v w f r p <= A * pw (N.of_nat len) (degree opt r open_tail).
Proof. destruct (stack_bound open_tail eq_refl ltac:(exists 3; intros n; reflexivity)) as [A H]. exists A. intros. apply H; assumption. Qed.
Lemma search_steps : exists A, forall len n v w f m p, fwd len v -> fwd len w ->
  search_cost opt n v w f r m p <= A * pw (N.of_nat len) (S (degree opt r open_tail)).
Proof.
  destruct starts_steps as [A HA]. exists (1 + A). intros len n v w f m p Hv Hw.
  set (X := pw (N.of_nat len) (degree opt r open_tail)).
  assert (H : search_cost opt n v w f r m p <= (1 + A * X) * (N.of_nat (len - p) + 1)).
  { revert p. induction m as [|m IH]; intros p; cbn [search_cost]; [nia|].
    destruct (vend v p) as [e|]; cbn [when]; [|nia].
    pose proof (HA len n v w f p Hv Hw) as H. fold X in H.
    destruct (negb e && negb (starts_with_anchor f r))%bool; [|nia].
    destruct (eval opt n v w p f (fresh r) [AStart; AR r; AEnd; AAccept]); try nia.
    destruct (vnext v p) as [q|] eqn:E; cbn [when]; [|nia]. apply Hv in E. specialize (IH q). set (Y := 1 + A * X) in *.
    assert (N.of_nat (len - q) + 1 <= N.of_nat (len - p)) as L by lia.
    assert (Y * (N.of_nat (len - q) + 1) <= Y * N.of_nat (len - p)) by (apply N.mul_le_mono_l; exact L). nia. }
  change (S (degree opt r open_tail)) with (1 + degree opt r open_tail)%nat. rewrite pw_add, pw_1. fold X.
  pose proof (pw_pos (N.of_nat len) (degree opt r open_tail)) as P. fold X in P.
  assert (1 + A * X <= (1 + A) * X) by nia. assert (N.of_nat (len - p) + 1 <= N.of_nat len + 2) by lia.
  assert ((1 + A * X) * (N.of_nat (len - p) + 1) <= (1 + A) * X * (N.of_nat len + 2)) by (apply N.mul_le_mono; assumption). nia.
Qed.
(** Fuel beyond the bound always suffices: the depth of the recursion is bounded as well. *)
Lemma match_fuel : exists A, forall len n v w f p, fwd len v -> fwd len w -> A * pw (N.of_nat len) (degree opt r match_tail) <= N.of_nat n ->
  exec_match opt n v w f r p <> Fuel.
Proof.
  destruct match_steps as [A H]. exists A. intros len n v w f p Hv Hw L E. unfold exec_match, returned in E.
  destruct (eval opt n v w p f (fresh r) _) eqn:Ev; try discriminate. apply (proj1 (depth_all opt n)) in Ev.
  specialize (H len n v w f p Hv Hw). unfold match_cost in H. lia.
Qed.
Lemma starts_fuel : exists A, forall len n v w f p, fwd len v -> fwd len w -> A * pw (N.of_nat len) (degree opt r open_tail) <= N.of_nat n ->
  exec_starts_with opt n v w f r p <> Fuel.
Proof.
  destruct starts_steps as [A H]. exists A. intros len n v w f p Hv Hw L E. unfold exec_starts_with, returned in E.
  destruct (eval opt n v w p f (fresh r) _) eqn:Ev; try discriminate. apply (proj1 (depth_all opt n)) in Ev.
  specialize (H len n v w f p Hv Hw). unfold starts_cost in H. lia.
Qed.
Lemma search_fuel : exists A, forall len n v w f p, fwd len v -> fwd len w -> A * pw (N.of_nat len) (S (degree opt r open_tail)) <= N.of_nat n ->
  exec_search opt n v w f r p <> Fuel.
Proof.
  destruct starts_steps as [A H]. exists (A + 2). intros len n v w f p Hv Hw L.
  change (S (degree opt r open_tail)) with (1 + degree opt r open_tail)%nat in L. rewrite pw_add, pw_1 in L.
  pose proof (pw_pos (N.of_nat len) (degree opt r open_tail)) as P.
  assert (Ev : forall q, eval opt n v w q f (fresh r) [AStart; AR r; AEnd; AAccept] <> Fuel).
  { intros q E. apply (proj1 (depth_all opt n)) in E. specialize (H len n v w f q Hv Hw). unfold starts_cost in H. nia. }
  unfold exec_search. assert (M : (len - p < n)%nat) by nia. clear L H P. revert M.
  enough (G : forall m q, (len - q < m)%nat -> search_loop opt n v w f r m q <> Fuel) by (apply G). clear p. intros m p. revert p.
  induction m as [|m IH]; intros p M; [lia|]. cbn [search_loop]. destruct (vend v p) as [e|]; cbn [or_ub]; [|discriminate].
  destruct (negb e && negb (starts_with_anchor f r))%bool.
  - specialize (Ev p). destruct (eval opt n v w p f (fresh r) _); try congruence. destruct (vnext v p) as [q|] eqn:E; cbn [or_ub]; [|discriminate].
    apply Hv in E. apply IH. lia.
  - unfold search_last. specialize (Ev p). destruct (eval opt n v w p f (fresh r) _); congruence.
Qed.
End Entries.
(** The count is that of the call: it does not depend on the fuel of a call that answers. *)
Lemma match_count : forall opt n m v w f r p, (n <= m)%nat -> exec_match opt n v w f r p <> Fuel ->
  match_cost opt m v w f r p = match_cost opt n v w f r p.
Proof.
  intros opt n m v w f r p L H. unfold match_cost. apply (proj1 (stable_all opt n m L)). intros E. apply H. unfold exec_match. rewrite E. reflexivity.
Qed.
(** The greedy optimisation never raises the degree. *)
Definition lower (x y : nat * nat) : Prop := (fst x <= fst y)%nat /\ (snd x <= snd y)%nat.
Lemma lower_refl : forall x, lower x x.
Proof. split; apply Nat.le_refl. Qed.
Lemma after_lower : forall x y x' y', lower x x' -> lower y y' -> lower (after x y) (after x' y').
Proof. intros x y x' y' [] []. unfold lower, after in *. cbn [fst snd]. lia. Qed.
Lemma top_lower : forall x y, lower x y -> (top x <= top y)%nat.
Proof. intros x y []. unfold top. lia. Qed.
Lemma rank_lower : forall r tl, lower (rank true r tl) (rank false r tl).
Proof.
  intros r. induction r using re_ind2 with
    (Q := fun l => (forall tl, lower (rank true (RSeq l) tl) (rank false (RSeq l) tl)) /\
                   (forall tl, lower (rank true (RSelect l) tl) (rank false (RSelect l) tl)) /\
                   lower (cycle_rank true l) (cycle_rank false l));
    try (intros tl; split; apply Nat.le_refl).
  - split; [|split]; intros; split; apply Nat.le_refl.
  - destruct IHr0 as (I1 & I2 & I3). split; [|split].
    + intros tl. destruct l as [|y l]; [apply IHr|].
      change (lower (after (rank true r (AR (RSeq (y :: l)) :: tl)) (rank true (RSeq (y :: l)) tl))
                    (after (rank false r (AR (RSeq (y :: l)) :: tl)) (rank false (RSeq (y :: l)) tl))).
      apply after_lower; auto.
    + intros tl. specialize (IHr tl). specialize (I2 tl).
      change (lower (either_rank (rank true r tl) (rank true (RSelect l) tl)) (either_rank (rank false r tl) (rank false (RSelect l) tl))).
      destruct IHr, I2. unfold lower, either_rank. cbn [fst snd]. lia.
    + cbn [cycle_rank]. apply after_lower; auto.
  - apply IHr.
  - apply IHr.
  - destruct IHr as (_ & _ & I). apply top_lower in I. intros tl. cbn [rank]. rewrite !rank_cyc_fix.
    destruct k; try (split; cbn [fst snd]; lia).
    change (becomes_possessive false l tl) with (Some false). destruct (becomes_possessive true l tl) as [[]|]; split; cbn [fst snd]; lia.
  - destruct IHr as (I & _). intros tl. exact (after_lower _ _ _ _ (I (ANum i :: tl)) (lower_refl (0, 0)%nat)).
  - destruct IHr as (I & _). intros tl. exact (after_lower _ _ _ _ (I (ANum i :: tl)) (lower_refl (0, 0)%nat)).
  - destruct IHr as (I & _). intros tl. split; [exact (top_lower _ _ (I [AEndAhead]))|apply Nat.le_refl].
  - destruct IHr as (I & _). intros tl. split; [exact (top_lower _ _ (I [AEndBehind]))|apply Nat.le_refl].
  - destruct IHr as (_ & _ & I). apply top_lower in I. intros tl. cbn [rank]. rewrite !rank_cyc_fix. split; cbn [fst snd]; lia.
Qed.
Lemma degree_lower : forall r tl, (degree true r tl <= degree false r tl)%nat.
Proof. intros r tl. apply top_lower, rank_lower. Qed.

(** * The pattern matters *)
(** [(?:a|a)] [k] times and then [b], on [k] times [a]. *)
Definition twin : re := RSelect [RCls (CChar 97); RCls (CChar 97)].
Definition twins (k : nat) : re := RSeq (repeat twin k ++ [RCls (CChar 98)]).
Lemma twins_cost : forall opt tl j p n f c, (4 * j + 2 <= n)%nat ->
  let v := arr_view (repeat 97%Z (p + j)) in
  eval opt n v v p f c (AR (twins j) :: tl) = No /\ 2 ^ N.of_nat j <= cost opt n v v p f c (AR (twins j) :: tl).
Proof.
  intros opt tl. induction j as [|j IH]; intros p n f c L.
  - destruct n as [|[|n]]; try lia. cbv zeta. rewrite Nat.add_0_r. unfold twins. cbn [repeat app eval cost].
    assert (E : vend (arr_view (repeat 97%Z p)) p = Some true).
    { cbn [vend arr_view]. rewrite repeat_length. rewrite Nat.eqb_refl. reflexivity. }
    rewrite E. cbn [or_ub when]. split; [reflexivity|]. cbn. lia.
  - destruct n as [|[|[|[|n]]]]; try lia. cbv zeta. rewrite <- Nat.add_succ_comm. set (v := arr_view (repeat 97%Z (S p + j))).
    assert (E1 : vend v p = Some false).
    { unfold v. cbn [vend arr_view]. rewrite repeat_length. destruct (Nat.eqb_spec p (S p + j)); [lia|reflexivity]. }
    assert (E2 : vget v p = Some 97%Z).
    { unfold v. cbn [vget arr_view]. apply nth_error_repeat. lia. }
    assert (E3 : vnext v p = Some (S p)).
    { unfold v. cbn [vnext arr_view]. rewrite repeat_length. destruct (Nat.ltb_spec p (S p + j)); [reflexivity|lia]. }
    assert (Shape : exists y ys, twins (S j) = RSeq (twin :: y :: ys) /\ twins j = RSeq (y :: ys)).
    { unfold twins. cbn [repeat app]. destruct (repeat twin j ++ [RCls (CChar 98)]) as [|y ys] eqn:E; [destruct (repeat twin j); discriminate|].
      exists y, ys. split; reflexivity. }
    destruct Shape as (y & ys & -> & Sj).
    assert (C : forall m f0, (4 * j + 2 <= m)%nat ->
      eval opt (S m) v v p f0 c (AR (RCls (CChar 97)) :: AR (RSeq (y :: ys)) :: tl) = No /\
      2 ^ N.of_nat j <= cost opt (S m) v v p f0 c (AR (RCls (CChar 97)) :: AR (RSeq (y :: ys)) :: tl)).
    { intros m f0 Lm. cbn [eval cost]. rewrite E1. cbn [or_ub when]. rewrite E2. cbn [or_ub when].
      assert (M : match_cls (f_ci f0) (CChar 97) 97%Z = true) by (destruct (f_ci f0); vm_compute; reflexivity). rewrite M, E3. cbn [or_ub when].
      destruct (IH (S p) m (consumed_something f0 true) c Lm) as [I1 I2]. rewrite Sj in I1, I2. fold v in I1, I2. split; [exact I1|lia]. }
    destruct (C (S n) f ltac:(lia)) as [C1 C2]. destruct (C n f ltac:(lia)) as [C3 C4].
    assert (R1 : eval opt (S (S (S n))) v v p f c (AR twin :: AR (RSeq (y :: ys)) :: tl) = No /\
      2 * 2 ^ N.of_nat j <= cost opt (S (S (S n))) v v p f c (AR twin :: AR (RSeq (y :: ys)) :: tl)).
    { unfold twin.
      change (eval opt (S (S (S n))) v v p f c (AR (RSelect [RCls (CChar 97); RCls (CChar 97)]) :: AR (RSeq (y :: ys)) :: tl)) with
        (match eval opt (S (S n)) v v p f c (AR (RCls (CChar 97)) :: AR (RSeq (y :: ys)) :: tl) with
         | No => match eval opt (S n) v v p f c (AR (RCls (CChar 97)) :: AR (RSeq (y :: ys)) :: tl) with
                 | No => No | x => x end
         | x => x end).
      change (cost opt (S (S (S n))) v v p f c (AR (RSelect [RCls (CChar 97); RCls (CChar 97)]) :: AR (RSeq (y :: ys)) :: tl)) with
        (1 + (cost opt (S (S n)) v v p f c (AR (RCls (CChar 97)) :: AR (RSeq (y :: ys)) :: tl) +
         match eval opt (S (S n)) v v p f c (AR (RCls (CChar 97)) :: AR (RSeq (y :: ys)) :: tl) with
         | No => 1 + (cost opt (S n) v v p f c (AR (RCls (CChar 97)) :: AR (RSeq (y :: ys)) :: tl) +
                      match eval opt (S n) v v p f c (AR (RCls (CChar 97)) :: AR (RSeq (y :: ys)) :: tl) with
                      | No => cost opt (S n) v v p f c (AR (RSelect []) :: AR (RSeq (y :: ys)) :: tl) | _ => 0 end)
         | _ => 0 end)).
      rewrite C1, C3. split; [reflexivity|lia]. }
    destruct R1 as [R1 R2]. 
    change (eval opt (S (S (S (S n)))) v v p f c (AR (RSeq (twin :: y :: ys)) :: tl)) with (eval opt (S (S (S n))) v v p f c (AR twin :: AR (RSeq (y :: ys)) :: tl)).
    change (cost opt (S (S (S (S n)))) v v p f c (AR (RSeq (twin :: y :: ys)) :: tl)) with (1 + cost opt (S (S (S n))) v v p f c (AR twin :: AR (RSeq (y :: ys)) :: tl)).
    rewrite R1. split; [reflexivity|]. rewrite Nat2N.inj_succ, N.pow_succ_r'. lia.
Qed.
Lemma twins_match : forall opt k n f, (4 * k + 3 <= n)%nat ->
  let v := arr_view (repeat 97%Z k) in 2 ^ N.of_nat k <= match_cost opt n v v f (twins k) 0 /\ degree opt (twins k) match_tail = 0%nat.
Proof.
  intros opt k n f L v. split.
  - destruct n as [|n]; [lia|]. change (2 ^ N.of_nat k <= 1 + cost opt n v v 0 f (set_start_mark 0 (fresh (twins k))) (AR (twins k) :: match_tail)).
    destruct (twins_cost opt match_tail k 0 n f (set_start_mark 0 (fresh (twins k))) ltac:(lia)) as [_ H]. cbn [Nat.add] in H. fold v in H. lia.
  - unfold degree. assert (E : forall tl, rank opt (twins k) tl = (0, 0)%nat); [|rewrite E; reflexivity]. clear. induction k as [|k IH]; intros tl; [reflexivity|].
    unfold twins in *. cbn [repeat app]. destruct (repeat twin k ++ [RCls (CChar 98)]) as [|y ys] eqn:E; [destruct (repeat twin k); discriminate|].
    change (after (rank opt twin (AR (RSeq (y :: ys)) :: tl)) (rank opt (RSeq (y :: ys)) tl) = (0, 0)%nat). rewrite IH. reflexivity.
Qed.
