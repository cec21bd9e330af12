(** tests/is_prime.cpp for every input: which texts the pattern [.?|(..+?)\g{1}+] matches. *)
From Coq Require Import List ZArith NArith Bool Lia Arith Znumtheory ZifyNat.
From Verif Require Import Chars Syntax Spec Eval Mode ModeSem ModeEnum Views EvalTop Committed.
Import ListNotations.
Local Open Scope nat_scope.

(** ** A text that is a power *)
Lemma prefix_at_spec : forall (s t : list Z) p, prefix_at s t p = true <-> firstn (length t) (skipn p s) = t.
Proof.
  intros s t. induction t as [|v t IH]; intros p; cbn [prefix_at length firstn]; [split; reflexivity|].
  assert (E : nth_error s p = hd_error (skipn p s)) by (revert p; clear; induction s as [|x s IH]; intros [|p]; try reflexivity; exact (IH p)).
  assert (T : skipn (S p) s = tl (skipn p s)) by (revert p E; clear; induction s as [|x s IH]; intros [|p] _; try reflexivity; apply IH; clear; revert p; induction s as [|y s IH]; intros [|p]; try reflexivity; exact (IH p)).
  rewrite E. specialize (IH (S p)). rewrite T in IH. destruct (skipn p s) as [|x l]; cbn [hd_error tl] in *; [split; discriminate|].
  rewrite andb_true_iff, Z.eqb_eq, IH. split; [intros [-> H]; rewrite H; reflexivity|intros H; injection H as -> H; auto].
Qed.
Lemma skipn_add : forall A (l : list A) a b, skipn (a + b) l = skipn b (skipn a l).
Proof. induction l as [|x l IH]; intros [|a] b; cbn [skipn Nat.add]; try reflexivity; [destruct b; reflexivity|apply IH]. Qed.

Definition power (w : list Z) (k : nat) : list Z := concat (repeat w k).
Lemma power_length : forall w k, length (power w k) = k * length w.
Proof. intros w k. unfold power. induction k as [|k IH]; cbn; [reflexivity|]. rewrite app_length, IH. reflexivity. Qed.
Lemma power_piece : forall w k i, i < k -> firstn (length w) (skipn (i * length w) (power w k)) = w.
Proof.
  intros w k i. revert k. induction i as [|i IH]; intros [|k] H; try lia; unfold power; cbn [repeat concat Nat.mul].
  - cbn [skipn]. rewrite firstn_app, Nat.sub_diag, firstn_all. cbn. apply app_nil_r.
  - rewrite skipn_add, skipn_app, Nat.sub_diag, skipn_all. cbn [app skipn]. apply IH. lia.
Qed.
Lemma pieces_power : forall w k s, length s = k * length w -> (forall i, i < k -> firstn (length w) (skipn (i * length w) s) = w) -> s = power w k.
Proof.
  intros w. induction k as [|k IH]; intros s L H; unfold power; cbn [repeat concat].
  - destruct s; [reflexivity|discriminate].
  - rewrite <- (firstn_skipn (length w) s). f_equal.
    + apply (H 0). lia.
    + apply IH.
      * rewrite skipn_length. cbn [Nat.mul] in L. lia.
      * intros i Hi. rewrite <- skipn_add. apply (H (S i)). lia.
Qed.

(** ** The pattern *)
Definition prime_pattern (kd kd' : rkind) : re :=
  RSelect [RRep kd 0 1 [RAny]; RSeq [RCap 1 [RAny; RRep Lazy 1 0 [RAny]]; RRep kd' 1 0 [RBack 1]]].

Section Run.
Variable s : list Z.
Variable names : list Z -> option nat.
Variable ci : bool.
Notation m := (@pair bool bool false ci).
Notation n := (length s).

Lemma any_enum : forall k p lg, xenum s names RAny (m, (k, (p, lg))) = if Nat.ltb p n then [(m, (false, (S p, lg)))] else [].
Proof.
  intros k p lg. cbn [xenum fst snd enum]. unfold step. cbn [fst snd].
  destruct (Nat.ltb_spec p n) as [H|H].
  - destruct (nth_error s p) as [v|] eqn:E; [|apply nth_error_None in E; lia].
    cbn. unfold unmoved. cbn [fst]. replace (S p =? p) with false by (symmetry; apply Nat.eqb_neq; lia). rewrite andb_false_r. reflexivity.
  - apply nth_error_None in H. rewrite H. reflexivity.
Qed.
Notation anys := (xbody s names [RAny] m).
Lemma anys_once : forall p lg, once anys (p, lg) = if Nat.ltb p n then Some (S p, lg) else None.
Proof.
  intros p lg. unfold once, xbody, xenums. rewrite any_enum. destruct (Nat.ltb p n); reflexivity.
Qed.
Lemma anys_lazily : forall k p lg st, In st (lazily anys k (p, lg)) <-> exists j, 1 <= j <= k /\ p + j <= n /\ st = (p + j, lg).
Proof.
  induction k as [|k IH]; intros p lg st; cbn [lazily].
  - split; [intros []|intros (j & H & _); lia].
  - rewrite anys_once. destruct (Nat.ltb_spec p n) as [H|H].
    + cbn [In]. rewrite IH. split.
      * intros [<-|(j & J1 & J2 & ->)]; [exists 1|exists (S j)]; (split; [lia|]; split; [lia|]; f_equal; lia).
      * intros ([|[|j]] & J1 & J2 & ->); [lia|left; f_equal; lia|right]. exists (S j). split; [lia|]. split; [lia|]. f_equal. lia.
    + split; [intros []|intros (j & J1 & J2 & _); lia].
Qed.
(** [(..+?)] takes two or more characters. *)
Lemma group_enum : forall k y, In y (xenum s names (RCap 1 [RAny; RRep Lazy 1 0 [RAny]]) (m, (k, (0, [])))) <->
  exists e, 2 <= e <= n /\ y = (m, (false, (e, [(1, (0, e))]))).
Proof.
  intros k y. rewrite xenum_cap. cbn [xenums flat_map]. rewrite any_enum. destruct (Nat.ltb_spec 0 n) as [H0|H0].
  2: { cbn. split; [intros []|intros (e & H & _); lia]. }
  cbn [flat_map]. rewrite xenum_rep, app_nil_r. unfold repeated. cbn [N.eqb negb andb N.ltb]. change (N.to_nat 1) with 1. cbn [times].
  rewrite anys_once. destruct (Nat.ltb_spec 1 n) as [H1|H1].
  2: { cbn. split; [intros []|intros (e & H & _); lia]. }
  rewrite in_map_iff. split.
  - intros (z & <- & Hz). rewrite in_flat_map in Hz. destruct Hz as (x & Hx & [<-|[]]). apply in_map_iff in Hx as (u & <- & [<-|Hu]).
    + exists 2. split; [lia|]. reflexivity.
    + apply in_map_iff in Hu as (st & <- & Hst). apply anys_lazily in Hst as (j & J1 & J2 & ->). exists (2 + j). split; [lia|]. reflexivity.
  - intros (e & He & ->). exists (m, (false, (e, []))). split; [reflexivity|]. apply in_flat_map. exists (m, (false, (e, []))). split; [|left; reflexivity].
    apply in_map_iff. exists (false, (e, [])). split; [reflexivity|]. destruct (Nat.eq_dec e 2) as [->|Hne]; [left; reflexivity|right].
    apply in_map_iff. exists (e, []). split; [reflexivity|]. apply anys_lazily. exists (e - 2). unfold room. cbn [N.eqb fst].
    split; [lia|]. split; [lia|]. f_equal. lia.
Qed.

Section Power.
  Variable e : nat.
  Hypothesis He : 2 <= e <= n.
  Notation w := (firstn e s).
  Notation lg := (@cons (nat * (nat * nat)) (1, (0, e)) nil).
  Notation backs := (xbody s names [RBack 1] m).
  Lemma w_length : length w = e.
  Proof. apply firstn_length_le. lia. Qed.
  Lemma backs_once : forall p, once backs (p, lg) = if prefix_at s w p then Some (p + e, lg) else None.
  Proof.
    intros p. unfold once, xbody, xenums. cbn [xenum enum fst snd lookup Nat.eqb].
    change (text s 0 e) with (firstn (e - 0) s). rewrite Nat.sub_0_r. destruct (prefix_at s w p); [|reflexivity].
    cbn. unfold unmoved. cbn [fst]. replace (p + e =? p) with false by (symmetry; apply Nat.eqb_neq; lia). reflexivity.
  Qed.
  (** The [i]-th piece of the subject is [w]. *)
  Definition same (i : nat) : Prop := prefix_at s w (i * e) = true.
  Lemma greedily_backs : forall k i st, In st (greedily backs k (i * e, lg)) ->
    exists j, i <= j /\ st = (j * e, lg) /\ forall x, i <= x < j -> same x.
  Proof.
    induction k as [|k IH]; intros i st; cbn [greedily].
    - intros [<-|[]]. exists i. split; [lia|]. split; [reflexivity|]. intros x H. lia.
    - rewrite backs_once. intros H. apply in_app_iff in H as [H|[<-|[]]].
      + destruct (prefix_at s w (i * e)) eqn:E; [|contradiction]. replace (i * e + e) with (S i * e) in H by (rewrite Nat.mul_succ_l; reflexivity).
        destruct (IH _ _ H) as (j & J1 & J2 & J3). exists j. split; [lia|]. split; [exact J2|]. intros x Hx.
        destruct (Nat.eq_dec x i) as [->|Hne]; [exact E|apply J3; lia].
      + exists i. split; [lia|]. split; [reflexivity|]. intros x Hx. lia.
  Qed.
  Lemma furthest_in : forall body k (st : state), In (furthest body k st) (greedily body k st).
  Proof.
    intros body. induction k as [|k IH]; intros st; cbn [furthest greedily]; [left; reflexivity|].
    destruct (once body st) as [y|]; [apply in_or_app; left; apply IH|left; reflexivity].
  Qed.
  Lemma furthest_backs : forall k i j, i <= j -> j <= i + k -> j * e = n -> (forall x, i <= x < j -> same x) -> furthest backs k (i * e, lg) = (j * e, lg).
  Proof.
    induction k as [|k IH]; intros i j H1 H2 Hn H; cbn [furthest].
    - replace i with j by lia. reflexivity.
    - rewrite backs_once. destruct (Nat.eq_dec i j) as [->|Hne].
      + destruct (prefix_at s w (j * e)) eqn:E; [|reflexivity]. exfalso. apply prefix_at_spec in E.
        rewrite Hn, skipn_all, firstn_nil in E. pose proof w_length. rewrite <- E in H0. cbn in H0. lia.
      + rewrite (H i ltac:(lia)). replace (i * e + e) with (S i * e) by (rewrite Nat.mul_succ_l; reflexivity).
        apply IH; [lia|lia|exact Hn|]. intros x Hx. apply H. lia.
  Qed.
  Lemma backs_repeated : forall kd k, kd = Greedy \/ kd = Possessive ->
    (exists y, In y (repeated s backs kd 1 0 k (e, lg)) /\ fst (snd y) = n) <-> exists j, 2 <= j /\ s = power w j.
  Proof.
    intros kd k Hk.
    assert (R : repeated s backs kd 1 0 k (e, lg) =
      if prefix_at s w e then match kd with
        | Greedy => map (pair false) (greedily backs (n - 2 * e) (2 * e, lg))
        | _ => let st2 := furthest backs (n - 2 * e) (2 * e, lg) in [(unmoved k (e, lg) st2, st2)] end else []).
    { unfold repeated. cbn [N.eqb negb andb N.ltb]. change (N.to_nat 1) with 1. cbn [times]. rewrite backs_once.
      destruct (prefix_at s w e); [|reflexivity]. unfold room. cbn [N.eqb fst].
      replace (e + e) with (2 * e) by lia. destruct Hk as [-> | ->]; reflexivity. }
    rewrite R. clear R. split.
    - intros (y & Hy & Hn). destruct (prefix_at s w e) eqn:E; [|contradiction].
      assert (G : In (snd y) (greedily backs (n - 2 * e) (2 * e, lg))).
      { destruct Hk as [-> | ->].
        - apply in_map_iff in Hy as (st & <- & H). exact H.
        - destruct Hy as [<-|[]]. apply furthest_in. }
      apply greedily_backs in G as (j & J1 & J2 & J3). exists j. split; [exact J1|].
      rewrite J2 in Hn. cbn [fst] in Hn. apply pieces_power; [rewrite w_length; lia|].
      intros i Hi. rewrite w_length. destruct i as [|[|i]].
      + reflexivity.
      + apply prefix_at_spec in E. rewrite w_length in E. rewrite Nat.mul_1_l. exact E.
      + pose proof (J3 (S (S i)) ltac:(lia)) as Q. apply prefix_at_spec in Q. rewrite w_length in Q. exact Q.
    - intros (j & J1 & J2).
      assert (Hn : j * e = n) by (pose proof (f_equal (@length Z) J2) as L; rewrite power_length, w_length in L; symmetry; exact L).
      assert (Q : forall x, x < j -> same x).
      { intros x Hx. apply prefix_at_spec. pose proof (power_piece w j x Hx) as P. rewrite <- J2, w_length in P. rewrite w_length. exact P. }
      pose proof (Q 1 ltac:(lia)) as E. unfold same in E. rewrite Nat.mul_1_l in E. rewrite E.
      assert (F : furthest backs (n - 2 * e) (2 * e, lg) = (j * e, lg)).
      { apply furthest_backs; [exact J1| |exact Hn|intros x Hx; apply Q; lia]. rewrite <- Hn.
        replace (j * e - 2 * e) with ((j - 2) * e) by (rewrite Nat.mul_sub_distr_r; reflexivity).
        assert (j - 2 <= (j - 2) * e) by (rewrite <- (Nat.mul_1_r (j - 2)) at 1; apply Nat.mul_le_mono_l; lia). lia. }
      destruct Hk as [-> | ->].
      + exists (false, (j * e, lg)). split; [|exact Hn]. apply in_map_iff. exists (j * e, lg). split; [reflexivity|]. rewrite <- F. apply furthest_in.
      + rewrite F. eexists. split; [left; reflexivity|]. exact Hn.
  Qed.
End Power.

(** [.?] matches at most one character. *)
Lemma dot_repeated : forall kd k, kd = Greedy \/ kd = Possessive ->
  (exists y, In y (repeated s anys kd 0 1 k (0, [])) /\ fst (snd y) = n) <-> n <= 1.
Proof.
  intros kd k Hk.
  assert (R : repeated s anys kd 0 1 k (0, []) = match kd with
        | Greedy => map (pair false) ((if Nat.ltb 0 n then [(1, [])] else []) ++ [(0, [])])
        | _ => let st2 := if Nat.ltb 0 n then (1, []) else (0, []) in [(unmoved k (0, []) st2, st2)] end).
  { unfold repeated. cbn [N.eqb negb andb N.ltb N.compare]. change (N.to_nat 0) with 0. cbn [times]. unfold room. cbn [N.eqb].
    change (N.to_nat (1 - 0)) with 1. destruct Hk as [-> | ->]; cbn [greedily furthest]; rewrite anys_once; destruct (Nat.ltb 0 n); reflexivity. }
  rewrite R. clear R. split.
  - intros (y & Hy & <-). destruct Hk as [-> | ->].
    + destruct (Nat.ltb 0 n); cbn in Hy; intuition subst; cbn; lia.
    + destruct (Nat.ltb 0 n); cbn in Hy; intuition subst; cbn; lia.
  - intros H. destruct n as [|[|l]] eqn:E; [| |lia]; destruct Hk as [-> | ->]; cbn.
    + eexists. split; [left; reflexivity|reflexivity].
    + eexists. split; [left; reflexivity|reflexivity].
    + eexists. split; [left; reflexivity|reflexivity].
    + eexists. split; [left; reflexivity|reflexivity].
Qed.

Theorem prime_pattern_ends : forall kd kd' k, (kd = Greedy \/ kd = Possessive) -> (kd' = Greedy \/ kd' = Possessive) ->
  (exists y, In y (xenum s names (prime_pattern kd kd') (m, (k, (0, [])))) /\ fst (snd (snd y)) = n) <->
  n <= 1 \/ exists w j, 2 <= length w /\ 2 <= j /\ s = power w j.
Proof.
  intros kd kd' k H1 H2. unfold prime_pattern. rewrite xenum_select_cons, xenum_select_cons, xenum_select_nil, app_nil_r.
  rewrite <- (dot_repeated kd k H1). rewrite xenum_rep, xenum_seq.
  assert (A : (exists y, In y (xenums s names [RCap 1 [RAny; RRep Lazy 1 0 [RAny]]; RRep kd' 1 0 [RBack 1]] (m, (k, (0, [])))) /\ fst (snd (snd y)) = n) <->
    exists w j, 2 <= length w /\ 2 <= j /\ s = power w j).
  { rewrite xenums_cons. split.
    - intros (y & Hy & Hn). apply in_flat_map in Hy as (z & Hz & Hy). apply group_enum in Hz as (e & He & ->).
      cbn [xenums] in Hy. apply in_flat_map in Hy as (u & Hu & [<-|[]]). rewrite xenum_rep in Hu. apply in_map_iff in Hu as (x & <- & Hx).
      destruct (proj1 (backs_repeated e He kd' false H2)) as (j & J1 & J2); [exists x; split; [exact Hx|exact Hn]|].
      exists (firstn e s), j. rewrite (w_length e He). split; [lia|]. auto.
    - intros (w & j & W & J & E).
      assert (L : length s = j * length w) by (rewrite E; apply power_length).
      assert (He : 2 <= length w <= n) by (split; [exact W|]; rewrite L; rewrite <- (Nat.mul_1_l (length w)) at 1; apply Nat.mul_le_mono_r; lia).
      assert (F : firstn (length w) s = w) by (rewrite E; apply (power_piece w j 0); lia).
      destruct (proj2 (backs_repeated (length w) He kd' false H2)) as (y & Hy & Hn).
      { exists j. split; [exact J|]. rewrite F. exact E. }
      exists (m, y). split; [|exact Hn]. apply in_flat_map. exists (m, (false, (length w, [(1, (0, length w))]))). split.
      + apply group_enum. exists (length w). split; [exact He|reflexivity].
      + cbn [xenums]. apply in_flat_map. exists (m, y). split; [|left; reflexivity]. rewrite xenum_rep. apply in_map_iff. exists y. split; [reflexivity|exact Hy]. }
  rewrite <- A. split.
  - intros (y & Hy & Hn). apply in_app_iff in Hy as [Hy|Hy].
    + apply in_map_iff in Hy as (x & <- & Hx). left. exists x. split; [exact Hx|exact Hn].
    + right. exists y. auto.
  - intros [(x & Hx & Hn)|(y & Hy & Hn)].
    + exists (m, x). split; [|exact Hn]. apply in_or_app. left. apply in_map_iff. exists x. auto.
    + exists y. split; [apply in_or_app; right; exact Hy|exact Hn].
Qed.
End Run.

(** ** Numbers in unary *)
Lemma power_repeat : forall (c : Z) d k, power (repeat c d) k = repeat c (k * d).
Proof. intros c d k. unfold power. induction k as [|k IH]; cbn [repeat concat Nat.mul]; [reflexivity|]. rewrite IH, repeat_app. reflexivity. Qed.
Theorem unary_primes : forall (c : Z) n, (n <= 1 \/ exists w j, 2 <= length w /\ 2 <= j /\ repeat c n = power w j) <-> ~ prime (Z.of_nat n).
Proof.
  intros c n. split.
  - intros [H|(w & j & W & J & E)] P.
    + destruct P as [P _]. lia.
    + assert (L : n = j * length w) by (rewrite <- (repeat_length c n), E; apply power_length).
      assert (D : (Z.of_nat j | Z.of_nat n)%Z) by (exists (Z.of_nat (length w)); lia).
      apply prime_divisors in D; [|exact P]. assert (n <> j) by (intros ->; nia). lia.
  - intros H. destruct (Nat.le_gt_cases n 1) as [Hn|Hn]; [left; exact Hn|right].
    destruct (not_prime_divide (Z.of_nat n) ltac:(lia) H) as (d & Hd & q & Hq).
    exists (repeat c (Z.to_nat d)), (Z.to_nat q). rewrite repeat_length. split; [lia|]. split; [nia|]. rewrite power_repeat. f_equal. nia.
Qed.
