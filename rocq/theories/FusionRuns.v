(** Merging two repetitions of a character class keeps the order of preference: C35. *)
From Coq Require Import List ZArith NArith Bool Arith Lia.
From Coq Require Import ZifyBool ZifyNat ZifyN.
From Verif Require Import Chars Syntax Actions Spec Fusion.
Import ListNotations.

(** Two lists of outcomes give the same preferred overall outcome, whatever follows. *)
Definition prefer {B} (l l' : list B) : Prop := forall A (k : B -> list A), hd_error (flat_map k l) = hd_error (flat_map k l').

Section Prefer.
Context {B : Type}.
Implicit Types l m u : list B.
Lemma prefer_refl : forall l, prefer l l. Proof. intros l A k. reflexivity. Qed.
Lemma prefer_trans : forall l m u, prefer l m -> prefer m u -> prefer l u. Proof. intros l m u H K A k. rewrite H. apply K. Qed.
Lemma hd_app : forall A (a b : list A), hd_error (a ++ b) = match hd_error a with Some x => Some x | None => hd_error b end.
Proof. intros A [|x a] b; reflexivity. Qed.
Lemma prefer_app : forall l l' m m', prefer l l' -> prefer m m' -> prefer (l ++ m) (l' ++ m').
Proof. intros l l' m m' H K A k. rewrite !flat_map_app, !hd_app, H, K. reflexivity. Qed.
Lemma prefer_absorb : forall l m u, incl m l -> prefer (l ++ m ++ u) (l ++ u).
Proof.
  intros l m u H A k. rewrite !flat_map_app, !hd_app. destruct (hd_error (flat_map k l)) eqn:E; [reflexivity|].
  assert (F : flat_map k m = []).
  { assert (Z : forall x, In x l -> k x = []).
    { intros x I. destruct (k x) as [|y t] eqn:Q; [reflexivity|]. assert (J : In y (flat_map k l)) by (apply in_flat_map; exists x; rewrite Q; split; [assumption|left; reflexivity]).
      destruct (flat_map k l); [destruct J|discriminate]. }
    clear E. induction m as [|x m IH]; [reflexivity|]. cbn [flat_map]. rewrite Z by (apply H; left; reflexivity). apply IH. intros y I. apply H. right. assumption. }
  rewrite F. reflexivity.
Qed.
End Prefer.

(** Positions counted down and up. *)
Section Lists.
Variable lg : log.
Fixpoint desc (p d : nat) : list state := match d with O => [(p, lg)] | S d => desc (S p) d ++ [(p, lg)] end.
Fixpoint asc (p d : nat) : list state := match d with O => [(p, lg)] | S d => (p, lg) :: asc (S p) d end.
Lemma desc_in : forall d p x, In x (desc p d) <-> snd x = lg /\ p <= fst x <= p + d.
Proof.
  induction d as [|d IH]; intros p [q l]; cbn [desc fst snd].
  - split; [intros [E|[]]; injection E as <- <-; split; [reflexivity|lia]|]. intros [-> L]. left. f_equal. lia.
  - rewrite in_app_iff, IH. cbn [fst snd In]. split.
    + intros [[-> L]|[E|[]]]; [split; [reflexivity|lia]|]. injection E as <- <-. split; [reflexivity|lia].
    + intros [-> L]. destruct (Nat.eq_dec p q) as [->|]; [right; left; reflexivity|left]. split; [reflexivity|lia].
Qed.
Lemma asc_in : forall d p x, In x (asc p d) <-> snd x = lg /\ p <= fst x <= p + d.
Proof.
  induction d as [|d IH]; intros p [q l]; cbn [asc fst snd In].
  - split; [intros [E|[]]; injection E as <- <-; split; [reflexivity|lia]|]. intros [-> L]. left. f_equal. lia.
  - rewrite IH. cbn [fst snd]. split.
    + intros [E|[-> L]]; [|split; [reflexivity|lia]]. injection E as <- <-. split; [reflexivity|lia].
    + intros [-> L]. destruct (Nat.eq_dec p q) as [->|]; [left; reflexivity|right]. split; [reflexivity|lia].
Qed.
Lemma asc_app : forall d e p, asc p (d + S e) = asc p d ++ asc (p + S d) e.
Proof.
  induction d as [|d IH]; intros e p; cbn [plus asc app].
  - rewrite Nat.add_1_r. reflexivity.
  - f_equal. rewrite IH. replace (S p + S d) with (p + S (S d)) by lia. reflexivity.
Qed.
(** One more start: the outcomes from the later starts come first (greedy) or last (lazy). *)
Lemma desc_merge : forall x t u, u <= S t -> prefer (desc (S x) t ++ desc x u) (desc x (S t)).
Proof.
  intros x t u L. destruct u as [|u]; [apply prefer_refl|]. cbn [desc]. apply (prefer_absorb (desc (S x) t) (desc (S x) u) [(x, lg)]).
  intros y I. apply desc_in in I as [E I]. apply desc_in. split; [exact E|lia].
Qed.
Lemma asc_merge : forall x t u, u <= S t -> prefer (asc x u ++ asc (S x) t) (asc x (S t)).
Proof.
  intros x t u L. destruct u as [|u]; [apply prefer_refl|]. destruct (Nat.eq_dec u t) as [->|].
  - pose proof (prefer_absorb (asc x (S t)) (asc (S x) t) []) as H. rewrite !app_nil_r in H. apply H. intros y I. apply asc_in in I as [E I]. apply asc_in. split; [exact E|lia].
  - replace t with (u + S (t - S u)) at 1 by lia. rewrite asc_app. replace (S t) with (S u + S (t - S u)) by lia. rewrite (asc_app (S u)).
    replace (S x + S u) with (x + S (S u)) by lia. apply prefer_absorb. intros y I. apply asc_in in I as [E I]. apply asc_in. split; [exact E|lia].
Qed.
End Lists.

Section Class.
Variable s : list Z.
Variable P : Z -> bool.
Variable cut : bool.
(** The number of characters from [p] on that are in the class. *)
Fixpoint span (l : list Z) : nat := match l with x :: t => if P x then S (span t) else 0 | [] => 0 end.
Definition spans (p : nat) : nat := span (skipn p s).
Notation body := (step s P).

Lemma skipn_nth : forall (l : list Z) p, skipn p l = match nth_error l p with Some x => x :: skipn (S p) l | None => [] end.
Proof. induction l as [|x l IH]; intros [|p]; try reflexivity. cbn [skipn nth_error]. rewrite IH. reflexivity. Qed.
Lemma body_spans : forall p lg, body (p, lg) = match spans p with O => [] | S _ => [(S p, lg)] end.
Proof. intros p lg. unfold step, spans. cbn [fst snd]. rewrite (skipn_nth s p). destruct (nth_error s p) as [x|]; cbn [span]; [|reflexivity]. destruct (P x); reflexivity. Qed.
Lemma spans_next : forall p n, spans p = S n -> spans (S p) = n.
Proof.
  intros p n H. unfold spans in *. rewrite (skipn_nth s p) in H. destruct (nth_error s p) as [x|]; [|discriminate]. cbn [span] in H.
  destruct (P x); [|discriminate]. injection H as H. exact H.
Qed.
Lemma spans_later : forall k p n, spans p = k + n -> spans (p + k) = n.
Proof.
  induction k as [|k IH]; intros p n H; [rewrite Nat.add_0_r; assumption|]. replace (p + S k) with (S p + k) by lia. apply IH. apply (spans_next p). assumption.
Qed.
Lemma spans_len : forall p, spans p <= length s - p.
Proof. intros p. unfold spans. rewrite <- skipn_length. induction (skipn p s) as [|x l IH]; cbn [span length]; [lia|]. destruct (P x); lia. Qed.
Lemma advance : forall p lg, filter (advances (p, lg)) [(S p, lg)] = [(S p, lg)].
Proof. intros p lg. unfold advances. cbn [filter fst]. rewrite (proj2 (Nat.ltb_lt p (S p))) by lia. reflexivity. Qed.
Lemma keep_one : forall (x : state), keep cut [x] = [x]. Proof. intros x. destruct cut; reflexivity. Qed.
Lemma keep_none : keep cut (@nil state) = []. Proof. destruct cut; reflexivity. Qed.

Lemma keep_progress : forall p lg, keep cut (progress cut (p, lg) [(S p, lg)]) = [(S p, lg)].
Proof. intros p lg. unfold keep, progress. rewrite advance. destruct cut; reflexivity. Qed.
Lemma mandatory_class : forall k p lg, mandatory cut body k (p, lg) = if Nat.leb k (spans p) then [(p + k, lg)] else [].
Proof.
  induction k as [|k IH]; intros p lg; cbn [mandatory].
  - rewrite Nat.add_0_r. reflexivity.
  - rewrite body_spans. destruct (spans p) as [|n] eqn:E.
    + unfold progress. destruct cut; reflexivity.
    + rewrite keep_progress. cbn [flat_map]. rewrite app_nil_r, IH, (spans_next _ _ E). cbn [Nat.leb]. replace (p + S k) with (S p + k) by lia. reflexivity.
Qed.
Definition lim (b : N) (n : nat) : nat := if N.eqb b 0 then n else Nat.min n (N.to_nat b).
Lemma more_greedy_class : forall fuel b i p lg, spans p < fuel -> (b = 0 \/ i <= b)%N ->
  more_greedy cut body fuel b i (p, lg) = desc lg p (if N.eqb b 0 then spans p else Nat.min (spans p) (N.to_nat (b - i))).
Proof.
  induction fuel as [|fuel IH]; intros b i p lg L Hb; [lia|]. cbn [more_greedy]. rewrite body_spans.
  destruct (spans p) as [|n] eqn:E.
  - cbn [filter]. rewrite keep_none. cbn [flat_map]. destruct (N.eqb b 0 || N.ltb i b); destruct (N.eqb b 0); reflexivity.
  - rewrite advance, keep_one. cbn [flat_map]. rewrite app_nil_r. pose proof (spans_next _ _ E) as E2.
    destruct (N.eqb_spec b 0) as [->|Nb]; cbn [orb].
    + rewrite IH by lia. cbn [desc]. rewrite E2. reflexivity.
    + destruct (N.ltb_spec i b).
      * rewrite IH by lia. destruct (N.eqb_spec b 0); [contradiction|]. rewrite E2.
        replace (Nat.min (S n) (N.to_nat (b - i))) with (S (Nat.min n (N.to_nat (b - N.succ i)))) by lia. reflexivity.
      * replace (Nat.min (S n) (N.to_nat (b - i))) with 0 by lia. reflexivity.
Qed.
Lemma more_lazy_class : forall fuel b i p lg, spans p < fuel -> (b = 0 \/ i <= b)%N ->
  more_lazy cut body fuel b i (p, lg) = asc lg p (if N.eqb b 0 then spans p else Nat.min (spans p) (N.to_nat (b - i))).
Proof.
  induction fuel as [|fuel IH]; intros b i p lg L Hb; [lia|]. cbn [more_lazy]. rewrite body_spans.
  destruct (spans p) as [|n] eqn:E.
  - cbn [filter]. rewrite keep_none. cbn [flat_map]. destruct (N.eqb b 0 || N.ltb i b); destruct (N.eqb b 0); reflexivity.
  - rewrite advance, keep_one. cbn [flat_map]. rewrite app_nil_r. pose proof (spans_next _ _ E) as E2.
    destruct (N.eqb_spec b 0) as [->|Nb]; cbn [orb].
    + rewrite IH by lia. cbn [asc]. rewrite E2. reflexivity.
    + destruct (N.ltb_spec i b).
      * rewrite IH by lia. destruct (N.eqb_spec b 0); [contradiction|]. rewrite E2.
        replace (Nat.min (S n) (N.to_nat (b - i))) with (S (Nat.min n (N.to_nat (b - N.succ i)))) by lia. reflexivity.
      * replace (Nat.min (S n) (N.to_nat (b - i))) with 0 by lia. reflexivity.
Qed.
(** All outcomes of a repetition of a class. *)
Definition block (k : rkind) (lg : log) (q d : nat) : list state :=
  match k with Greedy => desc lg q d | Lazy => asc lg q d | Possessive => [(q + d, lg)] end.
Lemma desc_first : forall lg d q, firstn 1 (desc lg q d) = [(q + d, lg)].
Proof.
  intros lg. induction d as [|d IH]; intros q; cbn [desc]; [rewrite Nat.add_0_r; reflexivity|].
  specialize (IH (S q)). destruct (desc lg (S q) d) as [|x t] eqn:E; [discriminate|]. cbn [app firstn] in *. rewrite IH. f_equal. f_equal. lia.
Qed.
Lemma iterate_class : forall k a b p lg, in_bounds a b ->
  iterate s cut body k a b (p, lg) = if Nat.leb (N.to_nat a) (spans p) then block k lg (p + N.to_nat a) (lim b (spans p) - N.to_nat a) else [].
Proof.
  intros k a b p lg Hb. unfold iterate, in_bounds in *. assert (negb (N.eqb b 0) && N.ltb b a = false) as -> by lia. rewrite mandatory_class.
  destruct (Nat.leb_spec (N.to_nat a) (spans p)) as [L|L]; [|destruct k; reflexivity]. cbn [flat_map]. rewrite !app_nil_r.
  pose proof (spans_later (N.to_nat a) p (spans p - N.to_nat a) ltac:(lia)) as Q. pose proof (spans_len (p + N.to_nat a)) as W. cbn [fst].
  rewrite more_greedy_class, more_lazy_class, Q by lia. unfold lim.
  replace (if (b =? 0)%N then spans p - N.to_nat a else Nat.min (spans p - N.to_nat a) (N.to_nat (b - a)))
    with ((if (b =? 0)%N then spans p else Nat.min (spans p) (N.to_nat b)) - N.to_nat a) by (destruct (N.eqb_spec b 0); lia).
  destruct k; try reflexivity. cbn [block]. apply desc_first.
Qed.

(** The second repetition after every outcome of the first one. *)
Lemma after_class : forall k a b lg d q, k <> Possessive -> in_bounds a b -> d <= spans q ->
  prefer (flat_map (iterate s cut body k a b) (block k lg q d))
    (if Nat.leb (N.to_nat a) (spans q) then block k lg (q + N.to_nat a) ((if N.eqb b 0 then spans q else Nat.min (spans q) (d + N.to_nat b)) - N.to_nat a) else []).
Proof.
  intros k a b lg d q Hk Hb. revert q. induction d as [|d IH]; intros q L.
  - assert (block k lg q 0 = [(q, lg)]) as -> by (destruct k; [reflexivity..|contradiction]). cbn [flat_map]. rewrite app_nil_r, iterate_class by assumption.
    unfold lim. cbn [plus]. apply prefer_refl.
  - destruct (spans q) as [|n] eqn:E; [lia|]. specialize (IH (S q)). rewrite (spans_next _ _ E) in IH. specialize (IH ltac:(lia)).
    assert (F : flat_map (iterate s cut body k a b) (block k lg q (S d)) =
      match k with Lazy => iterate s cut body k a b (q, lg) ++ flat_map (iterate s cut body k a b) (block k lg (S q) d)
                 | _ => flat_map (iterate s cut body k a b) (block k lg (S q) d) ++ iterate s cut body k a b (q, lg) end).
    { destruct k; [| |contradiction]; cbn [block desc asc]; [rewrite flat_map_app; cbn [flat_map]; rewrite app_nil_r; reflexivity|reflexivity]. }
    rewrite F. clear F. rewrite (iterate_class k a b q lg Hb), E.
    set (later := flat_map (iterate s cut body k a b) (block k lg (S q) d)) in *.
    destruct (Nat.leb_spec (N.to_nat a) (S n)) as [L1|L1].
    + destruct (Nat.leb_spec (N.to_nat a) n) as [L2|L2].
      * set (t := (if (b =? 0)%N then n else Nat.min n (d + N.to_nat b)) - N.to_nat a) in *.
        replace (S q + N.to_nat a) with (S (q + N.to_nat a)) in IH by lia.
        assert (T : (if (b =? 0)%N then S n else Nat.min (S n) (S d + N.to_nat b)) - N.to_nat a = S t).
        { subst t. unfold in_bounds in Hb. destruct (N.eqb_spec b 0); lia. }
        assert (U : lim b (S n) - N.to_nat a <= S t). { subst t. unfold lim, in_bounds in *. destruct (N.eqb_spec b 0); lia. }
        rewrite T. clearbody t. destruct k; [| |contradiction]; cbn [block] in *.
        -- eapply prefer_trans; [apply prefer_app; [exact IH|apply prefer_refl]|]. apply desc_merge. assumption.
        -- eapply prefer_trans; [apply prefer_app; [apply prefer_refl|exact IH]|]. apply asc_merge. assumption.
      * replace ((if (b =? 0)%N then S n else Nat.min (S n) (S d + N.to_nat b)) - N.to_nat a) with 0 by (unfold in_bounds in Hb; destruct (N.eqb_spec b 0); lia).
        replace (lim b (S n) - N.to_nat a) with 0 by (unfold lim, in_bounds in *; destruct (N.eqb_spec b 0); lia).
        destruct k; [| |contradiction].
        -- eapply prefer_trans; [apply prefer_app; [exact IH|apply prefer_refl]|]. apply prefer_refl.
        -- eapply prefer_trans; [apply prefer_app; [apply prefer_refl|exact IH]|]. rewrite app_nil_r. apply prefer_refl.
    + destruct (Nat.leb_spec (N.to_nat a) n); [lia|]. destruct k; [| |contradiction]; [rewrite app_nil_r|]; exact IH.
Qed.
End Class.

(** Two neighbouring repetitions of a class against the merged one. *)
Theorem merged_class : forall s ml ci names cut k a1 b1 a2 b2 c st, in_bounds a1 b1 -> in_bounds a2 b2 -> (a1 + b1 + (a2 + b2) < size_mod)%N ->
  prefer (enums s ml ci names cut [RRep k a1 b1 [RCls c]; RRep k a2 b2 [RCls c]] st)
    (enum s ml ci names cut (combine_repeat k a1 b1 a2 b2 [RCls c]) st).
Proof.
  intros s ml ci names cut k a1 b1 a2 b2 c [p lg] H1 H2 Hw. set (P := cls_has ci c). set (body := step s P).
  assert (ID : forall (l : list state), flat_map (fun x => [x]) l = l) by (induction l as [|x l IH]; [reflexivity|]; cbn [flat_map app]; rewrite IH; reflexivity).
  assert (EQ : forall a b st, enum s ml ci names cut (RRep k a b [RCls c]) st = iterate s cut body k a b st).
  { intros a b st. change (enum s ml ci names cut (RRep k a b [RCls c]) st) with
      (iterate s cut (fun st => flat_map (fun x => [x]) (step s (cls_has ci c) st)) k a b st).
    assert (B : forall (f g : state -> list state), (forall x, f x = g x) -> iterate s cut f k a b st = iterate s cut g k a b st).
    { clear. intros f g E. assert (M : forall j x, mandatory cut f j x = mandatory cut g j x).
      { induction j as [|j IH]; intros x; [reflexivity|]. cbn [mandatory]. rewrite E. apply flat_map_ext. exact IH. }
      assert (G : forall n i x, more_greedy cut f n b i x = more_greedy cut g n b i x).
      { induction n as [|n IH]; intros i x; [reflexivity|]. cbn [more_greedy]. rewrite E. f_equal. destruct (N.eqb b 0 || N.ltb i b); [|reflexivity].
        apply flat_map_ext. intros y. apply IH. }
      assert (L : forall n i x, more_lazy cut f n b i x = more_lazy cut g n b i x).
      { induction n as [|n IH]; intros i x; [reflexivity|]. cbn [more_lazy]. rewrite E. f_equal. destruct (N.eqb b 0 || N.ltb i b); [|reflexivity].
        apply flat_map_ext. intros y. apply IH. }
      unfold iterate. destruct (negb (b =? 0)%N && (b <? a)%N); [reflexivity|].
      destruct k; [| |f_equal]; rewrite M; apply flat_map_ext; intros y; try apply G; apply L. }
    apply B. intros x. apply ID. }
  assert (E0 : enums s ml ci names cut [RRep k a1 b1 [RCls c]; RRep k a2 b2 [RCls c]] (p, lg) = flat_map (iterate s cut body k a2 b2) (iterate s cut body k a1 b1 (p, lg))).
  { change (flat_map (fun x => flat_map (fun y => [y]) (enum s ml ci names cut (RRep k a2 b2 [RCls c]) x)) (enum s ml ci names cut (RRep k a1 b1 [RCls c]) (p, lg)) =
      flat_map (iterate s cut body k a2 b2) (iterate s cut body k a1 b1 (p, lg))).
    rewrite EQ. apply flat_map_ext. intros x. rewrite ID. apply EQ. }
  rewrite E0. clear E0. pose proof (iterate_class s P cut k a1 b1 p lg H1) as IC. fold body in IC. rewrite IC. clear IC.
  pose proof (spans_later s P (N.to_nat a1) p (spans s P p - N.to_nat a1)) as Q.
  assert (W : forall n, (n < size_mod)%N -> wrap n = n) by (intros n; apply N.mod_small).
  assert (M : combine_max b1 b2 = if (b1 =? 0)%N || (b2 =? 0)%N then 0%N else (b1 + b2)%N).
  { unfold combine_max. destruct (b1 =? 0)%N; [reflexivity|]. destruct (b2 =? 0)%N; [reflexivity|]. cbn [negb andb orb]. apply W. lia. }
  assert (IB : in_bounds (a1 + a2) (combine_max b1 b2)). { rewrite M. unfold in_bounds in *. destruct (N.eqb_spec b1 0), (N.eqb_spec b2 0); cbn [orb]; lia. }
  destruct (rkind_eqb k Possessive) eqn:K.
  - (* possessive: the lists are equal *)
    assert (k = Possessive) by (destruct k; try discriminate; reflexivity). subst k. clear K.
    assert (X : flat_map (iterate s cut body Possessive a2 b2) (if N.to_nat a1 <=? spans s P p then block Possessive lg (p + N.to_nat a1) (lim b1 (spans s P p) - N.to_nat a1) else []) =
      enum s ml ci names cut (combine_repeat Possessive a1 b1 a2 b2 [RCls c]) (p, lg)); [|rewrite X; apply prefer_refl].
    set (n := spans s P p) in *. pose proof (spans_later s P (lim b1 n) p (n - lim b1 n)) as Q2. fold n in Q2.
    assert (LM : lim b1 n <= n) by (unfold lim; destruct (N.eqb b1 0); lia). specialize (Q2 ltac:(lia)).
    assert (X : flat_map (iterate s cut body Possessive a2 b2) (if N.to_nat a1 <=? n then block Possessive lg (p + N.to_nat a1) (lim b1 n - N.to_nat a1) else []) =
      if (N.to_nat a1 <=? n) && (N.to_nat a2 <=? n - lim b1 n) then [(p + lim b1 n + lim b2 (n - lim b1 n), lg)] else []).
    { destruct (Nat.leb_spec (N.to_nat a1) n) as [L|L]; [|reflexivity]. cbn [block flat_map andb]. rewrite app_nil_r.
      assert (N.to_nat a1 <= lim b1 n) by (unfold lim, in_bounds in *; destruct (N.eqb_spec b1 0); lia).
      replace (p + N.to_nat a1 + (lim b1 n - N.to_nat a1)) with (p + lim b1 n) by lia.
      unfold body. rewrite (iterate_class s P cut Possessive a2 b2 _ lg H2), Q2. destruct (Nat.leb_spec (N.to_nat a2) (n - lim b1 n)) as [L2|L2]; [|reflexivity].
      cbn [block]. f_equal. f_equal. assert (N.to_nat a2 <= lim b2 (n - lim b1 n)) by (unfold lim, in_bounds in *; destruct (N.eqb_spec b2 0); lia). lia. }
    rewrite X. clear X. cbn [combine_repeat].
    destruct (N.eqb_spec b1 0) as [->|N1].
    + assert (lim 0 n = n) as -> by reflexivity. rewrite Nat.sub_diag. destruct (N.ltb_spec 0 a2) as [P2|P2].
      * change (enum s ml ci names cut (RSeq [RReject; RCls c]) (p, lg)) with (@nil state). destruct (Nat.leb_spec (N.to_nat a2) 0); [lia|]. rewrite andb_false_r. reflexivity.
      * rewrite EQ. unfold body. rewrite (iterate_class s P cut Possessive a1 0 p lg H1). fold n. destruct (Nat.leb_spec (N.to_nat a1) n); [|reflexivity].
        destruct (Nat.leb_spec (N.to_nat a2) 0); [|lia]. cbn [andb block]. f_equal. f_equal. change (lim 0 n) with n. unfold lim. destruct (N.eqb b2 0); lia.
    + destruct (N.eqb_spec a2 0) as [->|N2].
      * rewrite EQ. unfold body. rewrite (iterate_class s P cut Possessive a1 _ p lg).
        2: { rewrite M. unfold in_bounds in *. destruct (N.eqb_spec b1 0), (N.eqb_spec b2 0); cbn [orb]; lia. }
        fold n. destruct (Nat.leb_spec (N.to_nat a1) n); [|reflexivity]. cbn [N.to_nat Nat.leb andb block]. f_equal. f_equal.
        rewrite M. unfold lim, in_bounds in *. destruct (N.eqb_spec b1 0), (N.eqb_spec b2 0); cbn [orb]; try contradiction; try lia.
        -- destruct (N.eqb_spec 0 0); [|contradiction]. lia.
        -- destruct (N.eqb_spec (b1 + b2) 0); lia.
      * rewrite W by (unfold in_bounds in *; lia). rewrite EQ. unfold body. rewrite (iterate_class s P cut Possessive (b1 + a2) _ p lg).
        2: { rewrite M. unfold in_bounds in *. destruct (N.eqb_spec b1 0), (N.eqb_spec b2 0); cbn [orb]; lia. }
        fold n. assert (C : (N.to_nat a1 <=? n) && (N.to_nat a2 <=? n - lim b1 n) = (N.to_nat (b1 + a2) <=? n)).
        { unfold lim, in_bounds in *. destruct (N.eqb_spec b1 0); [contradiction|]. apply eq_true_iff_eq. rewrite andb_true_iff, !Nat.leb_le. lia. }
        rewrite C. destruct (Nat.leb_spec (N.to_nat (b1 + a2)) n) as [L|L]; [|reflexivity]. cbn [block]. f_equal. f_equal.
        rewrite M. unfold lim, in_bounds in *. destruct (N.eqb_spec b1 0), (N.eqb_spec b2 0); cbn [orb]; try contradiction; try lia.
        -- destruct (N.eqb_spec 0 0); [|contradiction]. lia.
        -- destruct (N.eqb_spec (b1 + b2) 0); lia.
  - assert (K' : k <> Possessive) by (intros ->; discriminate).
    assert (C : combine_repeat k a1 b1 a2 b2 [RCls c] = RRep k (a1 + a2) (combine_max b1 b2) [RCls c]).
    { destruct k; [| |contradiction]; cbn [combine_repeat]; rewrite W by lia; reflexivity. }
    rewrite C, EQ. unfold body. rewrite (iterate_class s P cut k _ _ p lg IB).
    set (n := spans s P p) in *. destruct (Nat.leb_spec (N.to_nat a1) n) as [L|L].
    + specialize (Q ltac:(lia)). assert (LM : lim b1 n <= n) by (unfold lim; destruct (N.eqb b1 0); lia).
      pose proof (after_class s P cut k a2 b2 lg (lim b1 n - N.to_nat a1) (p + N.to_nat a1) K' H2) as A. rewrite Q in A. specialize (A ltac:(lia)).
      eapply prefer_trans; [exact A|].
      assert (B : (N.to_nat (a1 + a2) <=? n) = (N.to_nat a2 <=? n - N.to_nat a1)) by (apply eq_true_iff_eq; rewrite !Nat.leb_le; lia).
      rewrite B. destruct (Nat.leb_spec (N.to_nat a2) (n - N.to_nat a1)) as [L2|L2]; [|apply prefer_refl].
      replace (p + N.to_nat (a1 + a2)) with (p + N.to_nat a1 + N.to_nat a2) by lia.
      assert (D : (if (b2 =? 0)%N then n - N.to_nat a1 else Nat.min (n - N.to_nat a1) (lim b1 n - N.to_nat a1 + N.to_nat b2)) - N.to_nat a2 =
        lim (combine_max b1 b2) n - N.to_nat (a1 + a2)).
      { rewrite M. unfold lim, in_bounds in *. destruct (N.eqb_spec b1 0), (N.eqb_spec b2 0); cbn [orb]; try (destruct (N.eqb_spec 0 0); [|contradiction]; lia).
        destruct (N.eqb_spec (b1 + b2) 0); lia. }
      rewrite D. apply prefer_refl.
    + destruct (Nat.leb_spec (N.to_nat (a1 + a2)) n); [lia|]. apply prefer_refl.
Qed.

(** * Consequences for the entry points *)
From Verif Require Import CharProofs First View Eval Api Parser ApiProofs EvalTop OptProofs Checks EvalSound Match Numbering.
Lemma rel_derives : forall r0 r, rel r0 r -> fusible r0 = true -> forall s f p e lg, derives s f r0 p e lg <-> derives s f r p e lg.
Proof. intros r0 r R G s f p e lg. unfold derives, names_of. rewrite (rel_caps _ _ R). apply (rel_sem _ _ R G). Qed.
Theorem compiled_language : forall props input r, compile props input = CRegex r ->
  exists r0, plain_compile props input = CRegex r0 /\ find_captures r0 = find_captures r /\
    (fusible r0 = true -> forall s f p e lg, derives s f r0 p e lg <-> derives s f r p e lg).
Proof.
  intros props input r H. destruct (compile_plain _ _ _ H) as (r0 & H0 & R). exists r0. split; [assumption|]. split; [apply R|]. intros G. exact (rel_derives _ _ R G).
Qed.
Lemma plain_language : forall props input r0 r, plain_compile props input = CRegex r0 -> compile props input = CRegex r -> fusible r0 = true ->
  find_captures r0 = find_captures r /\ forall s f p e lg, derives s f r0 p e lg <-> derives s f r p e lg.
Proof.
  intros props input r0 r H0 H G. destruct (compiled_language _ _ _ H) as (r1 & H1 & H2 & H3). rewrite H0 in H1. injection H1 as <-. auto.
Qed.
Lemma bool_iff : forall a b : bool, (a = true <-> b = true) -> a = b.
Proof. intros [] [] [H K]; auto. symmetry. auto. Qed.
Theorem plain_match : forall props input r0 r opt opt' n n' s f c c', plain_compile props input = CRegex r0 -> compile props input = CRegex r ->
  fusible r0 = true -> forallb val_ok s = true ->
  sound_check opt f r0 = true -> complete_check opt f r0 tail_match = true -> ctre_match opt n s f r0 = Ok c ->
  sound_check opt' f r = true -> complete_check opt' f r tail_match = true -> ctre_match opt' n' s f r = Ok c' ->
  matched c = matched c'.
Proof.
  intros props input r0 r opt opt' n n' s f c c' H0 H G Hs S0 C0 E0 S1 C1 E1. destruct (plain_language _ _ _ _ H0 H G) as [_ L]. apply bool_iff.
  destruct (complete_check_spec _ _ _ _ s Hs C0) as [F0 O0]. destruct (complete_check_spec _ _ _ _ s Hs C1) as [F1 O1]. split; intros M.
  - destruct (match_sound opt s f r0 Hs n c (sound_check_spec _ _ _ S0) E0 M) as (lg & D & _). apply L in D. exact (match_complete opt' s f r Hs n' c' lg F1 O1 E1 D).
  - destruct (match_sound opt' s f r Hs n' c' (sound_check_spec _ _ _ S1) E1 M) as (lg & D & _). apply L in D. exact (match_complete opt s f r0 Hs n c lg F0 O0 E0 D).
Qed.
Theorem plain_search : forall props input r0 r opt opt' n n' s f c c', plain_compile props input = CRegex r0 -> compile props input = CRegex r ->
  fusible r0 = true -> forallb val_ok s = true -> well_numbered r0 ->
  starts_with_anchor f r0 = false -> starts_with_anchor f r = false ->
  sound_check opt f r0 = true -> complete_check opt f r0 tail_starts = true -> ctre_search opt n s f r0 = Ok c ->
  sound_check opt' f r = true -> complete_check opt' f r tail_starts = true -> ctre_search opt' n' s f r = Ok c' ->
  matched c = matched c' /\ (matched c = true -> exists b e e', group c 0 = Some (b, e) /\ group c' 0 = Some (b, e')).
Proof.
  intros props input r0 r opt opt' n n' s f c c' H0 H G Hs W0 A0 A1 S0 C0 E0 S1 C1 E1. destruct (plain_language _ _ _ _ H0 H G) as [_ L].
  pose proof (compiled_well_numbered _ _ _ H) as W1.
  destruct (complete_check_spec _ _ _ _ s Hs C0) as [F0 O0]. destruct (complete_check_spec _ _ _ _ s Hs C1) as [F1 O1].
  assert (X : matched c = true -> exists b e lg, group c 0 = Some (b, e) /\ b <= length s /\ derives s f r b e lg).
  { intros M. destruct (search_sound opt s f r0 Hs n c W0 (sound_check_spec _ _ _ S0) E0 M) as (b & e & lg & B & D & _). exists b, e, lg. split; [assumption|].
    split; [|apply L; assumption]. destruct (search_span _ _ _ _ _ _ W0 E0 M) as (b' & e' & B' & LB). rewrite B in B'. injection B' as <- <-. lia. }
  assert (X' : matched c' = true -> exists b e lg, group c' 0 = Some (b, e) /\ b <= length s /\ derives s f r0 b e lg).
  { intros M. destruct (search_sound opt' s f r Hs n' c' W1 (sound_check_spec _ _ _ S1) E1 M) as (b & e & lg & B & D & _). exists b, e, lg. split; [assumption|].
    split; [|apply L; assumption]. destruct (search_span _ _ _ _ _ _ W1 E1 M) as (b' & e' & B' & LB). rewrite B in B'. injection B' as <- <-. lia. }
  assert (Y : matched c = matched c').
  { apply bool_iff. split; intros M.
    - destruct (X M) as (b & e & lg & _ & LB & D). apply (search_complete opt' s f r Hs n' c' b e lg W1 F1 O1 A1 E1 LB D).
    - destruct (X' M) as (b & e & lg & _ & LB & D). apply (search_complete opt s f r0 Hs n c b e lg W0 F0 O0 A0 E0 LB D). }
  split; [assumption|]. intros M. pose proof M as M'. rewrite Y in M'. destruct (X M) as (b & e & lg & B & LB & D). destruct (X' M') as (b' & e' & lg' & B' & LB' & D').
  exists b, e, e'. split; [assumption|]. replace b with b'; [assumption|].
  destruct (search_complete opt' s f r Hs n' c' b e lg W1 F1 O1 A1 E1 LB D) as [_ (b1 & e1 & lg1 & Q1 & LQ1 & _)]. rewrite B' in Q1. injection Q1 as <- _.
  destruct (search_complete opt s f r0 Hs n c b' e' lg' W0 F0 O0 A0 E0 LB' D') as [_ (b2 & e2 & lg2 & Q2 & LQ2 & _)]. rewrite B in Q2. injection Q2 as <- _. lia.
Qed.
