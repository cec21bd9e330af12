(** Patterns without references as regular expressions whose words stand in a context: what is to their left and to their
    right. Assertions, boundaries and lookarounds are tests of the context. *)
From Coq Require Import List ZArith NArith Bool Lia Arith ZifyBool ZifyN ZifyNat.
From Verif Require Import Chars Syntax First View Eval Api Spec CharProofs EvalInv ApiProofs EvalTop Match Mode ModeSem ModeScope ModeCalls
  EvalSem Behind Checks Views Term ModeTop Compiles Total Grammar Actions Parser Numbering Fusion FusionRuns Pattern PatternLink ModeText Lang Textbook AnySearch.
Import ListNotations.

(** * Expressions and their words *)
(** A test is given the characters to the left, the nearest first, and those to the right. *)
Inductive cexp :=
| KNone
| KEps
| KChar (P : Z -> bool)
| KTest (T : list Z -> list Z -> bool)
| KAlt (x y : cexp)
| KCat (x y : cexp)
| KStar (x : cexp).

(** [cword x b w a]: [w] is a word of [x] between [b] and [a]. *)
Inductive cword : cexp -> list Z -> list Z -> list Z -> Prop :=
| cw_eps : forall b a, cword KEps b [] a
| cw_char : forall (P : Z -> bool) v b a, P v = true -> cword (KChar P) b [v] a
| cw_test : forall (T : list Z -> list Z -> bool) b a, T b a = true -> cword (KTest T) b [] a
| cw_left : forall x y b w a, cword x b w a -> cword (KAlt x y) b w a
| cw_right : forall x y b w a, cword y b w a -> cword (KAlt x y) b w a
| cw_cat : forall x y b w w' a, cword x b w (w' ++ a) -> cword y (rev w ++ b) w' a -> cword (KCat x y) b (w ++ w') a
| cw_stop : forall x b a, cword (KStar x) b [] a
| cw_more : forall x b w w' a, cword x b w (w' ++ a) -> cword (KStar x) (rev w ++ b) w' a -> cword (KStar x) b (w ++ w') a.

(** * Derivatives in a context *)
Fixpoint cnull (b a : list Z) (x : cexp) : bool :=
  match x with
  | KNone | KChar _ => false
  | KEps | KStar _ => true
  | KTest T => T b a
  | KAlt x y => cnull b a x || cnull b a y
  | KCat x y => cnull b a x && cnull b a y
  end.
(** [a] is what comes after [v]. *)
Fixpoint cderiv (b : list Z) (v : Z) (a : list Z) (x : cexp) : cexp :=
  match x with
  | KNone | KEps | KTest _ => KNone
  | KChar P => if P v then KEps else KNone
  | KAlt x y => KAlt (cderiv b v a x) (cderiv b v a y)
  | KCat x y => if cnull b (v :: a) x then KAlt (KCat (cderiv b v a x) y) (cderiv b v a y) else KCat (cderiv b v a x) y
  | KStar x => KCat (cderiv b v a x) (KStar x)
  end.
Fixpoint caccepts (x : cexp) (b w a : list Z) : bool :=
  match w with [] => cnull b a x | v :: w => caccepts (cderiv b v (w ++ a) x) (v :: b) w a end.
(** Some word begins here; some word ends here; the first place where some word begins. *)
Fixpoint cprefix (x : cexp) (b w : list Z) : bool :=
  cnull b w x || match w with [] => false | v :: w => cprefix (cderiv b v w x) (v :: b) w end.
Fixpoint csuffix (x : cexp) (w b a : list Z) : bool :=
  caccepts x b w a || match b with [] => false | v :: b => csuffix x (v :: w) b a end.
Fixpoint cfirst (x : cexp) (b w : list Z) : option nat :=
  if cprefix x b w then Some 0 else match w with [] => None | v :: w => option_map S (cfirst x (v :: b) w) end.

Lemma cnull_word : forall x b a, cnull b a x = true <-> cword x b [] a.
Proof.
  induction x as [| |P|T|x IHx y IHy|x IHx y IHy|x IHx]; intros b a; cbn [cnull].
  - split; [discriminate|]. intros H. inversion H.
  - split; [constructor|reflexivity].
  - split; [discriminate|]. intros H. inversion H.
  - split; [constructor; assumption|]. intros H. inversion H. subst. assumption.
  - rewrite orb_true_iff, IHx, IHy. split; [intros [H|H]; [apply cw_left|apply cw_right]; exact H|intros H; inversion H; auto].
  - rewrite andb_true_iff, IHx, IHy. split.
    + intros [H1 H2]. exact (cw_cat x y b [] [] a H1 H2).
    + intros H. inversion H as [| | | | |x' y' b' w1 w2 a' H1 H2 E1 E2 E3 E4| |]. apply app_eq_nil in E3 as [-> ->]. auto.
  - split; [constructor|reflexivity].
Qed.
Lemma cstar_cons : forall x b v w a, cword (KStar x) b (v :: w) a ->
  exists w1 w2, w = w1 ++ w2 /\ cword x b (v :: w1) (w2 ++ a) /\ cword (KStar x) (rev w1 ++ v :: b) w2 a.
Proof.
  intros x b v w a H. remember (KStar x) as y eqn:Ey. remember (v :: w) as u eqn:Eu. revert Ey v w Eu.
  induction H; intros Ey; try discriminate. injection Ey as ->. intros v u Eu. destruct w as [|v' w].
  - exact (IHcword2 eq_refl v u Eu).
  - injection Eu as -> <-. exists w, w'. split; [reflexivity|]. split; [assumption|]. cbn [rev] in *. rewrite <- app_assoc in *. assumption.
Qed.
Lemma cderiv_word : forall x b v w a, cword (cderiv b v (w ++ a) x) (v :: b) w a <-> cword x b (v :: w) a.
Proof.
  induction x as [| |P|T|x IHx y IHy|x IHx y IHy|x IHx]; intros b v w a; cbn [cderiv].
  - split; intros H; inversion H.
  - split; intros H; inversion H.
  - destruct (P v) eqn:E; split; intros H; inversion H; subst; try congruence; constructor. assumption.
  - split; intros H; inversion H.
  - split; intros H; inversion H; subst; solve [apply cw_left; apply IHx; assumption | apply cw_right; apply IHy; assumption].
  - set (R := exists w1 w2, w = w1 ++ w2 /\ cword x b (v :: w1) (w2 ++ a) /\ cword y (rev w1 ++ v :: b) w2 a).
    assert (C : cword (KCat (cderiv b v (w ++ a) x) y) (v :: b) w a <-> R).
    { split.
      - intros H. inversion H as [| | | | |x' y' b' w1 w2 a' H1 H2 E1 E2 E3 E4| |]; subst. exists w1, w2. split; [reflexivity|].
        split; [apply IHx; rewrite <- app_assoc in H1; exact H1|exact H2].
      - intros (w1 & w2 & -> & H1 & H2). constructor; [rewrite <- app_assoc; apply IHx; exact H1|exact H2]. }
    assert (D : cword (KCat x y) b (v :: w) a <-> R \/ (cword x b [] (v :: w ++ a) /\ cword y b (v :: w) a)).
    { split.
      - intros H. inversion H as [| | | | |x' y' b' w1 w2 a' H1 H2 E1 E2 E3 E4| |]; subst. destruct w1 as [|v' w1].
        + right. cbn in *. subst. auto.
        + left. injection E3 as -> <-. exists w1, w2. split; [reflexivity|]. split; [exact H1|]. cbn [rev] in H2. rewrite <- app_assoc in H2. exact H2.
      - intros [(w1 & w2 & -> & H1 & H2)|[H1 H2]].
        + change (v :: w1 ++ w2) with ((v :: w1) ++ w2). constructor; [exact H1|]. cbn [rev]. rewrite <- app_assoc. exact H2.
        + exact (cw_cat x y b [] (v :: w) a H1 H2). }
    rewrite D. destruct (cnull b (v :: w ++ a) x) eqn:E.
    + apply cnull_word in E. split.
      * intros H. inversion H; subst; [left; apply C; assumption|right; split; [exact E|]; apply IHy; assumption].
      * intros [H|[_ H]]; [apply cw_left; apply C; assumption|apply cw_right; apply IHy; assumption].
    + rewrite C. split; [auto|]. intros [H|[H _]]; [exact H|]. apply cnull_word in H. congruence.
  - split.
    + intros H. inversion H as [| | | | |x' y' b' w1 w2 a' H1 H2 E1 E2 E3 E4| |]; subst. change (v :: w1 ++ w2) with ((v :: w1) ++ w2).
      apply cw_more; [apply IHx; rewrite <- app_assoc in H1; exact H1|]. cbn [rev]. rewrite <- app_assoc. exact H2.
    + intros H. apply cstar_cons in H as (w1 & w2 & -> & H1 & H2). constructor; [rewrite <- app_assoc; apply IHx; exact H1|exact H2].
Qed.
Theorem caccepts_word : forall w x b a, caccepts x b w a = true <-> cword x b w a.
Proof. induction w as [|v w IH]; intros x b a; cbn [caccepts]; [apply cnull_word|]. rewrite IH. apply cderiv_word. Qed.
Theorem cprefix_word : forall w x b, cprefix x b w = true <-> exists w1 w2, w = w1 ++ w2 /\ cword x b w1 w2.
Proof.
  induction w as [|v w IH]; intros x b; cbn [cprefix]; rewrite orb_true_iff, cnull_word.
  - split.
    + intros [H|H]; [|discriminate]. exists [], []. auto.
    + intros (w1 & w2 & E & H). symmetry in E. apply app_eq_nil in E as [-> ->]. auto.
  - rewrite IH. split.
    + intros [H|(w1 & w2 & -> & H)]; [exists [], (v :: w); auto|]. exists (v :: w1), w2. split; [reflexivity|]. apply cderiv_word. exact H.
    + intros ([|v' w1] & w2 & E & H); [left; cbn in E; subst; exact H|right]. injection E as <- ->. exists w1, w2. split; [reflexivity|].
      apply cderiv_word. exact H.
Qed.
Theorem csuffix_word : forall b x w a, csuffix x w b a = true <-> exists b1 b2, b = b1 ++ b2 /\ cword x b2 (rev b1 ++ w) a.
Proof.
  induction b as [|v b IH]; intros x w a; cbn [csuffix]; rewrite orb_true_iff, caccepts_word.
  - split.
    + intros [H|H]; [|discriminate]. exists [], []. auto.
    + intros (b1 & b2 & E & H). symmetry in E. apply app_eq_nil in E as [-> ->]. auto.
  - rewrite IH. split.
    + intros [H|(b1 & b2 & -> & H)]; [exists [], (v :: b); auto|]. exists (v :: b1), b2. split; [reflexivity|]. cbn [rev]. rewrite <- app_assoc. exact H.
    + intros ([|v' b1] & b2 & E & H); [left; cbn in E; subst; exact H|right]. injection E as <- ->. exists b1, b2. split; [reflexivity|].
      cbn [rev] in H. rewrite <- app_assoc in H. exact H.
Qed.

(** * What a pattern denotes *)
Fixpoint cpower (n : nat) (x : cexp) : cexp := match n with O => KEps | S n => KCat x (cpower n x) end.
Fixpoint cupto (n : nat) (x : cexp) : cexp := match n with O => KEps | S n => KAlt KEps (KCat x (cupto n x)) end.
Definition cbetween (a b : N) (x : cexp) : cexp :=
  if N.eqb b 0 then KCat (cpower (N.to_nat a) x) (KStar x)
  else if N.ltb b a then KNone else KCat (cpower (N.to_nat a) x) (cupto (N.to_nat b - N.to_nat a) x).
Definition next_is (P : Z -> bool) (l : list Z) : bool := match l with [] => false | v :: _ => P v end.
Definition none_left (l : list Z) : bool := match l with [] => true | _ => false end.
(** [.], the assertions and the boundaries; [ml]: multiline. *)
Definition any_has (ml : bool) (v : Z) : bool := negb (ml && (v =? 10)%Z).
Definition assert_test (ml : bool) (k : assertion) (b a : list Z) : bool :=
  match k with
  | ASubjectBegin => none_left b
  | ASubjectEnd => none_left a
  | ASubjectEndLine => none_left a || (ml && next_is (Z.eqb 10) a && none_left (tl a))
  | ALineBegin => none_left b || (ml && next_is (Z.eqb 10) b)
  | ALineEnd => none_left a || (ml && next_is (Z.eqb 10) a)
  end.
Definition bound_test (ci : bool) (c : cls) (b a : list Z) : bool := xorb (next_is (cls_has ci c) b) (next_is (cls_has ci c) a).

(** The content of a lookbehind, which the AST holds in reverse. *)
Fixpoint bdenote (m : modes) (r : re) : cexp :=
  match r with
  | RCls c => KChar (cls_has (snd m) c)
  | RAny => KChar (any_has (fst m))
  | RStr t => fold_right (fun c x => KCat x (KChar (lit_has (snd m) c))) KEps t
  | RSelect l => (fix alt (l : list re) : cexp := match l with [] => KNone | r :: rs => KAlt (bdenote m r) (alt rs) end) l
  | RSeq l => (fix seq (l : list re) : cexp := match l with [] => KEps | r :: rs => KCat (seq rs) (bdenote m r) end) l
  | REmpty => KEps
  | RBound c => KTest (bound_test (snd m) c)
  | RNotBound c => KTest (fun b a => negb (bound_test (snd m) c b a))
  | _ => KNone
  end.
Fixpoint bdenotes (m : modes) (l : list re) : cexp := match l with [] => KEps | r :: rs => KCat (bdenotes m rs) (bdenote m r) end.
Lemma bdenote_seq : forall m l, bdenote m (RSeq l) = bdenotes m l.
Proof. intros m l. induction l as [|r l IH]; [reflexivity|]. cbn [bdenotes]. rewrite <- IH. reflexivity. Qed.
Fixpoint cdenote (m : modes) (r : re) : cexp :=
  let seq := fix seq (m : modes) (l : list re) : cexp :=
    match l with
    | [] => KEps
    | RMode k :: rs => seq (switch k m) rs
    | r :: rs => KCat (cdenote m r) (seq m rs)
    end in
  match r with
  | RCls c => KChar (cls_has (snd m) c)
  | RAny => KChar (any_has (fst m))
  | RStr t => fold_right (fun c x => KCat (KChar (lit_has (snd m) c)) x) KEps t
  | RSelect l => (fix alt (m : modes) (l : list re) : cexp :=
      match l with [] => KNone | r :: rs => KAlt (cdenote m r) (alt (mode_end m r) rs) end) m l
  | RSeq l | RCap _ l | RNCap _ _ l | RAtomic l => seq m l
  | RRep _ a b l => cbetween a b (seq m l)
  | RAhead neg l => KTest (fun b a => xorb neg (cprefix (seq m l) b a))
  | RBehind neg l => KTest (fun b a => xorb neg (csuffix (bdenotes m l) [] b a))
  | RBound c => KTest (bound_test (snd m) c)
  | RNotBound c => KTest (fun b a => negb (bound_test (snd m) c b a))
  | RAssert k => KTest (assert_test (fst m) k)
  | REmpty | RMode _ => KEps
  | RReject | RBack _ | RNBack _ => KNone
  end.
Fixpoint cdenotes (m : modes) (l : list re) : cexp :=
  match l with
  | [] => KEps
  | RMode k :: rs => cdenotes (switch k m) rs
  | r :: rs => KCat (cdenote m r) (cdenotes m rs)
  end.
Fixpoint cdenote_alt (m : modes) (l : list re) : cexp :=
  match l with [] => KNone | r :: rs => KAlt (cdenote m r) (cdenote_alt (mode_end m r) rs) end.

(** No references. *)
Fixpoint unreferring (r : re) : bool :=
  match r with
  | RBack _ | RNBack _ => false
  | RSelect l | RSeq l | RRep _ _ _ l | RCap _ l | RNCap _ _ l | RAtomic l | RAhead _ l => forallb unreferring l
  | _ => true
  end.

(** * Powers *)
Lemma cword_alt : forall x y b w a, cword (KAlt x y) b w a <-> cword x b w a \/ cword y b w a.
Proof. intros. split; [intros H; inversion H; auto|]. intros [H|H]; [apply cw_left|apply cw_right]; exact H. Qed.
Lemma cword_cat : forall x y b w a, cword (KCat x y) b w a <-> exists w1 w2, w = w1 ++ w2 /\ cword x b w1 (w2 ++ a) /\ cword y (rev w1 ++ b) w2 a.
Proof. intros. split; [intros H; inversion H; subst; eauto 6|]. intros (w1 & w2 & -> & H1 & H2). constructor; assumption. Qed.
Lemma cword_eps : forall b w a, cword KEps b w a <-> w = [].
Proof. intros. split; [intros H; inversion H; reflexivity|intros ->; constructor]. Qed.
Lemma cword_none : forall b w a, ~ cword KNone b w a.
Proof. intros b w a H. inversion H. Qed.
Lemma cpower_add : forall i j x b w a, cword (cpower (i + j) x) b w a <-> cword (KCat (cpower i x) (cpower j x)) b w a.
Proof.
  induction i as [|i IH]; intros j x b w a; cbn [plus cpower]; rewrite cword_cat.
  - split.
    + intros H. exists [], w. split; [reflexivity|]. split; [constructor|exact H].
    + intros (w1 & w2 & -> & H1 & H2). apply cword_eps in H1. subst. exact H2.
  - rewrite cword_cat. split.
    + intros (w1 & w2 & -> & H1 & H2). apply IH, cword_cat in H2 as (w3 & w4 & -> & H3 & H4). exists (w1 ++ w3), w4.
      rewrite app_assoc. split; [reflexivity|]. split; [apply cword_cat; exists w1, w3; rewrite <- app_assoc in H1; auto|].
      rewrite rev_app_distr, <- app_assoc. exact H4.
    + intros (w1 & w2 & -> & H1 & H2). apply cword_cat in H1 as (w3 & w4 & -> & H3 & H4). exists w3, (w4 ++ w2).
      rewrite <- app_assoc. split; [reflexivity|]. split; [rewrite <- app_assoc; exact H3|]. apply IH, cword_cat. exists w4, w2.
      split; [reflexivity|]. split; [exact H4|]. rewrite rev_app_distr, <- app_assoc in H2. exact H2.
Qed.
Lemma cstar_power : forall x b w a, cword (KStar x) b w a <-> exists k, cword (cpower k x) b w a.
Proof.
  intros x b w a. split.
  - intros H. remember (KStar x) as y eqn:Ey. induction H; try discriminate.
    + exists 0. constructor.
    + injection Ey as ->. destruct (IHcword2 eq_refl) as (k & K). exists (S k). apply cword_cat. eauto 6.
  - intros (k & H). revert b w H. induction k as [|k IH]; intros b w H.
    + apply cword_eps in H. subst. constructor.
    + apply cword_cat in H as (w1 & w2 & -> & H1 & H2). apply cw_more; auto.
Qed.
Lemma cupto_power : forall n x b w a, cword (cupto n x) b w a <-> exists k, k <= n /\ cword (cpower k x) b w a.
Proof.
  induction n as [|n IH]; intros x b w a; cbn [cupto].
  - rewrite cword_eps. split.
    + intros ->. exists 0. split; [lia|constructor].
    + intros (k & Hk & H). assert (k = 0) by lia. subst k. apply cword_eps in H. exact H.
  - rewrite cword_alt, cword_eps, cword_cat. split.
    + intros [->|(w1 & w2 & -> & H1 & H2)]; [exists 0; split; [lia|constructor]|].
      apply IH in H2 as (k & Hk & H2). exists (S k). split; [lia|]. apply cword_cat. eauto 6.
    + intros ([|k] & Hk & H); [apply cword_eps in H; auto|]. right. apply cword_cat in H as (w1 & w2 & -> & H1 & H2).
      exists w1, w2. split; [reflexivity|]. split; [exact H1|]. apply IH. exists k. split; [lia|exact H2].
Qed.
Lemma cbetween_power : forall i j x b w a, cword (cbetween i j x) b w a <->
  exists k : nat, (i <= N.of_nat k)%N /\ (j = 0%N \/ (N.of_nat k <= j)%N) /\ cword (cpower k x) b w a.
Proof.
  intros i j x b w a. unfold cbetween. destruct (N.eqb_spec j 0) as [->|Hj].
  - rewrite cword_cat. split.
    + intros (w1 & w2 & -> & H1 & H2). apply cstar_power in H2 as (k & H2). exists (N.to_nat i + k).
      split; [lia|]. split; [auto|]. apply cpower_add, cword_cat. eauto 6.
    + intros (k & Hk & _ & H). replace k with (N.to_nat i + (k - N.to_nat i)) in H by lia.
      apply cpower_add, cword_cat in H as (w1 & w2 & -> & H1 & H2). exists w1, w2. split; [reflexivity|]. split; [exact H1|]. apply cstar_power. eauto.
  - destruct (N.ltb_spec j i) as [Ha|Ha].
    + split; [intros H; destruct (cword_none _ _ _ H)|]. intros (k & H1 & [H2|H2] & _); lia.
    + rewrite cword_cat. split.
      * intros (w1 & w2 & -> & H1 & H2). apply cupto_power in H2 as (k & Hk & H2). exists (N.to_nat i + k).
        split; [lia|]. split; [right; lia|]. apply cpower_add, cword_cat. eauto 6.
      * intros (k & Hk & [Hk'|Hk'] & H); [lia|]. replace k with (N.to_nat i + (k - N.to_nat i)) in H by lia.
        apply cpower_add, cword_cat in H as (w1 & w2 & -> & H1 & H2). exists w1, w2. split; [reflexivity|]. split; [exact H1|].
        apply cupto_power. exists (k - N.to_nat i). split; [lia|exact H2].
Qed.

(** * Derivations are words in context *)
Section Positions.
Variable s : list Z.
Variable names : list Z -> option nat.
Definition before (p : nat) : list Z := rev (firstn p s).
Definition there (x : cexp) (p e : nat) : Prop := cword x (before p) (piece s p e) (skipn e s).

Lemma before_more : forall p q, bounded s p q -> rev (piece s p q) ++ before p = before q.
Proof.
  intros p q [H1 H2]. unfold before, piece. rewrite <- rev_app_distr. f_equal. rewrite <- (firstn_skipn p s) at 3.
  rewrite firstn_app, firstn_length. replace (min p (length s)) with p by lia. f_equal. symmetry. apply firstn_all2. rewrite firstn_length. lia.
Qed.
Lemma after_more : forall q e, bounded s q e -> piece s q e ++ skipn e s = skipn q s.
Proof.
  intros q e [H1 H2]. unfold piece. replace e with (q + (e - q)) at 2 by lia. rewrite <- skipn_add. apply firstn_skipn.
Qed.
Lemma there_cat : forall x y p e, bounded s p e -> (there (KCat x y) p e <-> exists q, bounded s p q /\ bounded s q e /\ there x p q /\ there y q e).
Proof.
  intros x y p e B. unfold there. rewrite cword_cat. split.
  - intros (w1 & w2 & E & H1 & H2). destruct (piece_split s names p e w1 w2 B E) as (q & B1 & B2 & -> & ->). exists q.
    rewrite after_more in H1 by exact B2. rewrite before_more in H2 by exact B1. auto.
  - intros (q & B1 & B2 & H1 & H2). exists (piece s p q), (piece s q e). rewrite (piece_app s names), after_more, before_more by assumption. auto.
Qed.
Lemma there_empty : forall x p, there x p p <-> cword x (before p) [] (skipn p s).
Proof. intros x p. unfold there. rewrite piece_empty. reflexivity. Qed.
Lemma none_between : forall p e, bounded s p e -> piece s p e = [] -> e = p.
Proof. intros p e B E. pose proof (piece_length s names p e B) as L. rewrite E in L. cbn in L. destruct B. lia. Qed.
Lemma there_char : forall P p e, bounded s p e -> (there (KChar P) p e <-> e = S p /\ exists v, nth_error s p = Some v /\ P v = true).
Proof.
  intros P p e B. unfold there. split.
  - intros H. inversion H as [|Q v b a V E1 E2 E3 E4| | | | | |]. symmetry in E3. destruct (piece_char s names p e v B E3) as [-> N]. eauto.
  - intros (-> & v & N & V). destruct (piece_one s names p v N) as [_ ->]. constructor. exact V.
Qed.
Lemma there_eps : forall p e, bounded s p e -> (there KEps p e <-> e = p).
Proof.
  intros p e B. unfold there. rewrite cword_eps. split; [apply none_between; exact B|]. intros ->. apply piece_empty.
Qed.
Lemma there_test : forall T p e, bounded s p e -> (there (KTest T) p e <-> e = p /\ T (before p) (skipn p s) = true).
Proof.
  intros T p e B. split.
  - intros H. unfold there in H. inversion H as [| |Q b a V E1 E2 E3 E4| | | | |]. symmetry in E3. apply none_between in E3; [|exact B]. subst e. auto.
  - intros [-> H]. apply there_empty. constructor. exact H.
Qed.

Definition as_cwords (R : state -> state -> Prop) (x : cexp) : Prop := forall p lg, p <= length s ->
  (forall e lg', R (p, lg) (e, lg') -> bounded s p e /\ there x p e) /\
  (forall e, bounded s p e -> there x p e -> exists lg', R (p, lg) (e, lg')).
Lemma cwords_seq : forall R Q x y, as_cwords R x -> as_cwords Q y ->
  as_cwords (fun st st' => exists z, R st z /\ Q z st') (KCat x y).
Proof.
  intros R Q x y HR HQ p lg Hp. destruct (HR p lg Hp) as [R1 R2]. split.
  - intros e lg' ([q lq] & H1 & H2). destruct (R1 q lq H1) as [B1 W1]. destruct (HQ q lq (proj2 B1)) as [Q1 _].
    destruct (Q1 e lg' H2) as [B2 W2]. assert (B : bounded s p e) by (destruct B1, B2; split; lia). split; [exact B|].
    apply there_cat; [exact B|]. eauto 6.
  - intros e B W. apply there_cat in W as (q & B1 & B2 & W1 & W2); [|exact B]. destruct (R2 q B1 W1) as (lq & H1).
    destruct (HQ q lq (proj2 B1)) as [_ Q2]. destruct (Q2 e B2 W2) as (lg' & H2). exists lg', (q, lq). auto.
Qed.
Lemma cwords_nil : as_cwords (fun st st' => st' = st) KEps.
Proof.
  intros p lg Hp. split.
  - intros e lg' H. injection H as -> ->. assert (B : bounded s p p) by (split; [lia|exact Hp]). split; [exact B|]. apply there_eps; auto.
  - intros e B W. apply there_eps in W; [|exact B]. subst e. eauto.
Qed.
Lemma cwords_ext : forall R Q x, (forall st st', R st st' <-> Q st st') -> as_cwords Q x -> as_cwords R x.
Proof.
  intros R Q x E H p lg Hp. destruct (H p lg Hp) as [H1 H2]. split.
  - intros e lg' X. apply E in X. exact (H1 _ _ X).
  - intros e B W. destruct (H2 e B W) as (lg' & X). exists lg'. apply E. exact X.
Qed.
Lemma cwords_char : forall P : Z -> bool, as_cwords (fun st st' => exists v, nth_error s (fst st) = Some v /\ P v = true /\ st' = (S (fst st), snd st)) (KChar P).
Proof.
  intros P p lg Hp. split.
  - intros e lg' (v & N & V & E). cbn [fst snd] in *. injection E as -> ->. destruct (piece_one s names p v N) as [B _]. split; [exact B|].
    apply there_char; [exact B|]. eauto.
  - intros e B W. apply there_char in W as (-> & v & N & V); [|exact B]. exists lg, v. auto.
Qed.
Lemma cwords_test : forall (C : nat -> Prop) (R : state -> state -> Prop) T,
  (forall st st', fst st <= length s -> R st st' -> fst st' = fst st /\ C (fst st)) -> (forall st, fst st <= length s -> C (fst st) -> exists lg, R st (fst st, lg)) ->
  (forall p, p <= length s -> (C p <-> T (before p) (skipn p s) = true)) -> as_cwords R (KTest T).
Proof.
  intros C R T H1 H2 H3 p lg Hp. split.
  - intros e lg' H. apply H1 in H as [E H]; [|exact Hp]. cbn [fst] in *. subst e. assert (B : bounded s p p) by (split; [lia|exact Hp]). split; [exact B|].
    apply there_test; [exact B|]. split; [reflexivity|]. apply H3; assumption.
  - intros e B W. apply there_test in W as [-> W]; [|exact B]. apply (H2 (p, lg) Hp). cbn [fst]. apply H3; assumption.
Qed.
Lemma cwords_iter : forall R x, as_cwords R x -> forall k, as_cwords (iter R k) (cpower k x).
Proof. intros R x H. induction k as [|k IH]; [exact cwords_nil|]. exact (cwords_seq _ _ _ _ H IH). Qed.
Lemma cwords_str : forall m t, as_cwords (sem s (fst m) (snd m) names (RStr t)) (cdenote m (RStr t)).
Proof.
  intros m. induction t as [|c t IH].
  - eapply cwords_ext; [|exact cwords_nil]. intros [p lg] st'. cbn. rewrite Nat.add_0_r. split; [tauto|]. intros ->. split; [reflexivity|].
    intros [|i] c H; discriminate.
  - eapply cwords_ext; [|exact (cwords_seq _ _ _ _ (cwords_char (lit_has (snd m) c)) IH)]. intros [p lg] st'. cbn. split.
    + intros (-> & H). exists (S p, lg). cbn. split.
      * destruct (H 0 c eq_refl) as (v & N & V). rewrite Nat.add_0_r in N. eauto.
      * split; [f_equal; lia|]. intros i d Hi. destruct (H (S i) d Hi) as (v & N & V). rewrite Nat.add_succ_r in N. eauto.
    + intros ([q lq] & (v & N & V & E) & E2 & H). injection E as -> ->. cbn in *. subst st'. split; [f_equal; lia|].
      intros [|i] d Hi; cbn in Hi.
      * injection Hi as <-. rewrite Nat.add_0_r. eauto.
      * rewrite Nat.add_succ_r. apply (H i d Hi).
Qed.

(** The tests. *)
Lemma before_S : forall q v, nth_error s q = Some v -> before (S q) = v :: before q.
Proof.
  intros q v H. unfold before. revert s H. induction q as [|q IH]; intros [|u l] H; try discriminate.
  - injection H as ->. reflexivity.
  - cbn [nth_error] in H. specialize (IH l H). change (firstn (S (S q)) (u :: l)) with (u :: firstn (S q) l). change (firstn (S q) (u :: l)) with (u :: firstn q l).
    cbn [rev]. rewrite IH. reflexivity.
Qed.
Lemma next_before : forall P p, p <= length s -> next_is P (before p) = char_before s P p.
Proof.
  intros P [|q] H; [reflexivity|]. cbn [char_before]. destruct (nth_error s q) as [v|] eqn:E; [|apply nth_error_None in E; lia].
  rewrite (before_S q v E). reflexivity.
Qed.
Lemma none_before : forall p, p <= length s -> none_left (before p) = at_begin p.
Proof.
  intros [|q] H; [reflexivity|]. destruct (nth_error s q) as [v|] eqn:E; [|apply nth_error_None in E; lia].
  rewrite (before_S q v E). reflexivity.
Qed.
Lemma after_cons : forall q v, nth_error s q = Some v -> skipn q s = v :: skipn (S q) s.
Proof. intros q v. generalize s. induction q as [|q IH]; intros [|u l] H; try discriminate; [injection H as ->; reflexivity|]. apply IH. exact H. Qed.
Lemma next_after : forall P p, next_is P (skipn p s) = char_after s P p.
Proof.
  intros P p. unfold char_after. destruct (nth_error s p) as [v|] eqn:E; [rewrite (after_cons p v E); reflexivity|].
  apply nth_error_None in E. rewrite skipn_all2 by exact E. reflexivity.
Qed.
Lemma none_after : forall p, p <= length s -> none_left (skipn p s) = at_end s p.
Proof.
  intros p H. unfold at_end. destruct (nth_error s p) as [v|] eqn:E.
  - assert (p < length s) by (apply nth_error_Some; congruence). rewrite (after_cons p v E). cbn. symmetry. apply Nat.eqb_neq. lia.
  - apply nth_error_None in E. rewrite skipn_all2 by exact E. cbn. symmetry. apply Nat.eqb_eq. lia.
Qed.
Lemma assert_there : forall ml k p, p <= length s -> assert_test ml k (before p) (skipn p s) = holds s ml k p.
Proof.
  intros ml k p H. destruct k; cbn [assert_test holds]; rewrite ?none_before, ?none_after, ?next_before, ?next_after by exact H; try reflexivity.
  destruct (char_after s (Z.eqb 10) p) eqn:E; [|rewrite !andb_false_r; reflexivity]. unfold char_after in E.
  destruct (nth_error s p) as [v|] eqn:N; [|discriminate]. rewrite (after_cons p v N). cbn [tl].
  assert (p < length s) by (apply nth_error_Some; congruence). rewrite none_after by lia. reflexivity.
Qed.
Lemma bound_there : forall ci c p, p <= length s -> bound_test ci c (before p) (skipn p s) = boundary s ci c p.
Proof. intros ci c p H. unfold bound_test, boundary. rewrite next_before, next_after by exact H. reflexivity. Qed.
Lemma prefix_there : forall x p, p <= length s -> (cprefix x (before p) (skipn p s) = true <-> exists e, bounded s p e /\ there x p e).
Proof.
  intros x p Hp. rewrite cprefix_word. split.
  - intros (w1 & w2 & E & W). exists (p + length w1). assert (L : length w1 + length w2 = length s - p) by (rewrite <- app_length, <- E; apply skipn_length).
    assert (B : bounded s p (p + length w1)) by (split; lia). split; [exact B|]. unfold there. pose proof (after_more _ _ B) as A. rewrite E in A.
    assert (X : piece s p (p + length w1) = w1).
    { unfold piece. rewrite E. replace (p + length w1 - p) with (length w1) by lia. rewrite firstn_app, firstn_all, Nat.sub_diag. cbn. apply app_nil_r. }
    rewrite X in *. apply app_inv_head in A. rewrite A. exact W.
  - intros (e & B & W). exists (piece s p e), (skipn e s). split; [symmetry; apply after_more; exact B|exact W].
Qed.
Lemma suffix_there : forall x p, p <= length s -> (csuffix x [] (before p) (skipn p s) = true <-> exists q, bounded s q p /\ there x q p).
Proof.
  intros x p Hp. rewrite csuffix_word. split.
  - intros (b1 & b2 & E & W). rewrite app_nil_r in W. exists (length b2).
    assert (L : length b1 + length b2 = p) by (rewrite <- app_length, <- E; unfold before; rewrite rev_length, firstn_length; lia).
    assert (B : bounded s (length b2) p) by (split; lia). split; [exact B|]. unfold there. pose proof (before_more _ _ B) as A. rewrite E in A.
    assert (X : rev (piece s (length b2) p) = b1 /\ before (length b2) = b2).
    { assert (L1 : length (rev (piece s (length b2) p)) = length b1) by (rewrite rev_length, (piece_length s names) by exact B; lia).
      revert A L1. generalize (rev (piece s (length b2) p)), (before (length b2)). clear. intros u v. revert u.
      induction b1 as [|c b1 IH]; intros [|d u] A L; try discriminate; [auto|]. injection A as <- A. destruct (IH u A) as [-> ->]; [cbn in L; lia|]. auto. }
    destruct X as [X1 X2]. rewrite X2. replace (piece s (length b2) p) with (rev b1); [exact W|]. rewrite <- X1. apply rev_involutive.
  - intros (q & B & W). exists (rev (piece s q p)), (before q). split; [symmetry; apply before_more; exact B|].
    rewrite rev_involutive, app_nil_r. exact W.
Qed.

(** Lookbehind. *)
Lemma back_words : forall m r p q, p <= length s -> (In q (benum s (fst m) (snd m) r p) <-> bounded s q p /\ there (bdenote m r) q p).
Proof.
  intros m. assert (Self : forall p q, p <= length s -> (q = p <-> bounded s q p /\ there KEps q p)).
  { intros p q Hp. split; [intros ->; assert (B : bounded s p p) by (split; lia); split; [exact B|]; apply there_eps; auto|].
    intros [B W]. apply there_eps in W; [|exact B]. auto. }
  assert (One : forall P p q, p <= length s -> (In q (bstep s P p) <-> bounded s q p /\ there (KChar P) q p)).
  { intros P p q Hp. rewrite bstep_iff. split.
    - intros (-> & v & N & V). assert (B : bounded s q (S q)) by (split; lia). split; [exact B|]. apply there_char; [exact B|]. eauto.
    - intros [B W]. apply there_char in W; [|exact B]. exact W. }
  assert (Tst : forall T p q, p <= length s -> (q = p /\ T (before p) (skipn p s) = true <-> bounded s q p /\ there (KTest T) q p)).
  { intros T p q Hp. split.
    - intros [-> H]. assert (B : bounded s p p) by (split; lia). split; [exact B|]. apply there_test; auto.
    - intros [B W]. apply there_test in W as [-> W]; [|exact B]. auto. }
  assert (Two : forall x y p q, p <= length s -> (bounded s q p /\ there (KCat x y) q p <-> exists z, (bounded s z p /\ there y z p) /\ bounded s q z /\ there x q z)).
  { intros x y p q Hp. split.
    - intros [B W]. apply there_cat in W as (z & B1 & B2 & W1 & W2); [|exact B]. eauto 6.
    - intros (z & (B1 & W1) & B2 & W2). assert (B : bounded s q p) by (destruct B1, B2; split; lia). split; [exact B|]. apply there_cat; eauto 6. }
  intros r.
  induction r as
    [ | r l IHr IHl | c | | t | l IH | l IH | | | kd a b l IH | id l IH | id nm l IH | id | nm
    | neg l IH | neg l IH | l IH | c | c | a | md ]
    using re_ind2 with (Q := fun l => (forall p q, p <= length s -> (In q (bseq s (fst m) (snd m) l p) <-> bounded s q p /\ there (bdenotes m l) q p)) /\
      (forall p q, p <= length s -> (In q (benum s (fst m) (snd m) (RSelect l) p) <-> bounded s q p /\ there (bdenote m (RSelect l)) q p)));
    try (intros p q Hp; cbn [benum bdenote]; split; [intros []|intros [B W]; destruct (cword_none _ _ _ W)]).
  - split; intros p q Hp.
    + cbn [bseq bdenotes]. rewrite <- Self by exact Hp. cbn. intuition.
    + cbn [benum bdenote]. split; [intros []|intros [B W]; destruct (cword_none _ _ _ W)].
  - destruct IHl as [I1 I2]. split; intros p q Hp.
    + cbn [bseq bdenotes]. rewrite in_flat_map, Two by exact Hp. split.
      * intros (z & Z1 & Z2). apply IHr in Z1; [|exact Hp]. exists z. split; [exact Z1|]. apply I1; [destruct Z1 as [[]]; lia|exact Z2].
      * intros (z & Z1 & Z2). exists z. split; [apply IHr; assumption|]. apply I1; [destruct Z1 as [[]]; lia|exact Z2].
    + change (In q (benum s (fst m) (snd m) r p ++ benum s (fst m) (snd m) (RSelect l) p) <-> bounded s q p /\ there (KAlt (bdenote m r) (bdenote m (RSelect l))) q p).
      rewrite in_app_iff, IHr, I2 by exact Hp. unfold there at 3. rewrite cword_alt. unfold there. tauto.
  - intros p q Hp. apply (One (cls_has (snd m) c)). exact Hp.
  - intros p q Hp. apply (One (any_has (fst m))). exact Hp.
  - intros p q Hp. change (In q (bwalk s (snd m) t p) <-> bounded s q p /\ there (bdenote m (RStr t)) q p). revert p q Hp.
    induction t as [|c t IH]; intros p q Hp.
    + cbn [bwalk bdenote fold_right]. rewrite <- Self by exact Hp. cbn. intuition.
    + change (bdenote m (RStr (c :: t))) with (KCat (bdenote m (RStr t)) (KChar (lit_has (snd m) c))). cbn [bwalk]. rewrite in_flat_map, Two by exact Hp. split.
      * intros (z & Z1 & Z2). apply One in Z1; [|exact Hp]. exists z. split; [exact Z1|]. apply IH; [destruct Z1 as [[]]; lia|exact Z2].
      * intros (z & Z1 & Z2). exists z. split; [apply One; assumption|]. apply IH; [destruct Z1 as [[]]; lia|exact Z2].
  - exact (proj2 IH).
  - intros p q Hp. rewrite bdenote_seq, benum_seq. exact (proj1 IH p q Hp).
  - intros p q Hp. cbn [benum bdenote]. rewrite <- Self by exact Hp. cbn. intuition.
  - intros p q Hp. cbn [benum bdenote]. rewrite <- (Tst (bound_test (snd m) c)) by exact Hp. rewrite bound_there by exact Hp.
    destruct (boundary s (snd m) c p); cbn; intuition congruence.
  - intros p q Hp. cbn [benum bdenote]. rewrite <- (Tst (fun b a => negb (bound_test (snd m) c b a))) by exact Hp. rewrite bound_there by exact Hp.
    destruct (boundary s (snd m) c p); cbn; intuition congruence.
Qed.
Lemma backs_words : forall m l p q, p <= length s -> (In q (bseq s (fst m) (snd m) l p) <-> bounded s q p /\ there (bdenotes m l) q p).
Proof. intros m l p q Hp. rewrite <- bdenote_seq, <- benum_seq. exact (back_words m (RSeq l) p q Hp). Qed.

Theorem cwords_agree : forall r, unreferring r = true -> forall m, as_cwords (tsem s names m r) (cdenote m r).
Proof.
  induction r as
    [ | r l IHr IHl | c | | t | l IH | l IH | | | kd a b l IH | id l IH | id nm l IH | id | nm
    | neg l IH | neg l IH | l IH | c | c | a | md ]
    using re_ind2 with (Q := fun l => forallb unreferring l = true -> forall m,
      as_cwords (tsems s names m l) (cdenotes m l) /\ as_cwords (talt s names m l) (cdenote_alt m l));
    try discriminate.
  - intros _ m. split; [exact cwords_nil|]. intros p lg Hp. split; [intros e lg' []|]. intros e _ W. destruct (cword_none _ _ _ W).
  - cbn [forallb]. intros H. apply andb_true_iff in H as [H1 H2]. intros m. split.
    + destruct (is_mode r) eqn:Em.
      * destruct r; try discriminate. cbn [tsems cdenotes]. apply (IHl H2).
      * assert (E : cdenotes m (r :: l) = KCat (cdenote m r) (cdenotes m l)) by (destruct r; try reflexivity; discriminate).
        rewrite E. eapply cwords_ext; [|exact (cwords_seq _ _ _ _ (IHr H1 m) (proj1 (IHl H2 m)))]. intros st st'.
        rewrite tsems_cons by exact Em. reflexivity.
    + destruct (IHl H2 (mode_end m r)) as [_ I2]. intros p lg Hp. destruct (IHr H1 m p lg Hp) as [A1 A2]. destruct (I2 p lg Hp) as [B1 B2].
      cbn [talt cdenote_alt]. split.
      * intros e lg' [H|H]; [destruct (A1 _ _ H)|destruct (B1 _ _ H)]; (split; [assumption|]); apply cword_alt; auto.
      * intros e B W. apply cword_alt in W as [W|W]; [destruct (A2 e B W) as (lg' & H)|destruct (B2 e B W) as (lg' & H)]; exists lg'; auto.
  - intros _ m. exact (cwords_char (cls_has (snd m) c)).
  - intros _ m. cbn [cdenote]. eapply cwords_ext; [|exact (cwords_char (any_has (fst m)))]. intros st st'. cbn. unfold any_has.
    split; intros (v & N & V & E); exists v; (split; [exact N|]); (split; [|exact E]).
    + destruct (fst m) eqn:Ef; [|reflexivity]. cbn. destruct (Z.eqb_spec v 10); [|reflexivity]. exfalso. apply V. auto.
    + intros [V1 V2]. rewrite V1, V2 in V. discriminate.
  - intros _ m. apply cwords_str.
  - intros H m. eapply cwords_ext; [intros st st'; rewrite tsem_select; reflexivity|].
    replace (cdenote m (RSelect l)) with (cdenote_alt m l); [apply (IH H)|].
    clear. revert m. induction l as [|r l IHl]; intros m; [reflexivity|]. cbn [cdenote_alt]. rewrite IHl. reflexivity.
  - intros H m. exact (proj1 (IH H m)).
  - intros _ m. exact cwords_nil.
  - intros _ m p lg Hp. split; [intros e lg' []|]. intros e _ W. destruct (cword_none _ _ _ W).
  - intros H m p lg Hp. destruct (IH H m) as [I1 _].
    change (cdenote m (RRep kd a b l)) with (cbetween a b (cdenotes m l)). split.
    + intros e lg' (k & K1 & K2 & K3). destruct (cwords_iter _ _ I1 k p lg Hp) as [X _]. destruct (X e lg' K3) as [B W].
      split; [exact B|]. apply cbetween_power. eauto.
    + intros e B W. apply cbetween_power in W as (k & K1 & K2 & W). destruct (cwords_iter _ _ I1 k p lg Hp) as [_ X].
      destruct (X e B W) as (lg' & H'). exists lg', k. auto.
  - intros H m p lg Hp. destruct (IH H m) as [I1 _]. destruct (I1 p lg Hp) as [A1 A2]. split.
    + intros e lg' ([q lq] & H1 & E). injection E as -> ->. exact (A1 _ _ H1).
    + intros e B W. destruct (A2 e B W) as (lg' & H1). eexists. exists (e, lg'). split; [exact H1|reflexivity].
  - intros H m p lg Hp. destruct (IH H m) as [I1 _]. destruct (I1 p lg Hp) as [A1 A2]. split.
    + intros e lg' ([q lq] & H1 & E). injection E as -> ->. exact (A1 _ _ H1).
    + intros e B W. destruct (A2 e B W) as (lg' & H1). eexists. exists (e, lg'). split; [exact H1|reflexivity].
  - intros H m. destruct (IH H m) as [I1 _].
    assert (X : forall p lg, p <= length s -> ((exists st', tsems s names m l (p, lg) st') <-> cprefix (cdenotes m l) (before p) (skipn p s) = true)).
    { intros p lg Hp. rewrite prefix_there by exact Hp. destruct (I1 p lg Hp) as [A1 A2]. split.
      - intros ([e lg'] & K). exists e. exact (A1 _ _ K).
      - intros (e & B & W). destruct (A2 e B W) as (lg' & K). eauto. }
    change (cdenote m (RAhead neg l)) with (KTest (fun b a => xorb neg (cprefix (cdenotes m l) b a))).
    apply (cwords_test (fun p => xorb neg (cprefix (cdenotes m l) (before p) (skipn p s)) = true)); [| |reflexivity].
    + intros [p lg] st' Hp. cbn [fst] in *. destruct neg; rewrite ?xorb_true_l, ?xorb_false_l.
      * intros [-> K]. split; [reflexivity|]. apply negb_true_iff. destruct (cprefix (cdenotes m l) (before p) (skipn p s)) eqn:E; [|reflexivity].
        apply (X p lg Hp) in E as (x & E). destruct (K x E).
      * intros (x & K & ->). split; [reflexivity|]. apply (X p lg Hp). exists x. exact K.
    + intros [p lg] Hp. cbn [fst] in *. destruct neg; rewrite ?xorb_true_l, ?xorb_false_l; intros K.
      * exists lg. split; [reflexivity|]. intros x E. rewrite (proj1 (X p lg Hp) (ex_intro _ x E)) in K. discriminate.
      * apply (X p lg Hp) in K as (x & K). exists (snd x), x. split; [exact K|reflexivity].
  - intros _ m. change (cdenote m (RBehind neg l)) with (KTest (fun b a => xorb neg (csuffix (bdenotes m l) [] b a))).
    apply (cwords_test (fun p => if neg then bseq s (fst m) (snd m) l p = [] else bseq s (fst m) (snd m) l p <> [])).
    + intros st st' _. destruct neg; intros [-> K]; auto.
    + intros [p lg] Hp. cbn [fst]. intros K. exists lg. destruct neg; split; auto.
    + intros p Hp. assert (E : csuffix (bdenotes m l) [] (before p) (skipn p s) = true <-> bseq s (fst m) (snd m) l p <> []).
      { rewrite suffix_there by exact Hp. split.
        - intros (q & Q). apply backs_words in Q; [|exact Hp]. intros K. rewrite K in Q. exact Q.
        - intros K. destruct (bseq s (fst m) (snd m) l p) as [|q qs] eqn:Eq; [congruence|]. exists q. apply backs_words; [exact Hp|]. rewrite Eq. left. reflexivity. }
      destruct neg, (csuffix (bdenotes m l) [] (before p) (skipn p s)); cbn [xorb]; try tauto.
      * split; [intros K|discriminate]. exfalso. apply (proj1 E eq_refl). exact K.
      * split; [reflexivity|]. intros _. destruct (bseq s (fst m) (snd m) l p); [reflexivity|]. discriminate (proj2 E ltac:(discriminate)).
  - intros H m. exact (proj1 (IH H m)).
  - intros _ m. apply (cwords_test (fun p => boundary s (snd m) c p = true)).
    + intros st st' _ [-> K]. auto.
    + intros [p lg] Hp K. exists lg. split; auto.
    + intros p Hp. rewrite bound_there by exact Hp. reflexivity.
  - intros _ m. apply (cwords_test (fun p => boundary s (snd m) c p = false)).
    + intros st st' _ [-> K]. auto.
    + intros [p lg] Hp K. exists lg. split; auto.
    + intros p Hp. rewrite bound_there by exact Hp. destruct (boundary s (snd m) c p); cbn; split; congruence.
  - intros _ m. apply (cwords_test (fun p => holds s (fst m) a p = true)).
    + intros st st' _ [-> K]. auto.
    + intros [p lg] Hp K. exists lg. split; auto.
    + intros p Hp. rewrite assert_there by exact Hp. reflexivity.
  - intros _ m. exact cwords_nil.
Qed.
End Positions.

Theorem cfirst_least : forall w x b, match cfirst x b w with
  | Some k => k <= length w /\ cprefix x (rev (firstn k w) ++ b) (skipn k w) = true /\
      forall j, j < k -> cprefix x (rev (firstn j w) ++ b) (skipn j w) = false
  | None => forall k, k <= length w -> cprefix x (rev (firstn k w) ++ b) (skipn k w) = false
  end.
Proof.
  induction w as [|v w IH]; intros x b; cbn [cfirst]; destruct (cprefix x b _) eqn:E.
  - split; [apply le_n|]. split; [exact E|]. intros j H. lia.
  - intros [|k] H; [exact E|cbn in H; lia].
  - split; [lia|]. split; [exact E|]. intros j H. lia.
  - specialize (IH x (v :: b)).
    assert (X : forall k, rev (firstn (S k) (v :: w)) ++ b = rev (firstn k w) ++ v :: b).
    { intros k. cbn [firstn rev]. rewrite <- app_assoc. reflexivity. }
    destruct (cfirst x (v :: b) w) as [k|]; cbn [option_map].
    + destruct IH as (H1 & H2 & H3). split; [cbn; lia|]. rewrite X. split; [exact H2|].
      intros [|j] H; [exact E|]. rewrite X. apply H3. lia.
    + intros [|k] H; [exact E|]. rewrite X. apply IH. cbn in H. lia.
Qed.

(** * The calls *)
Definition contextual (f : flags) (r : re) : cexp := cdenote (mode_of f) r.

Section Calls.
Variables (s : list Z) (f : flags) (r : re).
Hypothesis r_plain : unreferring r = true.
Hypothesis r_scope : scope_check f r = true.

Lemma derives_cword : forall p e, p <= length s ->
  ((exists lg, mderives s f r p e lg) <-> bounded s p e /\ there s (contextual f r) p e).
Proof.
  intros p e Hp. destruct (cwords_agree s (names_of r) r r_plain (mode_of f) p [] Hp) as [A1 A2]. split.
  - intros (lg & H). apply (mderives_scope s f r p e lg r_scope) in H. exact (A1 _ _ H).
  - intros [B W]. destruct (A2 e B W) as (lg & H). exists lg. apply (mderives_scope s f r p e lg r_scope). exact H.
Qed.
Lemma whole_caccepts : (exists lg, mderives s f r 0 (length s) lg) <-> caccepts (contextual f r) [] s [] = true.
Proof.
  rewrite (derives_cword 0 (length s) (Nat.le_0_l _)), caccepts_word. unfold there, piece, before. rewrite Nat.sub_0_r. cbn [skipn firstn rev].
  rewrite firstn_all, skipn_all. split; [tauto|]. intros H. split; [|exact H]. split; lia.
Qed.
Lemma prefix_caccepts : forall p, p <= length s ->
  ((exists e lg, mderives s f r p e lg) <-> cprefix (contextual f r) (rev (firstn p s)) (skipn p s) = true).
Proof.
  intros p Hp. rewrite (prefix_there s (names_of r) (contextual f r) p Hp). split.
  - intros (e & H). exists e. apply derives_cword; [exact Hp|exact H].
  - intros (e & H). exists e. apply derives_cword; [exact Hp|exact H].
Qed.
Lemma piece_caccepts : forall p e lg, p <= length s -> mderives s f r p e lg -> p <= e /\ e <= length s /\
  caccepts (contextual f r) (rev (firstn p s)) (firstn (e - p) (skipn p s)) (skipn e s) = true.
Proof.
  intros p e lg Hp H. destruct (proj1 (derives_cword p e Hp) (ex_intro _ lg H)) as [[L1 L2] W]. split; [exact L1|]. split; [exact L2|].
  apply caccepts_word. exact W.
Qed.
End Calls.

Section Text.
Variable props : list Z -> option (list Z) -> option (list (Z * Z)).
Variables (u : list Z) (r0 r : re).
Hypothesis text : pattern_text props plain_builders u r0.
Hypothesis compiled : compile props u = CRegex r.
Hypothesis harmless : fusible r0 = true.
Hypothesis r0_plain : unreferring r0 = true.

Theorem contextual_match : forall opt s f, forallb val_ok s = true -> terminating r = true -> scope_check f r0 = true ->
  msound_check opt f r = true -> right_check opt f r MMatch = true ->
  exists c, answers (fun n => ctre_match opt n s f r) c /\ matched c = caccepts (contextual f r0) [] s [].
Proof.
  intros opt s f H1 H2 H3 H4 H5. destruct (m_text_match props u r0 r text compiled harmless opt s f H1 H2 H4 H5) as (c & A & B & _).
  exists c. split; [exact A|]. apply Textbook.bool_iff. rewrite B. apply whole_caccepts; assumption.
Qed.
Theorem contextual_starts : forall opt s f, forallb val_ok s = true -> terminating r = true -> scope_check f r0 = true ->
  msound_check opt f r = true -> right_check opt f r MStarts = true ->
  exists c, answers (fun n => ctre_starts_with opt n s f r) c /\ matched c = cprefix (contextual f r0) [] s /\
    (matched c = true -> exists e, group c 0 = Some (0, e) /\ e <= length s /\ caccepts (contextual f r0) [] (firstn e s) (skipn e s) = true).
Proof.
  intros opt s f H1 H2 H3 H4 H5. destruct (m_text_starts props u r0 r text compiled harmless opt s f H1 H2 H4 H5) as (c & A & B & D).
  exists c. split; [exact A|]. split.
  - apply Textbook.bool_iff. rewrite B. apply (prefix_caccepts s f r0 r0_plain H3 0 (Nat.le_0_l _)).
  - intros M. destruct (D M) as (e & lg & G & H & _). exists e. split; [exact G|].
    destruct (piece_caccepts s f r0 r0_plain H3 0 e lg (Nat.le_0_l _) H) as (_ & L & W). split; [exact L|].
    rewrite Nat.sub_0_r in W. exact W.
Qed.
Theorem contextual_search : forall opt s f, forallb val_ok s = true -> terminating r = true -> scope_check f r0 = true ->
  msound_check opt f r = true -> right_check opt f r MSearch = true -> fair_anchor f r = true ->
  exists c, answers (fun n => ctre_search opt n s f r) c /\
    match cfirst (contextual f r0) [] s with
    | None => matched c = false
    | Some b => matched c = true /\ exists e, group c 0 = Some (b, e) /\ b <= e /\ e <= length s /\
        caccepts (contextual f r0) (rev (firstn b s)) (firstn (e - b) (skipn b s)) (skipn e s) = true
    end.
Proof.
  intros opt s f H1 H2 H3 H4 H5 H6. destruct (any_text_search props u r0 r text compiled harmless opt s f H1 H2 H4 H5 H6) as (c & A & B & D).
  exists c. split; [exact A|]. pose proof (cfirst_least s (contextual f r0) []) as P. destruct (cfirst _ [] s) as [b|].
  - destruct P as (P1 & P2 & P3). rewrite app_nil_r in P2. apply (prefix_caccepts s f r0 r0_plain H3 b P1) in P2.
    destruct P2 as (e0 & lg0 & K). assert (M : matched c = true) by (apply B; eauto 6). split; [exact M|].
    destruct (D M) as (b' & e & lg & G & H & _ & Q). pose proof (Q b e0 lg0 P1 K) as L.
    assert (Hb : b' <= length s) by lia.
    assert (b' = b).
    { destruct (Nat.eq_dec b' b) as [E|E]; [exact E|exfalso]. specialize (P3 b' ltac:(lia)). rewrite app_nil_r in P3.
      assert (X : cprefix (contextual f r0) (rev (firstn b' s)) (skipn b' s) = true) by (apply (prefix_caccepts s f r0 r0_plain H3 b' Hb); eauto).
      congruence. }
    subst b'. exists e. split; [exact G|]. exact (piece_caccepts s f r0 r0_plain H3 b e lg Hb H).
  - destruct (matched c) eqn:M; [exfalso|reflexivity]. destruct (proj1 B eq_refl) as (b & e & lg & Hb & H).
    specialize (P b Hb). rewrite app_nil_r in P.
    assert (X : cprefix (contextual f r0) (rev (firstn b s)) (skipn b s) = true) by (apply (prefix_caccepts s f r0 r0_plain H3 b Hb); eauto).
    congruence.
Qed.
End Text.
