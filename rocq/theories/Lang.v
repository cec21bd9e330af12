(** Regular patterns denote textbook regular expressions: words without positions, captures or preference,
    and Brzozowski derivatives as a decision procedure. *)
From Coq Require Import List ZArith NArith Bool Lia Arith ZifyBool ZifyN ZifyNat.
From Verif Require Import Chars Syntax First View Eval Api Spec CharProofs EvalInv ApiProofs EvalTop Match Mode ModeSem ModeScope ModeCalls.
Import ListNotations.

(** * Textbook regular expressions *)
Inductive regexp :=
| XNone
| XEps
| XChar (P : Z -> bool)
| XAlt (x y : regexp)
| XCat (x y : regexp)
| XStar (x : regexp).

Inductive word : regexp -> list Z -> Prop :=
| w_eps : word XEps []
| w_char : forall (P : Z -> bool) v, P v = true -> word (XChar P) [v]
| w_left : forall x y w, word x w -> word (XAlt x y) w
| w_right : forall x y w, word y w -> word (XAlt x y) w
| w_cat : forall x y w w', word x w -> word y w' -> word (XCat x y) (w ++ w')
| w_stop : forall x, word (XStar x) []
| w_more : forall x w w', word x w -> word (XStar x) w' -> word (XStar x) (w ++ w').

(** Brzozowski (1964). *)
Fixpoint nullable (x : regexp) : bool :=
  match x with
  | XNone | XChar _ => false
  | XEps | XStar _ => true
  | XAlt x y => nullable x || nullable y
  | XCat x y => nullable x && nullable y
  end.
Fixpoint deriv (v : Z) (x : regexp) : regexp :=
  match x with
  | XNone | XEps => XNone
  | XChar P => if P v then XEps else XNone
  | XAlt x y => XAlt (deriv v x) (deriv v y)
  | XCat x y => if nullable x then XAlt (XCat (deriv v x) y) (deriv v y) else XCat (deriv v x) y
  | XStar x => XCat (deriv v x) (XStar x)
  end.
Fixpoint accepts (x : regexp) (w : list Z) : bool :=
  match w with [] => nullable x | v :: w => accepts (deriv v x) w end.

(** Is some prefix a word; the first position from which some piece is a word. *)
Fixpoint accepts_prefix (x : regexp) (w : list Z) : bool :=
  nullable x || match w with [] => false | v :: w => accepts_prefix (deriv v x) w end.
Fixpoint first_piece (x : regexp) (w : list Z) : option nat :=
  if accepts_prefix x w then Some 0
  else match w with [] => None | _ :: w => option_map S (first_piece x w) end.

(** * The expression that a pattern denotes *)
Fixpoint power (n : nat) (x : regexp) : regexp := match n with O => XEps | S n => XCat x (power n x) end.
Fixpoint upto (n : nat) (x : regexp) : regexp := match n with O => XEps | S n => XAlt XEps (XCat x (upto n x)) end.
(** At least [a] and at most [b] times, [b = 0]: no bound. *)
Definition between (a b : N) (x : regexp) : regexp :=
  if N.eqb b 0 then XCat (power (N.to_nat a) x) (XStar x)
  else if N.ltb b a then XNone else XCat (power (N.to_nat a) x) (upto (N.to_nat b - N.to_nat a) x).

(** [m]: multiline and case-insensitive; a switch acts up to the end of its group. *)
Fixpoint denote (m : modes) (r : re) : regexp :=
  let seq := fix seq (m : modes) (l : list re) : regexp :=
    match l with
    | [] => XEps
    | RMode k :: rs => seq (switch k m) rs
    | r :: rs => XCat (denote m r) (seq m rs)
    end in
  match r with
  | RCls c => XChar (cls_has (snd m) c)
  | RAny => XChar (fun v => negb (fst m && (v =? 10)%Z))
  | RStr t => fold_right (fun c x => XCat (XChar (lit_has (snd m) c)) x) XEps t
  | RSelect l => (fix alt (m : modes) (l : list re) : regexp :=
      match l with [] => XNone | r :: rs => XAlt (denote m r) (alt (mode_end m r) rs) end) m l
  | RSeq l | RCap _ l | RNCap _ _ l => seq m l
  | RRep _ a b l => between a b (seq m l)
  | REmpty | RMode _ => XEps
  | _ => XNone
  end.
Fixpoint denotes (m : modes) (l : list re) : regexp :=
  match l with
  | [] => XEps
  | RMode k :: rs => denotes (switch k m) rs
  | r :: rs => XCat (denote m r) (denotes m rs)
  end.
Fixpoint denote_alt (m : modes) (l : list re) : regexp :=
  match l with [] => XNone | r :: rs => XAlt (denote m r) (denote_alt (mode_end m r) rs) end.

(** No references, assertions, lookarounds, atomic groups. *)
Fixpoint regular (r : re) : bool :=
  match r with
  | RCls _ | RAny | RStr _ | REmpty | RReject | RMode _ => true
  | RSelect l | RSeq l | RRep _ _ _ l | RCap _ l | RNCap _ _ l => forallb regular l
  | _ => false
  end.

(** * The decision procedure *)
Lemma nullable_word : forall x, nullable x = true <-> word x [].
Proof.
  induction x as [| |P|x IHx y IHy|x IHx y IHy|x IHx]; cbn [nullable].
  - split; [discriminate|]. intros H. inversion H.
  - split; [constructor|reflexivity].
  - split; [discriminate|]. intros H. inversion H.
  - rewrite orb_true_iff, IHx, IHy. split.
    + intros [H|H]; [apply w_left | apply w_right]; exact H.
    + intros H. inversion H; auto.
  - rewrite andb_true_iff, IHx, IHy. split.
    + intros [H1 H2]. exact (w_cat _ _ _ _ H1 H2).
    + intros H. inversion H as [| | | |x' y' w1 w2 H1 H2 E1 E2| |]. apply app_eq_nil in E2 as [-> ->]. auto.
  - split; [constructor|reflexivity].
Qed.
Lemma star_cons : forall x v w, word (XStar x) (v :: w) -> exists w1 w2, w = w1 ++ w2 /\ word x (v :: w1) /\ word (XStar x) w2.
Proof.
  intros x v w H. remember (XStar x) as y eqn:Ey. remember (v :: w) as u eqn:Eu. revert Ey v w Eu.
  induction H; intros Ey; try discriminate. injection Ey as ->. intros v u Eu. destruct w as [|v' w].
  - exact (IHword2 eq_refl v u Eu).
  - injection Eu as -> <-. eauto.
Qed.
Lemma deriv_word : forall x v w, word (deriv v x) w <-> word x (v :: w).
Proof.
  induction x as [| |P|x IHx y IHy|x IHx y IHy|x IHx]; intros v w; cbn [deriv].
  - split; intros H; inversion H.
  - split; intros H; inversion H.
  - destruct (P v) eqn:E; split; intros H; inversion H; subst; try congruence; constructor. assumption.
  - split; intros H; inversion H; subst; solve [apply w_left; apply IHx; assumption | apply w_right; apply IHy; assumption].
  - assert (C : word (XCat (deriv v x) y) w <-> exists w1 w2, w = w1 ++ w2 /\ word x (v :: w1) /\ word y w2).
    { split.
      - intros H. inversion H; subst. do 2 eexists. split; [reflexivity|]. split; [apply IHx|]; assumption.
      - intros (w1 & w2 & -> & H1 & H2). constructor; [apply IHx|]; assumption. }
    assert (D : word (XCat x y) (v :: w) <-> (exists w1 w2, w = w1 ++ w2 /\ word x (v :: w1) /\ word y w2)
      \/ (word x [] /\ word y (v :: w))).
    { split.
      - intros H. inversion H as [| | | |x' y' w1 w2 H1 H2 E1 E2| |]; subst. destruct w1 as [|v' w1].
        + right. cbn in E2. subst. auto.
        + left. injection E2 as -> <-. eauto.
      - intros [(w1 & w2 & -> & H1 & H2)|[H1 H2]]; [exact (w_cat _ _ _ _ H1 H2)|exact (w_cat _ _ _ _ H1 H2)]. }
    rewrite D. destruct (nullable x) eqn:E.
    + apply nullable_word in E. split.
      * intros H. inversion H; subst; [left; apply C; assumption|right; split; [exact E|]; apply IHy; assumption].
      * intros [H|[_ H]]; [apply w_left; apply C; assumption|apply w_right; apply IHy; assumption].
    + rewrite C. split; [auto|]. intros [H|[H _]]; [exact H|]. apply nullable_word in H. congruence.
  - split.
    + intros H. inversion H; subst. change (v :: w0 ++ w') with ((v :: w0) ++ w'). apply w_more; [apply IHx|]; assumption.
    + intros H. apply star_cons in H as (w1 & w2 & -> & H1 & H2). constructor; [apply IHx|]; assumption.
Qed.
Theorem accepts_word : forall w x, accepts x w = true <-> word x w.
Proof.
  induction w as [|v w IH]; intros x; cbn [accepts]; [apply nullable_word|]. rewrite IH. apply deriv_word.
Qed.
Theorem accepts_prefix_word : forall w x, accepts_prefix x w = true <-> exists w1 w2, w = w1 ++ w2 /\ word x w1.
Proof.
  induction w as [|v w IH]; intros x; cbn [accepts_prefix]; rewrite orb_true_iff, nullable_word.
  - split.
    + intros [H|H]; [|discriminate]. exists [], []. auto.
    + intros (w1 & w2 & E & H). symmetry in E. apply app_eq_nil in E as [-> _]. auto.
  - rewrite IH. split.
    + intros [H|(w1 & w2 & -> & H)]; [exists [], (v :: w); auto|]. exists (v :: w1), w2. split; [reflexivity|]. apply deriv_word. exact H.
    + intros ([|v' w1] & w2 & E & H); [auto|]. right. injection E as -> ->. exists w1, w2. split; [reflexivity|]. apply deriv_word. exact H.
Qed.
Theorem first_piece_least : forall w x, match first_piece x w with
  | Some b => b <= length w /\ accepts_prefix x (skipn b w) = true /\ forall b', b' < b -> accepts_prefix x (skipn b' w) = false
  | None => forall b, b <= length w -> accepts_prefix x (skipn b w) = false
  end.
Proof.
  induction w as [|v w IH]; intros x; cbn [first_piece]; destruct (accepts_prefix x _) eqn:E.
  - split; [apply le_n|]. split; [exact E|]. intros b' H. lia.
  - intros [|b] H; [exact E|cbn in H; lia].
  - split; [lia|]. split; [exact E|]. intros b' H. lia.
  - specialize (IH x). destruct (first_piece x w) as [b|]; cbn [option_map].
    + destruct IH as (H1 & H2 & H3). split; [cbn; lia|]. split; [exact H2|]. intros [|b'] H; [exact E|]. apply H3. lia.
    + intros [|b] H; [exact E|]. apply IH. cbn in H. lia.
Qed.

Lemma word_alt : forall x y w, word (XAlt x y) w <-> word x w \/ word y w.
Proof. intros x y w. split; [intros H; inversion H; auto|]. intros [H|H]; [apply w_left|apply w_right]; exact H. Qed.
Lemma word_cat : forall x y w, word (XCat x y) w <-> exists w1 w2, w = w1 ++ w2 /\ word x w1 /\ word y w2.
Proof. intros x y w. split; [intros H; inversion H; subst; eauto|]. intros (w1 & w2 & -> & H1 & H2). constructor; assumption. Qed.
Lemma word_eps : forall w, word XEps w <-> w = [].
Proof. intros w. split; [intros H; inversion H; reflexivity|intros ->; constructor]. Qed.
Lemma word_none : forall w, ~ word XNone w.
Proof. intros w H. inversion H. Qed.
Lemma power_add : forall i j x w, word (power (i + j) x) w <-> exists w1 w2, w = w1 ++ w2 /\ word (power i x) w1 /\ word (power j x) w2.
Proof.
  induction i as [|i IH]; intros j x w; cbn [plus power].
  - split.
    + intros H. exists [], w. split; [reflexivity|]. split; [constructor|exact H].
    + intros (w1 & w2 & -> & H1 & H2). apply word_eps in H1. subst. exact H2.
  - rewrite word_cat. split.
    + intros (w1 & w2 & -> & H1 & H2). apply IH in H2 as (w3 & w4 & -> & H3 & H4). exists (w1 ++ w3), w4.
      rewrite app_assoc. split; [reflexivity|]. split; [apply word_cat; eauto|exact H4].
    + intros (w1 & w2 & -> & H1 & H2). apply word_cat in H1 as (w3 & w4 & -> & H3 & H4). exists w3, (w4 ++ w2).
      rewrite <- app_assoc. split; [reflexivity|]. split; [exact H3|]. apply IH. eauto.
Qed.
Lemma star_power : forall x w, word (XStar x) w <-> exists k, word (power k x) w.
Proof.
  intros x w. split.
  - intros H. remember (XStar x) as y eqn:Ey. induction H; try discriminate.
    + exists 0. constructor.
    + injection Ey as ->. destruct (IHword2 eq_refl) as (k & K). exists (S k). apply word_cat. eauto.
  - intros (k & H). revert w H. induction k as [|k IH]; intros w H.
    + apply word_eps in H. subst. constructor.
    + apply word_cat in H as (w1 & w2 & -> & H1 & H2). apply w_more; auto.
Qed.
Lemma upto_power : forall n x w, word (upto n x) w <-> exists k, k <= n /\ word (power k x) w.
Proof.
  induction n as [|n IH]; intros x w; cbn [upto].
  - rewrite word_eps. split.
    + intros ->. exists 0. split; [lia|constructor].
    + intros (k & Hk & H). assert (k = 0) by lia. subst k. apply word_eps in H. exact H.
  - rewrite word_alt, word_eps, word_cat. split.
    + intros [->|(w1 & w2 & -> & H1 & H2)]; [exists 0; split; [lia|constructor]|].
      apply IH in H2 as (k & Hk & H2). exists (S k). split; [lia|]. apply word_cat. eauto.
    + intros ([|k] & Hk & H); [apply word_eps in H; auto|]. right. apply word_cat in H as (w1 & w2 & -> & H1 & H2).
      exists w1, w2. split; [reflexivity|]. split; [exact H1|]. apply IH. exists k. split; [lia|exact H2].
Qed.
Lemma between_power : forall a b x w, word (between a b x) w <->
  exists k : nat, (a <= N.of_nat k)%N /\ (b = 0%N \/ (N.of_nat k <= b)%N) /\ word (power k x) w.
Proof.
  intros a b x w. unfold between. destruct (N.eqb_spec b 0) as [->|Hb].
  - rewrite word_cat. split.
    + intros (w1 & w2 & -> & H1 & H2). apply star_power in H2 as (k & H2). exists (N.to_nat a + k).
      split; [lia|]. split; [auto|]. apply power_add. eauto.
    + intros (k & Hk & _ & H). replace k with (N.to_nat a + (k - N.to_nat a)) in H by lia.
      apply power_add in H as (w1 & w2 & -> & H1 & H2). exists w1, w2. split; [reflexivity|]. split; [exact H1|]. apply star_power. eauto.
  - destruct (N.ltb_spec b a) as [Ha|Ha].
    + split; [intros H; destruct (word_none _ H)|]. intros (k & H1 & [H2|H2] & _); lia.
    + rewrite word_cat. split.
      * intros (w1 & w2 & -> & H1 & H2). apply upto_power in H2 as (k & Hk & H2). exists (N.to_nat a + k).
        split; [lia|]. split; [right; lia|]. apply power_add. eauto.
      * intros (k & Hk & [Hk'|Hk'] & H); [lia|]. replace k with (N.to_nat a + (k - N.to_nat a)) in H by lia.
        apply power_add in H as (w1 & w2 & -> & H1 & H2). exists w1, w2. split; [reflexivity|]. split; [exact H1|].
        apply upto_power. exists (k - N.to_nat a). split; [lia|exact H2].
Qed.

(** * Derivations are words *)
Section Pieces.
Variable s : list Z.
Variable names : list Z -> option nat.
Definition piece (p e : nat) : list Z := firstn (e - p) (skipn p s).
Definition bounded (p e : nat) : Prop := p <= e /\ e <= length s.

Lemma piece_length : forall p e, bounded p e -> length (piece p e) = e - p.
Proof. intros p e [H1 H2]. unfold piece. rewrite firstn_length, skipn_length. lia. Qed.
Lemma piece_empty : forall p, piece p p = [].
Proof. intros p. unfold piece. rewrite Nat.sub_diag. reflexivity. Qed.
Lemma skipn_add : forall A (l : list A) i j, skipn i (skipn j l) = skipn (j + i) l.
Proof. intros A l i j. revert l. induction j as [|j IH]; intros l; [reflexivity|]. destruct l; [rewrite !skipn_nil; reflexivity|apply IH]. Qed.
Lemma piece_app : forall p q e, bounded p q -> bounded q e -> piece p q ++ piece q e = piece p e.
Proof.
  intros p q e [H1 H2] [H3 H4]. unfold piece. replace (skipn q s) with (skipn (q - p) (skipn p s)) by (rewrite skipn_add; f_equal; lia).
  replace (e - p) with ((q - p) + (e - q)) by lia. generalize (skipn p s). intros l. generalize (q - p), (e - q). intros i j. revert l.
  induction i as [|i IH]; intros l; [reflexivity|]. destruct l; [rewrite !firstn_nil; reflexivity|]. cbn. f_equal. apply IH.
Qed.
Lemma piece_split : forall p e w1 w2, bounded p e -> piece p e = w1 ++ w2 ->
  exists q, bounded p q /\ bounded q e /\ w1 = piece p q /\ w2 = piece q e.
Proof.
  intros p e w1 w2 B E. pose proof (piece_length p e B) as L. rewrite E, app_length in L. destruct B as [B1 B2].
  exists (p + length w1). assert (X : bounded p (p + length w1)) by (split; lia). assert (Y : bounded (p + length w1) e) by (split; lia).
  split; [exact X|]. split; [exact Y|]. rewrite <- (piece_app p (p + length w1) e X Y) in E.
  assert (L1 : length (piece p (p + length w1)) = length w1) by (rewrite piece_length by exact X; lia).
  generalize dependent (piece p (p + length w1)). generalize (piece (p + length w1) e). intros v u E L1. revert u E L1. clear.
  induction w1 as [|c w1 IH]; intros [|d u] E L; try discriminate; [auto|]. injection E as <- E. destruct (IH u E) as [-> ->]; [cbn in L; lia|]. auto.
Qed.
Lemma piece_one : forall p v, nth_error s p = Some v -> bounded p (S p) /\ piece p (S p) = [v].
Proof.
  intros p v H. assert (L : p < length s) by (apply nth_error_Some; congruence). split; [split; lia|].
  unfold piece. replace (S p - p) with 1 by lia. revert H. clear. revert p. induction s as [|x l IH]; intros [|p] H; try discriminate.
  - injection H as ->. reflexivity.
  - apply IH. exact H.
Qed.
Lemma piece_char : forall p e v, bounded p e -> piece p e = [v] -> e = S p /\ nth_error s p = Some v.
Proof.
  intros p e v B E. pose proof (piece_length p e B) as L. rewrite E in L. cbn in L. destruct B as [B1 B2]. assert (e = S p) by lia. subst e.
  split; [reflexivity|]. destruct (nth_error s p) as [v'|] eqn:N; [|apply nth_error_None in N; lia].
  destruct (piece_one p v' N) as [_ P]. congruence.
Qed.
Lemma cat_pieces : forall x y p e, bounded p e -> (word (XCat x y) (piece p e) <->
  exists q, bounded p q /\ bounded q e /\ word x (piece p q) /\ word y (piece q e)).
Proof.
  intros x y p e B. rewrite word_cat. split.
  - intros (w1 & w2 & E & H1 & H2). destruct (piece_split p e w1 w2 B E) as (q & B1 & B2 & -> & ->). eauto 6.
  - intros (q & B1 & B2 & H1 & H2). exists (piece p q), (piece q e). rewrite piece_app by assumption. auto.
Qed.

Notation sem m := (sem s (fst m) (snd m) names).
(** [X] is the relation on positions given by the words of [x]. *)
Definition as_words (R : state -> state -> Prop) (x : regexp) : Prop := forall p lg, p <= length s ->
  (forall e lg', R (p, lg) (e, lg') -> bounded p e /\ word x (piece p e)) /\
  (forall e, bounded p e -> word x (piece p e) -> exists lg', R (p, lg) (e, lg')).

Lemma words_seq : forall R Q x y, as_words R x -> as_words Q y ->
  as_words (fun st st' => exists z, R st z /\ Q z st') (XCat x y).
Proof.
  intros R Q x y HR HQ p lg Hp. destruct (HR p lg Hp) as [R1 R2]. split.
  - intros e lg' ([q lq] & H1 & H2). destruct (R1 q lq H1) as [B1 W1]. destruct (HQ q lq (proj2 B1)) as [Q1 _].
    destruct (Q1 e lg' H2) as [B2 W2]. assert (B : bounded p e) by (destruct B1, B2; split; lia). split; [exact B|].
    apply cat_pieces; [exact B|]. eauto 6.
  - intros e B W. apply cat_pieces in W as (q & B1 & B2 & W1 & W2); [|exact B]. destruct (R2 q B1 W1) as (lq & H1).
    destruct (HQ q lq (proj2 B1)) as [_ Q2]. destruct (Q2 e B2 W2) as (lg' & H2). exists lg', (q, lq). auto.
Qed.
Lemma words_nil : as_words (fun st st' => st' = st) XEps.
Proof.
  intros p lg Hp. split.
  - intros e lg' H. injection H as -> ->. split; [split; [lia|exact Hp]|]. rewrite piece_empty. constructor.
  - intros e B W. apply word_eps in W. pose proof (piece_length p e B) as L. rewrite W in L. cbn in L. destruct B.
    exists lg. f_equal. lia.
Qed.
Lemma words_ext : forall R Q x, (forall st st', R st st' <-> Q st st') -> as_words Q x -> as_words R x.
Proof.
  intros R Q x E H p lg Hp. destruct (H p lg Hp) as [H1 H2]. split.
  - intros e lg' X. apply E in X. exact (H1 _ _ X).
  - intros e B W. destruct (H2 e B W) as (lg' & X). exists lg'. apply E. exact X.
Qed.
Lemma words_char : forall P : Z -> bool, as_words (fun st st' => exists v, nth_error s (fst st) = Some v /\ P v = true /\ st' = (S (fst st), snd st)) (XChar P).
Proof.
  intros P p lg Hp. split.
  - intros e lg' (v & N & V & E). cbn [fst snd] in *. injection E as -> ->. destruct (piece_one p v N) as [B ->]. split; [exact B|]. constructor. exact V.
  - intros e B W. inversion W as [|Q v V E1 E2| | | | |]. symmetry in E2. destruct (piece_char p e v B E2) as [-> N]. exists lg, v. auto.
Qed.
Lemma words_iter : forall R x, as_words R x -> forall k, as_words (iter R k) (power k x).
Proof. intros R x H. induction k as [|k IH]; [exact words_nil|]. exact (words_seq _ _ _ _ H IH). Qed.

Lemma words_str : forall m t, as_words (sem m (RStr t)) (denote m (RStr t)).
Proof.
  intros m. induction t as [|c t IH].
  - eapply words_ext; [|exact words_nil]. intros [p lg] st'. cbn. rewrite Nat.add_0_r. split; [tauto|]. intros ->. split; [reflexivity|].
    intros [|i] c H; discriminate.
  - eapply words_ext; [|exact (words_seq _ _ _ _ (words_char (lit_has (snd m) c)) IH)]. intros [p lg] st'. cbn. split.
    + intros (-> & H). exists (S p, lg). cbn. split.
      * destruct (H 0 c eq_refl) as (v & N & V). rewrite Nat.add_0_r in N. eauto.
      * split; [f_equal; lia|]. intros i d Hi. destruct (H (S i) d Hi) as (v & N & V). rewrite Nat.add_succ_r in N. eauto.
    + intros ([q lq] & (v & N & V & E) & E2 & H). injection E as -> ->. cbn in *. subst st'. split; [f_equal; lia|].
      intros [|i] d Hi; cbn in Hi.
      * injection Hi as <-. rewrite Nat.add_0_r. eauto.
      * rewrite Nat.add_succ_r. apply (H i d Hi).
Qed.

Theorem words_agree : forall r, regular r = true -> forall m, as_words (tsem s names m r) (denote m r).
Proof.
  induction r as
    [ | r l IHr IHl | c | | t | l IH | l IH | | | kd a b l IH | id l IH | id nm l IH | id | nm
    | neg l IH | neg l IH | l IH | c | c | a | md ]
    using re_ind2 with (Q := fun l => forallb regular l = true -> forall m,
      as_words (tsems s names m l) (denotes m l) /\ as_words (talt s names m l) (denote_alt m l));
    try discriminate.
  - intros _ m. split; [exact words_nil|]. intros p lg Hp. split; [intros e lg' []|]. intros e _ W. destruct (word_none _ W).
  - cbn [forallb]. intros H. apply andb_true_iff in H as [H1 H2]. intros m. split.
    + destruct (is_mode r) eqn:Em.
      * destruct r; try discriminate. cbn [tsems denotes]. apply (IHl H2).
      * assert (E : denotes m (r :: l) = XCat (denote m r) (denotes m l)) by (destruct r; try reflexivity; discriminate).
        rewrite E. eapply words_ext; [|exact (words_seq _ _ _ _ (IHr H1 m) (proj1 (IHl H2 m)))]. intros st st'.
        rewrite tsems_cons by exact Em. reflexivity.
    + destruct (IHl H2 (mode_end m r)) as [_ I2]. intros p lg Hp. destruct (IHr H1 m p lg Hp) as [A1 A2]. destruct (I2 p lg Hp) as [B1 B2].
      cbn [talt denote_alt]. split.
      * intros e lg' [H|H]; [destruct (A1 _ _ H)|destruct (B1 _ _ H)]; (split; [assumption|]); apply word_alt; auto.
      * intros e B W. apply word_alt in W as [W|W]; [destruct (A2 e B W) as (lg' & H)|destruct (B2 e B W) as (lg' & H)]; exists lg'; auto.
  - intros _ m. exact (words_char (cls_has (snd m) c)).
  - intros _ m. cbn [denote]. eapply words_ext; [|exact (words_char (fun v => negb (fst m && (v =? 10)%Z)))]. intros st st'. cbn.
    split; intros (v & N & V & E); exists v; (split; [exact N|]); (split; [|exact E]).
    + destruct (fst m) eqn:Ef; [|reflexivity]. cbn. destruct (Z.eqb_spec v 10); [|reflexivity]. exfalso. apply V. auto.
    + intros [V1 V2]. rewrite V1, V2 in V. discriminate.
  - intros _ m. apply words_str.
  - intros H m. eapply words_ext; [intros st st'; rewrite tsem_select; reflexivity|].
    replace (denote m (RSelect l)) with (denote_alt m l); [apply (IH H)|].
    clear. revert m. induction l as [|r l IHl]; intros m; [reflexivity|]. cbn [denote_alt]. rewrite IHl. reflexivity.
  - intros H m. exact (proj1 (IH H m)).
  - intros _ m. exact words_nil.
  - intros _ m p lg Hp. split; [intros e lg' []|]. intros e _ W. destruct (word_none _ W).
  - intros H m p lg Hp. destruct (IH H m) as [I1 _].
    change (denote m (RRep kd a b l)) with (between a b (denotes m l)). split.
    + intros e lg' (k & K1 & K2 & K3). destruct (words_iter _ _ I1 k p lg Hp) as [X _]. destruct (X e lg' K3) as [B W].
      split; [exact B|]. apply between_power. eauto.
    + intros e B W. apply between_power in W as (k & K1 & K2 & W). destruct (words_iter _ _ I1 k p lg Hp) as [_ X].
      destruct (X e B W) as (lg' & H'). exists lg', k. auto.
  - intros H m p lg Hp. destruct (IH H m) as [I1 _]. destruct (I1 p lg Hp) as [A1 A2]. split.
    + intros e lg' ([q lq] & H1 & E). injection E as -> ->. exact (A1 _ _ H1).
    + intros e B W. destruct (A2 e B W) as (lg' & H1). eexists. exists (e, lg'). split; [exact H1|reflexivity].
  - intros H m p lg Hp. destruct (IH H m) as [I1 _]. destruct (I1 p lg Hp) as [A1 A2]. split.
    + intros e lg' ([q lq] & H1 & E). injection E as -> ->. exact (A1 _ _ H1).
    + intros e B W. destruct (A2 e B W) as (lg' & H1). eexists. exists (e, lg'). split; [exact H1|reflexivity].
  - intros _ m. exact words_nil.
Qed.
End Pieces.

(** * At the entry points *)
Definition textbook (f : flags) (r : re) : regexp := denote (mode_of f) r.
Section Calls.
Variables (s : list Z) (f : flags) (r : re).
Hypothesis r_regular : regular r = true.
Hypothesis r_scope : scope_check f r = true.

Lemma derives_word : forall p e, p <= length s ->
  ((exists lg, mderives s f r p e lg) <-> bounded s p e /\ word (textbook f r) (piece s p e)).
Proof.
  intros p e Hp. destruct (words_agree s (names_of r) r r_regular (mode_of f) p [] Hp) as [A1 A2]. split.
  - intros (lg & H). apply (mderives_scope s f r p e lg r_scope) in H. exact (A1 _ _ H).
  - intros [B W]. destruct (A2 e B W) as (lg & H). exists lg. apply (mderives_scope s f r p e lg r_scope). exact H.
Qed.
Lemma whole_accepts : (exists lg, mderives s f r 0 (length s) lg) <-> accepts (textbook f r) s = true.
Proof.
  rewrite (derives_word 0 (length s) (Nat.le_0_l _)), accepts_word. unfold piece. rewrite Nat.sub_0_r. cbn [skipn]. rewrite firstn_all.
  split; [tauto|]. intros H. split; [|exact H]. split; lia.
Qed.
Lemma prefix_accepts : forall p, p <= length s ->
  ((exists e lg, mderives s f r p e lg) <-> accepts_prefix (textbook f r) (skipn p s) = true).
Proof.
  intros p Hp. rewrite accepts_prefix_word. split.
  - intros (e & lg & H). destruct (proj1 (derives_word p e Hp) (ex_intro _ lg H)) as [B W]. exists (piece s p e), (skipn (e - p) (skipn p s)).
    split; [unfold piece; symmetry; apply firstn_skipn|exact W].
  - intros (w1 & w2 & E & W). exists (p + length w1). apply (derives_word p _ Hp). assert (L : length w1 <= length s - p).
    { pose proof (skipn_length p s) as K. rewrite E, app_length in K. lia. }
    split; [split; lia|]. unfold piece. rewrite E. replace (p + length w1 - p) with (length w1) by lia.
    rewrite firstn_app, firstn_all, Nat.sub_diag. cbn. rewrite app_nil_r. exact W.
Qed.
End Calls.
