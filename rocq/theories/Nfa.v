(** Comparing two calls with an answer in every case (C63): the automaton of partial derivatives (Antimirov 1996) of an
    expression is finite, so the walk over pairs of sets of its states comes to an end. *)
From Coq Require Import List ZArith NArith Bool Lia Arith.
From Verif Require Import Chars Syntax First View Eval Api Spec CharProofs EvalTop Total Grammar Actions Parser Numbering Fusion Lang Textbook Equiv.
Import ListNotations.
Local Open Scope nat_scope.

(** * Partial derivatives *)
(** A state: expressions to be read one after the other. *)
Definition stack := list sexp.
Definition smeans (k : stack) (w : list Z) : Prop := means (fold_right SCat SEps k) w.
Fixpoint pd (j : nat) (e : sexp) (k : stack) : list stack :=
  match e with
  | SNone | SEps => []
  | SAll => [SAll :: k]
  | SChar col => if nth j col false then [k] else []
  | SAlt a b => pd j a k ++ pd j b k
  | SCat a b => pd j a (b :: k) ++ (if snull a then pd j b k else [])
  | SStar a => pd j a (SStar a :: k)
  end.
Fixpoint pds (j : nat) (k : stack) : list stack :=
  match k with [] => [] | e :: k => pd j e k ++ (if snull e then pds j k else []) end.

Lemma means_cat : forall a b w, means (SCat a b) w <-> exists w1 w2, w = w1 ++ w2 /\ means a w1 /\ means b w2.
Proof. intros a b w. unfold means. cbn [interp]. apply word_cat. Qed.
Lemma means_alt : forall a b w, means (SAlt a b) w <-> means a w \/ means b w.
Proof. intros a b w. unfold means. cbn [interp]. apply word_alt. Qed.
Lemma smeans_cons : forall e k w, smeans (e :: k) w <-> exists w1 w2, w = w1 ++ w2 /\ means e w1 /\ smeans k w2.
Proof. intros e k w. unfold smeans. cbn [fold_right]. apply means_cat. Qed.
Lemma snull_word : forall e, snull e = true <-> means e [].
Proof. intros e. rewrite snull_means. unfold means. apply nullable_word. Qed.

(** What a word beginning with [j] may be in a sequence. *)
Definition split_first (e : sexp) (k : stack) (j : nat) (w : list Z) : Prop :=
  exists w1 w2, w = w1 ++ w2 /\ means e (Z.of_nat j :: w1) /\ smeans k w2.
Lemma cons_split : forall e k j w, smeans (e :: k) (Z.of_nat j :: w) <-> split_first e k j w \/ (snull e = true /\ smeans k (Z.of_nat j :: w)).
Proof.
  intros e k j w. rewrite smeans_cons. split.
  - intros (w1 & w2 & E & H1 & H2). destruct w1 as [|v w1].
    + right. rewrite snull_word. cbn [app] in E. subst w2. auto.
    + left. injection E as <- ->. exists w1, w2. auto.
  - intros [(w1 & w2 & -> & H1 & H2)|[N H]].
    + exists (Z.of_nat j :: w1), w2. auto.
    + apply snull_word in N. exists [], (Z.of_nat j :: w). auto.
Qed.
Lemma pd_means : forall j e k w, (exists y, In y (pd j e k) /\ smeans y w) <-> split_first e k j w.
Proof.
  intros j. induction e as [| | |c|a IHa b IHb|a IHa b IHb|a IHa]; intros k w; cbn [pd].
  - split; [intros (y & [] & _)|intros (w1 & w2 & _ & H & _); inversion H].
  - split; [intros (y & [] & _)|intros (w1 & w2 & _ & H & _); inversion H].
  - split.
    + intros (y & [<-|[]] & H). apply smeans_cons in H as (w1 & w2 & -> & _ & H). exists w1, w2. split; [reflexivity|]. split; [apply all_means|exact H].
    + intros (w1 & w2 & -> & _ & H). eexists. split; [left; reflexivity|]. apply smeans_cons. exists w1, w2. split; [reflexivity|]. split; [apply all_means|exact H].
  - assert (C : forall w1, means (SChar c) (Z.of_nat j :: w1) <-> nth j c false = true /\ w1 = []).
    { intros w1. unfold means. cbn [interp]. split.
      - intros H. inversion H as [|P v Pv| | | | |]. rewrite Nat2Z.id in Pv. auto.
      - intros [H ->]. constructor. rewrite Nat2Z.id. exact H. }
    destruct (nth j c false) eqn:E.
    + split.
      * intros (y & [<-|[]] & H). exists [], w. split; [reflexivity|]. split; [apply C; auto|exact H].
      * intros (w1 & w2 & -> & H & H2). apply C in H as [_ ->]. exists k. split; [left; reflexivity|exact H2].
    + split; [intros (y & [] & _)|]. intros (w1 & w2 & _ & H & _). apply C in H as [H _]. discriminate.
  - transitivity (split_first a k j w \/ split_first b k j w).
    + rewrite <- IHa, <- IHb. split.
      * intros (y & Y & H). apply in_app_or in Y as [Y|Y]; eauto.
      * intros [(y & Y & H)|(y & Y & H)]; exists y; (split; [apply in_or_app; auto|exact H]).
    + unfold split_first. split.
      * intros [(w1 & w2 & E & H1 & H2)|(w1 & w2 & E & H1 & H2)]; exists w1, w2; (split; [exact E|split; [apply means_alt; auto|exact H2]]).
      * intros (w1 & w2 & E & H1 & H2). apply means_alt in H1 as [H1|H1]; [left|right]; exists w1, w2; auto.
  - transitivity (split_first a (b :: k) j w \/ (snull a = true /\ split_first b k j w)).
    + rewrite <- IHa, <- IHb. split.
      * intros (y & Y & H). apply in_app_or in Y as [Y|Y]; [eauto|]. destruct (snull a); [|destruct Y]. right. split; eauto.
      * intros [(y & Y & H)|(N & y & Y & H)]; exists y; (split; [apply in_or_app|exact H]); [auto|]. rewrite N. auto.
    + unfold split_first. split.
      * intros [(w1 & w2 & E & H1 & H2)|(N & w1 & w2 & E & H1 & H2)].
        { apply smeans_cons in H2 as (w3 & w4 & -> & H3 & H4). exists (w1 ++ w3), w4. rewrite <- app_assoc. split; [exact E|]. split; [|exact H4].
          apply means_cat. exists (Z.of_nat j :: w1), w3. auto. }
        exists w1, w2. split; [exact E|]. split; [|exact H2]. apply snull_word in N. apply means_cat. exists [], (Z.of_nat j :: w1). auto.
      * intros (w1 & w2 & E & H1 & H2). apply means_cat in H1 as (w3 & w4 & E2 & H3 & H4). destruct w3 as [|v w3].
        { cbn [app] in E2. subst w4. right. split; [apply snull_word; exact H3|]. exists w1, w2. auto. }
        injection E2 as <- ->. left. exists w3, (w4 ++ w2). rewrite app_assoc. split; [exact E|]. split; [exact H3|]. apply smeans_cons. exists w4, w2. auto.
  - rewrite IHa. unfold split_first. split.
    + intros (w1 & w2 & -> & H1 & H2). apply smeans_cons in H2 as (w3 & w4 & -> & H3 & H4). exists (w1 ++ w3), w4. rewrite <- app_assoc.
      split; [reflexivity|]. split; [|exact H4]. unfold means in *. cbn [interp] in *. change (Z.of_nat j :: w1 ++ w3) with ((Z.of_nat j :: w1) ++ w3). constructor; assumption.
    + intros (w1 & w2 & -> & H1 & H2). unfold means in H1. cbn [interp] in H1. apply star_cons in H1 as (w3 & w4 & -> & H3 & H4).
      exists w3, (w4 ++ w2). rewrite <- app_assoc. split; [reflexivity|]. split; [exact H3|]. apply smeans_cons. exists w4, w2. auto.
Qed.
Lemma pds_means : forall j k w, (exists y, In y (pds j k) /\ smeans y w) <-> smeans k (Z.of_nat j :: w).
Proof.
  intros j. induction k as [|e k IH]; intros w; cbn [pds].
  - split; [intros (y & [] & _)|]. intros H. inversion H.
  - rewrite cons_split, <- pd_means, <- IH. split.
    + intros (y & Y & H). apply in_app_or in Y as [Y|Y]; [eauto|]. destruct (snull e); [|destruct Y]. right. split; eauto.
    + intros [(y & Y & H)|(N & y & Y & H)]; exists y; (split; [apply in_or_app|exact H]); [auto|]. rewrite N. auto.
Qed.

(** * All of them *)
Fixpoint parts (e : sexp) (k : stack) : list stack :=
  match e with
  | SNone | SEps => []
  | SAll => [SAll :: k]
  | SChar _ => [k]
  | SAlt a b => parts a k ++ parts b k
  | SCat a b => parts a (b :: k) ++ parts b k
  | SStar a => parts a (SStar a :: k)
  end.
Fixpoint parts_of (k : stack) : list stack := match k with [] => [] | e :: k => parts e k ++ parts_of k end.
Lemma pd_parts : forall j e k, incl (pd j e k) (parts e k).
Proof.
  intros j. induction e as [| | |c|a IHa b IHb|a IHa b IHb|a IHa]; intros k; cbn [pd parts]; try apply incl_refl.
  - destruct (nth j c false); [apply incl_refl|intros y []].
  - apply incl_app; [apply incl_appl, IHa|apply incl_appr, IHb].
  - apply incl_app; [apply incl_appl, IHa|]. destruct (snull a); [apply incl_appr, IHb|intros y []].
  - apply IHa.
Qed.
Lemma pds_parts : forall j k, incl (pds j k) (parts_of k).
Proof.
  intros j. induction k as [|e k IH]; [intros y []|]. cbn [pds parts_of]. apply incl_app; [apply incl_appl, pd_parts|].
  destruct (snull e); [apply incl_appr, IH|intros y []].
Qed.
Lemma parts_closed : forall j e k y, In y (parts e k) -> incl (pds j y) (parts e k ++ parts_of k).
Proof.
  intros j. induction e as [| | |c|a IHa b IHb|a IHa b IHb|a IHa]; intros k y Y; cbn [parts] in *; try (destruct Y; fail).
  - destruct Y as [<-|[]]. cbn [pds snull pd]. apply incl_app; [apply incl_appl, incl_refl|apply incl_appr, pds_parts].
  - destruct Y as [<-|[]]. apply incl_appr, pds_parts.
  - rewrite <- app_assoc. apply in_app_or in Y as [Y|Y].
    + intros z Hz. apply (IHa k y Y) in Hz. apply in_app_or in Hz as [Hz|Hz]; apply in_or_app; [auto|right; apply in_or_app; auto].
    + apply incl_appr, IHb, Y.
  - rewrite <- app_assoc. apply in_app_or in Y as [Y|Y].
    + apply (IHa (b :: k) y Y).
    + apply incl_appr, IHb, Y.
  - intros z Hz. apply (IHa (SStar a :: k) y Y) in Hz. cbn [parts_of parts] in Hz. apply in_app_or in Hz as [Hz|Hz]; [apply in_or_app; auto|exact Hz].
Qed.

(** * The automaton *)
Definition sexp_eqb (a b : sexp) : bool := match cmp a b with Eq => true | _ => false end.
Fixpoint stack_eqb (a b : stack) : bool :=
  match a, b with [], [] => true | x :: a, y :: b => sexp_eqb x y && stack_eqb a b | _, _ => false end.
Lemma cmp_refl : forall x, cmp x x = Eq.
Proof.
  assert (C : forall c, cmp_cols c c = Eq) by (induction c as [|[] c IH]; cbn; auto).
  induction x as [| | |c|a IHa b IHb|a IHa b IHb|a IHa]; cbn [cmp tag]; try reflexivity; [apply C| | |exact IHa]; rewrite IHa; exact IHb.
Qed.
Lemma stack_eqb_eq : forall a b, stack_eqb a b = true <-> a = b.
Proof.
  induction a as [|x a IH]; intros [|y b]; cbn; try (split; [discriminate|discriminate]); [split; reflexivity|].
  rewrite andb_true_iff, IH. unfold sexp_eqb. split.
  - intros [H ->]. destruct (cmp x y) eqn:E; try discriminate. apply cmp_eq in E as ->. reflexivity.
  - intros E. injection E as -> ->. rewrite cmp_refl. auto.
Qed.
Definition has (l : list stack) (y : stack) : bool := existsb (stack_eqb y) l.
Lemma has_in : forall l y, has l y = true <-> In y l.
Proof.
  intros l y. unfold has. rewrite existsb_exists. split.
  - intros (x & X & E). apply stack_eqb_eq in E as ->. exact X.
  - intros H. exists y. split; [exact H|apply stack_eqb_eq; reflexivity].
Qed.
Fixpoint nodup_stacks (l : list stack) : list stack :=
  match l with [] => [] | x :: l => let l' := nodup_stacks l in if has l' x then l' else x :: l' end.
Lemma nodup_in : forall l y, In y (nodup_stacks l) <-> In y l.
Proof.
  induction l as [|x l IH]; intros y; [reflexivity|]. cbn [nodup_stacks]. cbv zeta. destruct (has (nodup_stacks l) x) eqn:E; cbn [In]; rewrite ?IH; [|reflexivity].
  apply has_in, IH in E. split; [auto|intros [<-|H]; auto].
Qed.
(** The start, and what can come. *)
Definition states (e : sexp) : list stack := nodup_stacks ([e] :: parts e []).
Lemma states_start : forall e, In [e] (states e).
Proof. intros e. apply nodup_in. left. reflexivity. Qed.
Lemma states_closed : forall j e y z, In y (states e) -> In z (pds j y) -> In z (states e).
Proof.
  intros j e y z Y H. apply nodup_in. apply nodup_in in Y as [<-|Y]; right.
  - apply pds_parts in H. cbn [parts_of] in H. rewrite app_nil_r in H. exact H.
  - apply (parts_closed j e [] y Y) in H. cbn [parts_of] in H. rewrite app_nil_r in H. exact H.
Qed.
(** A set of states, as answers in the order of [states]. *)
Definition member (u : list stack) (s : list bool) (y : stack) : Prop := exists i, nth_error u i = Some y /\ nth_error s i = Some true.
Definition set_means (u : list stack) (s : list bool) (w : list Z) : Prop := exists y, member u s y /\ smeans y w.
Fixpoint orv (a b : list bool) : list bool := match a, b with x :: a, y :: b => (x || y) :: orv a b | _, _ => [] end.
(** [rows]: for every state the set of those that may follow. *)
Fixpoint move_set (zero : list bool) (rows : list (list bool)) (s : list bool) : list bool :=
  match rows, s with row :: rows, b :: s => if b then orv row (move_set zero rows s) else move_set zero rows s | _, _ => zero end.
Definition row_of (u : list stack) (l : list stack) : list bool := map (has l) u.
Definition rows_of (u : list stack) (j : nat) : list (list bool) := map (fun y => row_of u (pds j y)) u.
Definition none_of (u : list stack) : list bool := map (fun _ => false) u.
Definition ends_in (u : list stack) (s : list bool) : bool := existsb (fun p : stack * bool => snd p && forallb snull (fst p)) (combine u s).

Lemma orv_length : forall a b n, length a = n -> length b = n -> length (orv a b) = n.
Proof. induction a as [|x a IH]; intros [|y b] n A B; cbn in *; try lia. destruct n; [lia|]. cbn. f_equal. apply IH; lia. Qed.
Lemma orv_nth : forall a b i, length a = length b -> (nth_error (orv a b) i = Some true <-> nth_error a i = Some true \/ nth_error b i = Some true).
Proof.
  induction a as [|x a IH]; intros [|y b] i L; try discriminate L.
  - destruct i; cbn; split; [discriminate|intros [H|H]; discriminate|discriminate|intros [H|H]; discriminate].
  - destruct i as [|i]; cbn [orv nth_error].
    + destruct x, y; cbn; split; auto; intros [H|H]; auto.
    + apply IH. cbn in L. lia.
Qed.
Lemma move_length : forall n zero rows s, length zero = n -> Forall (fun r => length r = n) rows -> length (move_set zero rows s) = n.
Proof.
  intros n zero rows s Z0 R. revert s. induction R as [|row rows R1 R IH]; intros [|b s]; cbn [move_set]; auto.
  destruct b; auto. apply orv_length; auto.
Qed.
Lemma move_nth : forall n zero rows, length zero = n -> Forall (fun r => length r = n) rows -> (forall i, nth_error zero i <> Some true) ->
  forall s i, nth_error (move_set zero rows s) i = Some true <->
    exists k row, nth_error s k = Some true /\ nth_error rows k = Some row /\ nth_error row i = Some true.
Proof.
  intros n zero rows Z0 R Zf. induction R as [|row rows R1 R IH]; intros s i.
  - assert (E : move_set zero [] s = zero) by (destruct s; reflexivity). rewrite E. split; [intros H; elim (Zf _ H)|].
    intros (k & row & _ & H & _). destruct k; discriminate.
  - destruct s as [|b s]; cbn [move_set].
    + split; [intros H; elim (Zf _ H)|]. intros (k & r & H & _). destruct k; discriminate.
    + assert (T : (exists k r, nth_error (b :: s) k = Some true /\ nth_error (row :: rows) k = Some r /\ nth_error r i = Some true) <->
        (b = true /\ nth_error row i = Some true) \/ nth_error (move_set zero rows s) i = Some true).
      { rewrite IH. split.
        - intros ([|k] & r & H1 & H2 & H3); cbn [nth_error] in *; [left; split; congruence|right; eauto].
        - intros [[-> H]|(k & r & H1 & H2 & H3)]; [exists 0, row; auto|exists (S k), r; auto]. }
      rewrite T. destruct b.
      * rewrite orv_nth by (rewrite R1; symmetry; apply move_length; auto). split; [intros [H|H]; auto|intros [[_ H]|H]; auto].
      * split; [auto|intros [[H _]|H]; [discriminate|exact H]].
Qed.
Lemma row_nth : forall u l i y, nth_error u i = Some y -> (nth_error (row_of u l) i = Some true <-> In y l).
Proof. intros u l i y H. unfold row_of. rewrite nth_error_map, H. cbn. rewrite <- has_in. split; congruence. Qed.
Lemma none_false : forall u i, nth_error (none_of u) i <> Some true.
Proof. intros u i. unfold none_of. rewrite nth_error_map. destruct (nth_error u i); discriminate. Qed.

Lemma move_means : forall e j s w, set_means (states e) (move_set (none_of (states e)) (rows_of (states e) j) s) w <-> set_means (states e) s (Z.of_nat j :: w).
Proof.
  intros e j s w. set (u := states e).
  assert (N : forall i, nth_error (move_set (none_of u) (rows_of u j) s) i = Some true <->
    exists k row, nth_error s k = Some true /\ nth_error (rows_of u j) k = Some row /\ nth_error row i = Some true).
  { apply (move_nth (length u)); [apply map_length| |apply none_false]. apply Forall_forall. intros r R. apply in_map_iff in R as (y & <- & _). apply map_length. }
  split.
  - intros (z & (i & I1 & I2) & H). apply N in I2 as (k & row & K1 & K2 & K3). unfold rows_of in K2. rewrite nth_error_map in K2.
    destruct (nth_error u k) as [y|] eqn:Y; [|discriminate]. injection K2 as <-. apply (row_nth u _ i z I1) in K3.
    exists y. split; [exists k; auto|]. apply pds_means. eauto.
  - intros (y & (k & K1 & K2) & H). apply pds_means in H as (z & Z1 & Z2).
    assert (In z u) as I by (eapply states_closed; [eapply nth_error_In; exact K1|exact Z1]). apply In_nth_error in I as (i & I).
    exists z. split; [|exact Z2]. exists i. split; [exact I|]. apply N. exists k, (row_of u (pds j y)). split; [exact K2|].
    split; [unfold rows_of; rewrite nth_error_map, K1; reflexivity|]. apply (row_nth u _ i z I). exact Z1.
Qed.
Lemma null_stack : forall k, forallb snull k = true <-> smeans k [].
Proof.
  induction k as [|e k IH]; cbn [forallb]; [split; [intros _; constructor|reflexivity]|].
  rewrite andb_true_iff, IH, snull_word, smeans_cons. split.
  - intros [H1 H2]. exists [], []. auto.
  - intros (w1 & w2 & E & H1 & H2). symmetry in E. apply app_eq_nil in E as [-> ->]. auto.
Qed.
Lemma ends_means : forall u s, ends_in u s = true <-> set_means u s [].
Proof.
  intros u s. unfold ends_in. rewrite existsb_exists. split.
  - intros ([y b] & I & H). cbn [fst snd] in H. apply andb_true_iff in H as [-> H]. apply null_stack in H. exists y. split; [|exact H].
    clear H. revert s I. induction u as [|x u IH]; intros s I; [destruct I|]. destruct s as [|c s]; [destruct I|]. destruct I as [I|I].
    + injection I as -> ->. exists 0. auto.
    + destruct (IH s I) as (i & I1 & I2). exists (S i). auto.
  - intros (y & (i & I1 & I2) & H). apply null_stack in H. exists (y, true). split; [|cbn; exact H].
    clear H. revert s i I1 I2. induction u as [|x u IH]; intros [|c s] [|i] I1 I2; try discriminate; cbn in *; [left; congruence|right; eauto].
Qed.
Definition start_of (e : sexp) : list bool := row_of (states e) [[e]].
Lemma start_means : forall e w, set_means (states e) (start_of e) w <-> means e w.
Proof.
  intros e w. assert (S : smeans [e] w <-> means e w).
  { rewrite smeans_cons. split.
    - intros (w1 & w2 & -> & H1 & H2). inversion H2. rewrite app_nil_r. exact H1.
    - intros H. exists w, []. rewrite app_nil_r. split; [reflexivity|]. split; [exact H|constructor]. }
  rewrite <- S. split.
  - intros (y & (i & I1 & I2) & H). apply (row_nth _ _ i y I1) in I2 as [<-|[]]. exact H.
  - intros H. exists [e]. split; [|exact H]. pose proof (states_start e) as I. apply In_nth_error in I as (i & I). exists i. split; [exact I|].
    apply (row_nth _ _ i _ I). left. reflexivity.
Qed.

(** * The walk *)
Section Walk.
Variable A : Type.
Variable eqb : A -> A -> bool.
Hypothesis eqb_eq : forall a b, eqb a b = true <-> a = b.
Variable step : nat -> A -> A.
Variable good : A -> bool.
Variable k : nat.
Fixpoint walk (fuel : nat) (todo : list (list nat * A)) (seen : list A) : list nat + bool :=
  match fuel with
  | O => inr false
  | S fuel' =>
      match todo with
      | [] => inr true
      | (w, p) :: rest =>
          if existsb (eqb p) seen then walk fuel' rest seen
          else if good p then walk fuel' (rest ++ map (fun j => (j :: w, step j p)) (seq 0 k)) (p :: seen)
          else inl (rev w)
      end
  end.
Definition steps_to (w : list nat) (p : A) : A := fold_left (fun a j => step j a) w p.
Definition letters (w : list nat) : Prop := Forall (fun j => j < k) w.

Lemma seen_in : forall p seen, existsb (eqb p) seen = true <-> In p seen.
Proof.
  intros p seen. rewrite existsb_exists. split; [intros (q & Q & E); apply eqb_eq in E as ->; exact Q|]. intros H. exists p. split; [exact H|apply eqb_eq; reflexivity].
Qed.
Lemma walk_true : forall fuel todo seen,
  (forall p, In p seen -> good p = true /\ forall j, j < k -> In (step j p) (seen ++ map snd todo)) ->
  walk fuel todo seen = inr true -> forall p, In p (seen ++ map snd todo) -> forall w, letters w -> good (steps_to w p) = true.
Proof.
  assert (D : forall seen, (forall p, In p seen -> good p = true /\ forall j, j < k -> In (step j p) seen) ->
    forall w, letters w -> forall p, In p seen -> good (steps_to w p) = true).
  { intros seen H w L. induction L as [|j w Lj L IH]; intros p P; [apply H, P|]. cbn. apply IH. apply H; auto. }
  induction fuel as [|fuel IH]; intros todo seen H E; [discriminate|]. cbn [walk] in E. destruct todo as [|[w0 p0] rest].
  - cbn [map] in *. intros p P w L. rewrite app_nil_r in P. apply (D seen); auto. intros q Q. destruct (H q Q) as [H1 H2]. split; [exact H1|].
    intros j J. specialize (H2 j J). rewrite app_nil_r in H2. exact H2.
  - destruct (existsb (eqb p0) seen) eqn:X.
    + apply seen_in in X.
      assert (Sub : forall q, In q (seen ++ map snd ((w0, p0) :: rest)) -> In q (seen ++ map snd rest)).
      { intros q Hq. apply in_app_or in Hq as [Hq|[<-|Hq]]; apply in_or_app; auto. }
      intros p P. apply (IH rest seen); [|exact E|apply Sub, P]. intros q Q. destruct (H q Q) as [H1 H2]. split; [exact H1|]. intros j J. apply Sub, H2, J.
    + destruct (good p0) eqn:G; [|discriminate].
      assert (Nx : forall q, In q (map snd (rest ++ map (fun j => (j :: w0, step j p0)) (seq 0 k))) <-> In q (map snd rest) \/ exists j, j < k /\ q = step j p0).
      { intros q. rewrite map_app, in_app_iff, map_map. cbn [snd]. rewrite (in_map_iff (fun j => step j p0)). split; (intros [Q|Q]; [auto|right]).
        - destruct Q as (j & <- & J). apply in_seq in J. exists j. split; [lia|reflexivity].
        - destruct Q as (j & J & ->). exists j. split; [reflexivity|]. apply in_seq. lia. }
      assert (Sub : forall q, In q (seen ++ map snd ((w0, p0) :: rest)) -> In q ((p0 :: seen) ++ map snd (rest ++ map (fun j => (j :: w0, step j p0)) (seq 0 k)))).
      { intros q Hq. apply in_app_or in Hq as [Hq|[<-|Hq]].
        - right. apply in_or_app. auto.
        - left. reflexivity.
        - right. apply in_or_app. right. apply Nx. auto. }
      intros p P. apply (IH (rest ++ map (fun j => (j :: w0, step j p0)) (seq 0 k)) (p0 :: seen)); [|exact E|apply Sub, P]. intros q [<-|Q].
      * split; [exact G|]. intros j J. right. apply in_or_app. right. apply Nx. eauto.
      * destruct (H q Q) as [H1 H2]. split; [exact H1|]. intros j J. apply Sub, H2, J.
Qed.
Lemma walk_word : forall start fuel todo seen, (forall w p, In (w, p) todo -> letters w /\ p = steps_to (rev w) start) ->
  forall w, walk fuel todo seen = inl w -> letters w /\ good (steps_to w start) = false.
Proof.
  intros start. induction fuel as [|fuel IH]; intros todo seen H w E; [discriminate|]. cbn [walk] in E. destruct todo as [|[w0 p0] rest]; [discriminate|].
  assert (R : forall w p, In (w, p) rest -> letters w /\ p = steps_to (rev w) start) by (intros w1 p1 I; apply H; right; exact I).
  destruct (H w0 p0 (or_introl eq_refl)) as [L0 P0].
  destruct (existsb (eqb p0) seen); [apply (IH _ _ R _ E)|]. destruct (good p0) eqn:G.
  - refine (IH _ _ _ _ E). intros w1 p1 I. apply in_app_or in I as [I|I]; [auto|]. apply in_map_iff in I as (j & I & J). injection I as <- <-. apply in_seq in J.
    split; [constructor; [lia|exact L0]|]. cbn [rev]. unfold steps_to. rewrite fold_left_app. cbn [fold_left]. f_equal. exact P0.
  - injection E as <-. split; [apply Forall_rev; exact L0|]. rewrite <- P0. exact G.
Qed.
Lemma walk_more : forall n m todo seen x, n <= m -> walk n todo seen = x -> x <> inr false -> walk m todo seen = x.
Proof.
  induction n as [|n IH]; intros m todo seen x L E N; [cbn in E; congruence|]. destruct m as [|m]; [lia|]. cbn [walk] in *.
  destruct todo as [|[w p] rest]; [exact E|]. destruct (existsb (eqb p) seen); [apply IH; auto; lia|]. destruct (good p); [apply IH; auto; lia|exact E].
Qed.
(** With finitely many states it comes to an end. *)
Lemma walk_ends : forall U, (forall p, In p U -> forall j, j < k -> In (step j p) U) -> forall fuel todo seen,
  (forall p, In p (map snd todo) -> In p U) -> NoDup seen -> incl seen U -> S (length todo + (length U - length seen) * S k) <= fuel ->
  walk fuel todo seen <> inr false.
Proof.
  intros U C. induction fuel as [|fuel IH]; intros todo seen T N I F; [inversion F|]. cbn [walk]. destruct todo as [|[w p] rest]; [discriminate|].
  assert (T' : forall q, In q (map snd rest) -> In q U) by (intros q Q; apply T; right; exact Q).
  destruct (existsb (eqb p) seen) eqn:X.
  - apply IH; auto. cbn [length] in F. lia.
  - destruct (good p); [|discriminate]. assert (P : In p U) by (apply T; left; reflexivity).
    assert (Np : ~ In p seen) by (intros K; apply seen_in in K; congruence).
    assert (N' : NoDup (p :: seen)) by (constructor; assumption).
    assert (I' : incl (p :: seen) U) by (intros q [<-|Q]; auto).
    apply IH; [|exact N'|exact I'|].
    + intros q Q. rewrite map_app in Q. apply in_app_or in Q as [Q|Q]; [auto|]. rewrite map_map in Q. apply in_map_iff in Q as (j & <- & J). apply in_seq in J.
      cbn [snd]. apply C; [exact P|lia].
    + pose proof (NoDup_incl_length N' I') as Len. rewrite app_length, map_length, seq_length. cbn [length] in *.
      replace (length U - length seen) with (S (length U - S (length seen))) in F by lia. rewrite Nat.mul_succ_l in F. lia.
Qed.
(** The word found is a shortest one. *)
Lemma walk_short : forall start fuel d t1 t2 seen,
  (forall w p, In (w, p) t1 -> length w = d) -> (forall w p, In (w, p) t2 -> length w = S d) ->
  (forall u, letters u -> length u < d -> In (steps_to u start) seen) ->
  (forall u, letters u -> length u = d -> In (steps_to u start) seen \/ In (steps_to u start) (map snd t1)) ->
  (forall p, In p seen -> good p = true /\ forall j, j < k -> In (step j p) seen \/ In (step j p) (map snd (t1 ++ t2))) ->
  forall w, walk fuel (t1 ++ t2) seen = inl w -> forall u, letters u -> length u < length w -> good (steps_to u start) = true.
Proof.
  intros start. induction fuel as [|fuel IH]; intros d t1 t2 seen H1 H2 H3 H4 H5 w E; [discriminate|].
  assert (Main : forall d w0 p0 t1 t2,
    (forall w p, In (w, p) ((w0, p0) :: t1) -> length w = d) -> (forall w p, In (w, p) t2 -> length w = S d) ->
    (forall u, letters u -> length u < d -> In (steps_to u start) seen) ->
    (forall u, letters u -> length u = d -> In (steps_to u start) seen \/ In (steps_to u start) (map snd ((w0, p0) :: t1))) ->
    (forall p, In p seen -> good p = true /\ forall j, j < k -> In (step j p) seen \/ In (step j p) (map snd (((w0, p0) :: t1) ++ t2))) ->
    walk (S fuel) (((w0, p0) :: t1) ++ t2) seen = inl w -> forall u, letters u -> length u < length w -> good (steps_to u start) = true).
  { clear d t1 t2 H1 H2 H3 H4 H5 E. intros d w0 p0 t1 t2 H1 H2 H3 H4 H5 E. cbn [app walk] in E.
    destruct (existsb (eqb p0) seen) eqn:X.
    - apply seen_in in X. apply (IH d t1 t2 seen); auto.
      + intros w1 p1 I. apply (H1 w1 p1). right. exact I.
      + intros u L Lu. destruct (H4 u L Lu) as [K|[K|K]]; [auto| |auto]. cbn [snd] in K. rewrite <- K. auto.
      + intros p P. destruct (H5 p P) as [G K]. split; [exact G|]. intros j J. destruct (K j J) as [Q|[Q|Q]]; [auto| |auto]. cbn [snd] in Q. rewrite <- Q. auto.
    - destruct (good p0) eqn:G.
      + rewrite <- app_assoc in E. apply (IH d t1 (t2 ++ map (fun j => (j :: w0, step j p0)) (seq 0 k)) (p0 :: seen)); auto.
        * intros w1 p1 I. apply (H1 w1 p1). right. exact I.
        * intros w1 p1 I. apply in_app_or in I as [I|I]; [apply (H2 w1 p1 I)|]. apply in_map_iff in I as (j & I & _). injection I as <- <-. cbn. f_equal.
          apply (H1 w0 p0). left. reflexivity.
        * intros u L Lu. right. auto.
        * intros u L Lu. destruct (H4 u L Lu) as [K|[K|K]]; [left; right; exact K|left; left; exact K|right; exact K].
        * assert (Sub : forall q, In q (map snd (t1 ++ t2)) -> In q (map snd (t1 ++ t2 ++ map (fun j => (j :: w0, step j p0)) (seq 0 k)))).
          { intros q Q. rewrite app_assoc, map_app. apply in_or_app. auto. }
          intros p [<-|P].
          { split; [exact G|]. intros j J. right. rewrite app_assoc, map_app. apply in_or_app. right. rewrite map_map. cbn [snd].
            apply (in_map (fun j => step j p0)). apply in_seq. lia. }
          destruct (H5 p P) as [Gp K]. split; [exact Gp|]. intros j J. destruct (K j J) as [Q|[Q|Q]]; [left; right; exact Q|left; left; exact Q|right; apply Sub, Q].
      + injection E as <-. intros u L Lu. rewrite rev_length, (H1 w0 p0 (or_introl eq_refl)) in Lu. apply H5, H3; auto. }
  destruct t1 as [|[w0 p0] t1]; [|apply (Main d w0 p0 t1 t2); auto].
  destruct t2 as [|[w0 p0] t2]; [discriminate|]. cbn [app] in E.
  assert (T : forall u, letters u -> length u < S d -> In (steps_to u start) seen).
  { intros u L Lu. destruct (Nat.eq_dec (length u) d) as [K|K]; [destruct (H4 u L K) as [Q|[]]; exact Q|apply H3; [exact L|lia]]. }
  apply (Main (S d) w0 p0 t2 []); auto.
  - intros w1 p1 [].
  - intros u L Lu. destruct (rev u) as [|j u'] eqn:R; [apply (f_equal (@length nat)) in R; rewrite rev_length in R; cbn in R; lia|].
    apply (f_equal (@rev nat)) in R. rewrite rev_involutive in R. cbn [rev] in R. subst u. unfold letters in L. apply Forall_app in L as [L J]. inversion J as [|? ? J' _]. subst.
    rewrite app_length in Lu. cbn [length] in Lu. unfold steps_to. rewrite fold_left_app. cbn [fold_left].
    apply (H5 (fold_left (fun a i => step i a) (rev u') start)); [apply T; [exact L|lia]|exact J'].
  - intros p P. rewrite app_nil_r. apply H5, P.
  - rewrite app_nil_r. exact E.
Qed.
End Walk.

(** * Comparing expressions *)
Fixpoint vectors (n : nat) : list (list bool) :=
  match n with O => [[]] | S n => map (cons true) (vectors n) ++ map (cons false) (vectors n) end.
Lemma vectors_in : forall s, In s (vectors (length s)).
Proof.
  induction s as [|b s IH]; [left; reflexivity|]. cbn [length vectors]. apply in_or_app. destruct b; [left|right]; apply in_map, IH.
Qed.
Lemma rows_eqb_eq : forall a b, rows_eqb a b = true <-> a = b.
Proof.
  intros a b. split; [apply rows_eq|]. intros <-. induction a as [|x a IH]; [reflexivity|]. cbn. rewrite eqb_reflx. exact IH.
Qed.
(** The automaton of an expression over [k] numbered characters. *)
Record automaton := mkAutomaton { au_states : list stack; au_none : list bool; au_rows : list (list (list bool)) }.
Definition automaton_of (k : nat) (e : sexp) : automaton :=
  let u := states e in mkAutomaton u (none_of u) (map (rows_of u) (seq 0 k)).
Definition au_step (a : automaton) (j : nat) (s : list bool) : list bool := move_set (au_none a) (nth j (au_rows a) []) s.
Definition pair_eqb (p q : list bool * list bool) : bool := rows_eqb (fst p) (fst q) && rows_eqb (snd p) (snd q).
Lemma pair_eqb_eq : forall p q, pair_eqb p q = true <-> p = q.
Proof.
  intros [a b] [c d]. unfold pair_eqb. cbn [fst snd]. rewrite andb_true_iff, !rows_eqb_eq. split; [intros [-> ->]; reflexivity|intros E; injection E as -> ->; auto].
Qed.
Definition compare_sets (g : bool -> bool -> bool) (k fuel : nat) (x y : sexp) : list nat + bool :=
  let a := automaton_of k x in let b := automaton_of k y in
  walk _ pair_eqb (fun j p => (au_step a j (fst p), au_step b j (snd p))) (fun p => g (ends_in (au_states a) (fst p)) (ends_in (au_states b) (snd p)))
    k fuel [([], (start_of x, start_of y))] [].

Section Sets.
Variables (g : bool -> bool -> bool) (k : nat) (x y : sexp).
Let a := automaton_of k x.
Let b := automaton_of k y.
Let step := fun j (p : list bool * list bool) => (au_step a j (fst p), au_step b j (snd p)).
Let ok := fun p : list bool * list bool => g (ends_in (au_states a) (fst p)) (ends_in (au_states b) (snd p)).
Lemma step_means : forall e j s w, j < k -> set_means (states e) (au_step (automaton_of k e) j s) w <-> set_means (states e) s (Z.of_nat j :: w).
Proof.
  intros e j s w J. unfold au_step, automaton_of. cbn [au_none au_rows].
  assert (E : nth j (map (rows_of (states e)) (seq 0 k)) [] = rows_of (states e) j).
  { apply nth_error_nth. rewrite nth_error_map. rewrite (nth_error_nth' (seq 0 k) 0) by (rewrite seq_length; exact J). rewrite seq_nth by exact J. reflexivity. }
  rewrite E. apply move_means.
Qed.
Lemma path_ok : forall w p, letters k w -> ok (steps_to _ step w p) =
  g (ends_in (states x) (fold_left (fun s j => au_step a j s) w (fst p))) (ends_in (states y) (fold_left (fun s j => au_step b j s) w (snd p))).
Proof. intros w p L. revert p. induction L as [|j w J L IH]; intros p; [reflexivity|]. cbn [steps_to fold_left]. apply IH. Qed.
Lemma path_ends : forall e w s, letters k w -> ends_in (states e) (fold_left (fun s j => au_step (automaton_of k e) j s) w s) = true <->
  set_means (states e) s (map Z.of_nat w).
Proof.
  intros e w s L. revert s. induction L as [|j w J L IH]; intros s; [apply ends_means|]. cbn [fold_left map]. rewrite IH. apply step_means, J.
Qed.
Lemma path_accepts : forall e w, letters k w ->
  ends_in (states e) (fold_left (fun s j => au_step (automaton_of k e) j s) w (start_of e)) = accepts (interp e) (map Z.of_nat w).
Proof.
  intros e w L. apply Textbook.bool_iff. rewrite (path_ends e w _ L), start_means. unfold means. rewrite accepts_word. reflexivity.
Qed.
Lemma start_ok : forall w, letters k w -> ok (steps_to _ step w (start_of x, start_of y)) = g (accepts (interp x) (map Z.of_nat w)) (accepts (interp y) (map Z.of_nat w)).
Proof. intros w L. rewrite (path_ok w _ L). cbn [fst snd]. unfold a, b. rewrite !path_accepts by exact L. reflexivity. Qed.
Lemma sets_true : forall fuel, compare_sets g k fuel x y = inr true -> forall w, letters k w ->
  g (accepts (interp x) (map Z.of_nat w)) (accepts (interp y) (map Z.of_nat w)) = true.
Proof.
  intros fuel E w L. rewrite <- (start_ok w L).
  apply (walk_true _ pair_eqb pair_eqb_eq step ok k fuel [([], (start_of x, start_of y))] []); [intros p []|exact E|left; reflexivity|exact L].
Qed.
Lemma sets_word : forall fuel w, compare_sets g k fuel x y = inl w -> letters k w /\
  g (accepts (interp x) (map Z.of_nat w)) (accepts (interp y) (map Z.of_nat w)) = false.
Proof.
  intros fuel w E. assert (K : letters k w /\ ok (steps_to _ step w (start_of x, start_of y)) = false).
  { apply (walk_word _ pair_eqb pair_eqb_eq step ok k (start_of x, start_of y) fuel [([], (start_of x, start_of y))] []); [|exact E].
    intros w0 p [H|[]]. injection H as <- <-. split; [constructor|reflexivity]. }
  destruct K as [L K]. split; [exact L|]. rewrite <- (start_ok w L). exact K.
Qed.
Lemma sets_short : forall fuel w, compare_sets g k fuel x y = inl w -> forall u, letters k u -> length u < length w ->
  g (accepts (interp x) (map Z.of_nat u)) (accepts (interp y) (map Z.of_nat u)) = true.
Proof.
  intros fuel w E u L Lu. rewrite <- (start_ok u L).
  apply (walk_short _ pair_eqb pair_eqb_eq step ok k (start_of x, start_of y) fuel 0 [([], (start_of x, start_of y))] [] []) with (w := w); [| | | | |exact E|exact L|exact Lu].
  - intros w0 p [H|[]]. injection H as <- <-. reflexivity.
  - intros w0 p [].
  - intros v _ Lv. lia.
  - intros v _ Lv. right. destruct v; [left; reflexivity|discriminate].
  - intros p [].
Qed.
(** At most as many rounds as pairs of sets, for every character. *)
Definition rounds : nat := 2 + length (vectors (length (states x))) * length (vectors (length (states y))) * S k.
Lemma sets_end : forall fuel, rounds <= fuel -> compare_sets g k fuel x y <> inr false.
Proof.
  intros fuel F. unfold rounds in F.
  assert (Len : forall e j s, length (au_step (automaton_of k e) j s) = length (states e)).
  { intros e j s. unfold au_step, automaton_of. cbn [au_none au_rows]. apply move_length; [apply map_length|].
    destruct (nth_in_or_default j (map (rows_of (states e)) (seq 0 k)) []) as [I|I].
    - apply in_map_iff in I as (i & <- & _). apply Forall_forall. intros r R. apply in_map_iff in R as (z & <- & _). apply map_length.
    - rewrite I. constructor. }
  apply (walk_ends _ pair_eqb pair_eqb_eq step ok k (list_prod (vectors (length (states x))) (vectors (length (states y))))).
  - intros p _ j _. apply in_prod; [rewrite <- (Len x j (fst p))|rewrite <- (Len y j (snd p))]; apply vectors_in.
  - intros p [<-|[]]. cbn [snd]. assert (S : forall e, length (start_of e) = length (states e)) by (intros e; apply map_length).
    apply in_prod; [rewrite <- (S x)|rewrite <- (S y)]; apply vectors_in.
  - constructor.
  - intros p [].
  - rewrite prod_length. cbn [length]. lia.
Qed.
Lemma sets_more : forall n m, n <= m -> compare_sets g k n x y <> inr false -> compare_sets g k m x y = compare_sets g k n x y.
Proof. intros n m L N. unfold compare_sets in *. cbv zeta in *. eapply walk_more; [exact pair_eqb_eq|exact L|reflexivity|exact N]. Qed.
End Sets.

(** * Characters *)
(** Representatives of the values of a code unit or a code point. *)
Definition values (B : list Z) : list Z := filter val_ok B ++ [0; -2147483648]%Z.
Definition reps_ok (B : list Z) (Ps : list (Z -> bool)) : list Z := distinct Ps (values B) [].
Lemma values_ok : forall B v, In v (values B) -> val_ok v = true.
Proof. intros B v H. apply in_app_or in H as [H|[<-|[<-|[]]]]; [apply filter_In in H; apply H|reflexivity|reflexivity]. Qed.
Lemma distinct_from : forall Ps vs have v, In v (distinct Ps vs have) -> In v vs \/ In v (map fst have).
Proof.
  intros Ps. induction vs as [|u vs IH]; intros have v H; cbn [distinct] in H; [auto|]. cbv zeta in H. destruct (existsb _ have).
  - apply IH in H as [H|H]; [left; right; exact H|auto].
  - apply IH in H as [H|[<-|H]]; [left; right; exact H|left; left; reflexivity|auto].
Qed.
Lemma reps_ok_val : forall B Ps v, In v (reps_ok B Ps) -> val_ok v = true.
Proof. intros B Ps v H. apply distinct_from in H as [H|[]]. apply (values_ok B). exact H. Qed.
Lemma reps_ok_all : forall B Ps v, Forall (steady B) Ps -> val_ok v = true -> exists j v', nth_error (reps_ok B Ps) j = Some v' /\ agrees Ps v v'.
Proof.
  intros B Ps v H V. assert (R : exists v1, In v1 (values B) /\ agrees Ps v v1).
  { destruct (greatest ((-2147483648)%Z :: filter val_ok B) v) as (d & D1 & D2 & D3).
    - exists (-2147483648)%Z. split; [left; reflexivity|]. unfold val_ok in V. lia.
    - exists d. split; [unfold values; apply in_or_app; destruct D1 as [<-|D1]; [right; right; left; reflexivity|left; exact D1]|].
      eapply Forall_impl; [|exact H]. intros P HP. symmetry. apply HP; [exact D2|]. intros b Hb X.
      assert (L : (-2147483648 <= d)%Z).
      { destruct D1 as [<-|D1]; [lia|]. apply filter_In in D1 as [_ D1]. unfold val_ok in D1. lia. }
      apply (D3 b); [|exact X]. right. apply filter_In. split; [exact Hb|]. unfold val_ok in *. lia. }
  destruct R as (v1 & V1 & A1). destruct (distinct_spec Ps (values B) []) as [_ D]; [intros ? ? []|].
  destruct (D v1 V1) as (v2 & V2 & A2). apply In_nth_error in V2 as (j & J). exists j, v2. split; [exact J|]. exact (agrees_trans _ _ _ _ A1 A2).
Qed.
Lemma abs_word_ok : forall vs Ps w, Forall (fun v => exists j v', nth_error vs j = Some v' /\ agrees Ps v v') w ->
  exists js, letters (length vs) js /\ length js = length w /\ forall x, (forall P, In P (tests x) -> In P Ps) -> accepts x w = accepts (interp (abs vs x)) (map Z.of_nat js).
Proof.
  intros vs Ps w R. induction R as [|v w (j & v' & J & A) R IH].
  - exists []. split; [constructor|]. split; [reflexivity|]. intros x _. cbn [map accepts]. symmetry. apply abs_null.
  - destruct IH as (ws & W1 & W3 & W2). exists (j :: ws). split; [|split].
    + constructor; [|exact W1]. apply nth_error_Some. congruence.
    + cbn. f_equal. exact W3.
    + intros x I. cbn [map accepts]. rewrite (abs_deriv vs j v' x J). rewrite (agrees_deriv x v v').
      * apply W2. intros P HP. pose proof (tests_deriv v' x (fun P => In P Ps)) as T. rewrite !Forall_forall in T. apply T; [exact I|exact HP].
      * unfold agrees in *. rewrite Forall_forall in *. intros P HP. apply A, I, HP.
Qed.
Lemma abs_back : forall vs js, letters (length vs) js -> forall x, accepts (interp (abs vs x)) (map Z.of_nat js) = accepts x (map (fun j => nth j vs 0%Z) js).
Proof.
  intros vs js L. induction L as [|j js J L IH]; intros x; [apply abs_null|]. cbn [map accepts].
  rewrite (abs_deriv vs j (nth j vs 0%Z) x) by (apply nth_error_nth'; exact J). apply IH.
Qed.

(** * The decision *)
Definition settle_words (g : bool -> bool -> bool) (fuel : nat) (B : list Z) (x y : regexp) : verdict :=
  let vs := reps_ok B (tests x ++ tests y) in
  match compare_sets g (length vs) fuel (abs vs x) (abs vs y) with
  | inr true => Holds
  | inr false => Unknown
  | inl js => Fails (map (fun j => nth j vs 0%Z) js)
  end.
Theorem settle_holds : forall g fuel B x y, Forall (steady B) (tests x) -> Forall (steady B) (tests y) ->
  settle_words g fuel B x y = Holds -> forall w, forallb val_ok w = true -> g (accepts x w) (accepts y w) = true.
Proof.
  intros g fuel B x y Hx Hy E w V. unfold settle_words in E. cbv zeta in E. set (vs := reps_ok B (tests x ++ tests y)) in *.
  assert (H : Forall (steady B) (tests x ++ tests y)) by (apply Forall_app; auto).
  destruct (abs_word_ok vs (tests x ++ tests y) w) as (js & J1 & _ & J2).
  { rewrite forallb_forall in V. apply Forall_forall. intros v I. apply reps_ok_all; auto. }
  rewrite (J2 x), (J2 y) by (intros P HP; apply in_or_app; auto).
  destruct (compare_sets g (length vs) fuel _ _) as [?|[|]] eqn:X; try discriminate. apply (sets_true _ _ _ _ _ X js J1).
Qed.
Theorem settle_fails : forall g fuel B x y w, settle_words g fuel B x y = Fails w -> forallb val_ok w = true /\ g (accepts x w) (accepts y w) = false.
Proof.
  intros g fuel B x y w E. unfold settle_words in E. cbv zeta in E. set (vs := reps_ok B (tests x ++ tests y)) in *.
  destruct (compare_sets g (length vs) fuel _ _) as [js|[|]] eqn:X; try discriminate. injection E as <-. apply sets_word in X as [L X]. split.
  - apply forallb_forall. intros v I. apply in_map_iff in I as (j & <- & J). unfold letters in L. rewrite Forall_forall in L.
    apply (reps_ok_val B (tests x ++ tests y)). apply nth_In, L, J.
  - rewrite !(abs_back vs js L) in X. exact X.
Qed.
(** No shorter subject tells them apart. *)
Theorem settle_short : forall g fuel B x y w, Forall (steady B) (tests x) -> Forall (steady B) (tests y) -> settle_words g fuel B x y = Fails w ->
  forall u, forallb val_ok u = true -> length u < length w -> g (accepts x u) (accepts y u) = true.
Proof.
  intros g fuel B x y w Hx Hy E u V L. unfold settle_words in E. cbv zeta in E. set (vs := reps_ok B (tests x ++ tests y)) in *.
  assert (H : Forall (steady B) (tests x ++ tests y)) by (apply Forall_app; auto).
  destruct (abs_word_ok vs (tests x ++ tests y) u) as (js & J1 & J3 & J2).
  { rewrite forallb_forall in V. apply Forall_forall. intros v I. apply reps_ok_all; auto. }
  rewrite (J2 x), (J2 y) by (intros P HP; apply in_or_app; auto).
  destruct (compare_sets g (length vs) fuel _ _) as [ws|[|]] eqn:X; try discriminate. injection E as <-. rewrite map_length in L.
  apply (sets_short _ _ _ _ _ _ X js J1). lia.
Qed.
Theorem settle_ends : forall g B x y, exists n, settle_words g n B x y <> Unknown /\ forall m, n <= m -> settle_words g m B x y = settle_words g n B x y.
Proof.
  intros g B x y. unfold settle_words. cbv zeta. set (vs := reps_ok B (tests x ++ tests y)).
  exists (rounds (length vs) (abs vs x) (abs vs y)).
  pose proof (sets_end g (length vs) (abs vs x) (abs vs y) _ (le_n _)) as N. split.
  - destruct (compare_sets g _ _ _ _) as [js|[|]]; [discriminate|discriminate|congruence].
  - intros m L. rewrite (sets_more _ _ _ _ _ m L N). reflexivity.
Qed.

(** * Calls *)
Definition settle props (opt : bool) (g : bool -> bool -> bool) (fuel : nat) (a b : asking) : verdict :=
  match readings props opt a, readings props opt b with
  | Some (r1, _), Some (r2, _) =>
      settle_words g fuel (re_breaks r1 ++ re_breaks r2) (asked (a_question a) (textbook (a_mode a) r1)) (asked (a_question b) (textbook (a_mode b) r2))
  | _, _ => Unknown
  end.
(** The call is one of those that C48 explains. *)
Definition explained props (opt : bool) (a : asking) : bool := match readings props opt a with Some _ => true | None => false end.
Theorem settled_holds : forall props opt g fuel a b, settle props opt g fuel a b = Holds -> forall s, forallb val_ok s = true ->
  exists m1 m2, says props opt a s m1 /\ says props opt b s m2 /\ g m1 m2 = true.
Proof.
  intros props opt g fuel a b E s V. unfold settle in E. destruct (readings props opt a) as [[r1 k1]|] eqn:A; [|discriminate].
  destruct (readings props opt b) as [[r2 k2]|] eqn:B; [|discriminate].
  do 2 eexists. split; [apply (readings_say _ _ _ _ _ A s V)|]. split; [apply (readings_say _ _ _ _ _ B s V)|].
  apply (settle_holds g fuel (re_breaks r1 ++ re_breaks r2)); [| |exact E|exact V]; apply asked_steady; [apply incl_appl|apply incl_appr]; apply incl_refl.
Qed.
Theorem settled_fails : forall props opt g fuel a b w, settle props opt g fuel a b = Fails w ->
  forallb val_ok w = true /\ exists m1 m2, says props opt a w m1 /\ says props opt b w m2 /\ g m1 m2 = false.
Proof.
  intros props opt g fuel a b w E. unfold settle in E. destruct (readings props opt a) as [[r1 k1]|] eqn:A; [|discriminate].
  destruct (readings props opt b) as [[r2 k2]|] eqn:B; [|discriminate]. apply settle_fails in E as [V E]. split; [exact V|].
  do 2 eexists. split; [apply (readings_say _ _ _ _ _ A w V)|]. split; [apply (readings_say _ _ _ _ _ B w V)|exact E].
Qed.
Theorem settled_short : forall props opt g fuel a b w, settle props opt g fuel a b = Fails w -> forall u, forallb val_ok u = true -> length u < length w ->
  exists m1 m2, says props opt a u m1 /\ says props opt b u m2 /\ g m1 m2 = true.
Proof.
  intros props opt g fuel a b w E u V L. unfold settle in E. destruct (readings props opt a) as [[r1 k1]|] eqn:A; [|discriminate].
  destruct (readings props opt b) as [[r2 k2]|] eqn:B; [|discriminate].
  do 2 eexists. split; [apply (readings_say _ _ _ _ _ A u V)|]. split; [apply (readings_say _ _ _ _ _ B u V)|].
  apply (settle_short g fuel (re_breaks r1 ++ re_breaks r2) _ _ w); [| |exact E|exact V|exact L]; apply asked_steady; [apply incl_appl|apply incl_appr]; apply incl_refl.
Qed.
Theorem settled_ends : forall props opt g a b, explained props opt a = true -> explained props opt b = true ->
  exists n, settle props opt g n a b <> Unknown /\ forall m, n <= m -> settle props opt g m a b = settle props opt g n a b.
Proof.
  intros props opt g a b A B. unfold explained in *. unfold settle. destruct (readings props opt a) as [[r1 k1]|]; [|discriminate].
  destruct (readings props opt b) as [[r2 k2]|]; [|discriminate]. apply settle_ends.
Qed.
