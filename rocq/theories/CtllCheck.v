(** Deciding that the grammar of a ctll parser is LL(1), for the theorems of Ctll.v. Nothing here is in the source: the
    tables are computed by iteration and then only checked. *)
From Coq Require Import List ZArith NArith Bool Lia Arith ZifyBool ZifyNat.
From Verif Require Import Ctll.
Import ListNotations.

(** * Characters that no matcher of the grammar tells apart *)
Definition corners (m : matcher) : list Z :=
  match m with
  | XTerm c => [c; c + 1]%Z
  | XRange a b => [a; b + 1]%Z
  | XSet l | XNeg l => flat_map (fun c => [c; c + 1]%Z) l
  | XAny => []
  end.
Definition sides (ps : list Z) (c r : Z) : Prop := forall p, In p ps -> (p <= c <-> p <= r)%Z.
Lemma sides_fit : forall m c r, sides (corners m) c r -> fit m c = fit m r.
Proof.
  assert (X : forall l c r, sides (flat_map (fun c => [c; c + 1]%Z) l) c r -> existsb (Z.eqb c) l = existsb (Z.eqb r) l).
  { induction l as [|d l IH]; intros c r H; [reflexivity|]. cbn [existsb].
    rewrite (IH c r); [|intros p Hp; apply H; cbn; auto]. f_equal.
    pose proof (H d ltac:(cbn; auto)). pose proof (H (d + 1)%Z ltac:(cbn; auto)). lia. }
  intros [d|a b|l|l|] c r H; cbn [fit].
  - pose proof (H d ltac:(cbn; auto)). pose proof (H (d + 1)%Z ltac:(cbn; auto)). lia.
  - pose proof (H a ltac:(cbn; auto)). pose proof (H (b + 1)%Z ltac:(cbn; auto)). lia.
  - apply X, H.
  - rewrite (X l c r H). reflexivity.
  - reflexivity.
Qed.
(** The highest corner not above [c], or a character below all. *)
Definition base (ps : list Z) : Z := fold_right Z.min 0%Z ps - 1.
Definition rep (ps : list Z) (c : Z) : Z := fold_right (fun p r => if Z.leb p c then Z.max p r else r) (base ps) ps.
Lemma base_below : forall ps p, In p ps -> (base ps < p)%Z.
Proof.
  unfold base. induction ps as [|q ps IH]; intros p H; [destruct H|]. cbn [fold_right]. destruct H as [->|H]; [lia|]. specialize (IH p H). lia.
Qed.
Lemma rep_sides : forall ps c, sides ps c (rep ps c).
Proof.
  intros ps c p Hp. pose proof (base_below ps p Hp) as B. unfold rep. revert B. generalize (base ps) as z. intros z B.
  assert (Up : forall q, In q ps -> (q <= c)%Z -> (q <= fold_right (fun p r => if Z.leb p c then Z.max p r else r) z ps)%Z).
  { clear. induction ps as [|x ps IH]; intros q H L; [destruct H|]. cbn [fold_right]. destruct H as [->|H].
    - destruct (q <=? c)%Z eqn:E; lia.
    - specialize (IH q H L). destruct (x <=? c)%Z; lia. }
  assert (Dn : (fold_right (fun p r => if Z.leb p c then Z.max p r else r) z ps <= Z.max z c)%Z).
  { clear. induction ps as [|x ps IH]; cbn [fold_right]; [lia|]. destruct (x <=? c)%Z eqn:E; lia. }
  split; [apply Up, Hp|]. intros L. lia.
Qed.
Lemma rep_in : forall ps c, In (rep ps c) (base ps :: ps).
Proof.
  intros ps c. unfold rep. generalize (base ps) as z. intros z.
  induction ps as [|x ps IH]; cbn [fold_right]; [left; reflexivity|].
  destruct (x <=? c)%Z; [|destruct IH as [H|H]; [left|right; right]; exact H].
  destruct (Z.max_spec x (fold_right (fun p r => if Z.leb p c then Z.max p r else r) z ps)) as [[_ ->]|[_ ->]].
  - destruct IH as [H|H]; [left|right; right]; exact H.
  - right. left. reflexivity.
Qed.

(** A list in order, without repetitions. *)
Fixpoint add (x : Z) (l : list Z) : list Z :=
  match l with [] => [x] | y :: m => if Z.ltb x y then x :: l else if Z.eqb x y then l else y :: add x m end.
Lemma add_in : forall x l y, y = x \/ In y l -> In y (add x l).
Proof.
  induction l as [|z l IH]; intros y H; cbn [add].
  - destruct H as [->|[]]. left. reflexivity.
  - destruct (x <? z)%Z; [destruct H as [->|H]; [left; reflexivity|right; exact H]|]. destruct (x =? z)%Z eqn:E.
    + destruct H as [->|H]; [left; lia|exact H].
    + destruct H as [->|[->|H]]; [right; apply IH; auto|left; reflexivity|right; apply IH; auto].
Qed.
Lemma adds_in : forall l y, In y l -> In y (fold_right add [] l).
Proof. induction l as [|x l IH]; intros y H; [destruct H|]. cbn [fold_right]. apply add_in. destruct H as [->|H]; auto. Qed.

(** * Equality *)
Definition same_list {X} (eq : X -> X -> bool) : list X -> list X -> bool :=
  fix go l m := match l, m with [], [] => true | a :: l, b :: m => eq a b && go l m | _, _ => false end.
Definition same_matcher (m m' : matcher) : bool :=
  match m, m' with
  | XTerm c, XTerm c' => Z.eqb c c'
  | XRange a b, XRange a' b' => Z.eqb a a' && Z.eqb b b'
  | XSet l, XSet l' | XNeg l, XNeg l' => same_list Z.eqb l l'
  | XAny, XAny => true
  | _, _ => false
  end.
Definition same_symbol {A} (eqA : A -> A -> bool) (y y' : symbol A) : bool :=
  match y, y' with SM m, SM m' => same_matcher m m' | SN x, SN x' => Nat.eqb x x' | SA a, SA a' => eqA a a' | _, _ => false end.
Definition same_body {A} (eqA : A -> A -> bool) (b b' : body A) : bool :=
  match b, b' with BPush l, BPush l' => same_list (same_symbol eqA) l l' | BReject, BReject => true | _, _ => false end.
Lemma same_list_eq : forall X (eq : X -> X -> bool), (forall a b, eq a b = true -> a = b) -> forall l m, same_list eq l m = true -> l = m.
Proof.
  intros X eq H. induction l as [|a l IH]; intros [|b m] E; try discriminate; [reflexivity|]. cbn [same_list] in E.
  apply andb_true_iff in E as [E1 E2]. f_equal; [apply H, E1|apply IH, E2].
Qed.
Lemma same_matcher_eq : forall m m', same_matcher m m' = true -> m = m'.
Proof.
  intros [] [] E; try discriminate; cbn in E; try reflexivity.
  - f_equal. lia.
  - f_equal; lia.
  - f_equal. apply (same_list_eq _ Z.eqb); [intros; lia|exact E].
  - f_equal. apply (same_list_eq _ Z.eqb); [intros; lia|exact E].
Qed.
Lemma same_body_eq : forall A (eqA : A -> A -> bool), (forall a b, eqA a b = true -> a = b) -> forall b b', same_body eqA b b' = true -> b = b'.
Proof.
  intros A eqA H [l|] [l'|] E; try discriminate; [|reflexivity]. f_equal. revert E. apply same_list_eq.
  intros [m|x|a] [m'|x'|a'] E; try discriminate; cbn in E; f_equal; [apply same_matcher_eq, E|lia|apply H, E].
Qed.

(** * The tables *)
Section Check.
Context {A : Type}.
Variable eqA : A -> A -> bool.
Variable g : grammar A.
Definition body_corners (b : body A) : list Z :=
  match b with BPush l => flat_map (fun y => match y with SM m => corners m | _ => [] end) l | BReject => [] end.
Definition entry_corners (e : lookahead * body A) : list Z :=
  (match fst e with LM m => corners m | LEps => [] end) ++ body_corners (snd e).
Definition grammar_corners : list Z := fold_right add [] (flat_map (flat_map entry_corners) g).
(** One of every class. *)
Variable ps : list Z.
Definition sample : list Z := base ps :: ps.

(** The overload chosen pushes the same. *)
Definition chooses (x : nat) (o : option Z) (b : body A) : bool :=
  match resolve g x o with Chosen b' => same_body eqA b' b | Ambiguous => false end.
Definition definite (x : nat) (o : option Z) : bool := match resolve g x o with Ambiguous => false | _ => true end.

Record tables := mkTables { t_null : list bool; t_first : list (list Z); t_follow : list (list (option Z)); t_rank : list nat }.
Section Tables.
Variable t : tables.
Definition nullable (x : nat) : bool := nth x (t_null t) false.
Definition firstb (x : nat) (r : Z) : bool := existsb (Z.eqb r) (nth x (t_first t) []).
Definition same_look (o o' : option Z) : bool :=
  match o, o' with None, None => true | Some a, Some b => Z.eqb a b | _, _ => false end.
Definition followb (x : nat) (o : option Z) : bool := existsb (same_look o) (nth x (t_follow t) []).
Definition rank_of (x : nat) : nat := nth x (t_rank t) 0.
Fixpoint firstsb (k : list (symbol A)) (r : Z) : bool :=
  match k with
  | [] => false
  | SM m :: _ => fit m r
  | SN x :: k => firstb x r || (nullable x && firstsb k r)
  | SA _ :: k => firstsb k r
  end.
Definition looks : list (option Z) := None :: map Some sample.
Fixpoint followedb (x : nat) (k : list (symbol A)) : bool :=
  match k with
  | [] => true
  | SN y :: k =>
      forallb (fun r => implb (firstsb k r) (followb y (Some r))) sample &&
      implb (vanish A nullable k) (forallb (fun o => implb (followb x o) (followb y o)) looks) && followedb x k
  | _ :: k => followedb x k
  end.
Fixpoint lowerb (r : nat) (k : list (symbol A)) : bool :=
  match k with
  | [] => true
  | SM _ :: _ => true
  | SN y :: k => Nat.ltb (rank_of y) r && implb (nullable y) (lowerb r k)
  | SA _ :: k => lowerb r k
  end.
Definition entry_ok (x : nat) (e : lookahead * body A) : bool :=
  match production e with
  | None => true
  | Some p =>
      implb (vanish A nullable p) (nullable x && forallb (fun o => implb (followb x o) (chooses x o (snd e))) looks) &&
      forallb (fun r => implb (firstsb p r) (firstb x r && chooses x (Some r) (snd e))) sample &&
      followedb x p && lowerb (rank_of x) p
  end.
Definition nonterminal_ok (x : nat) : bool :=
  forallb (entry_ok x) (entries g x) && forallb (definite x) looks.
Definition tables_ok : bool := followb 0 None && forallb nonterminal_ok (seq 0 (length g)).
End Tables.

(** The least tables, by at most as many rounds as there are nonterminals. *)
Definition productions (x : nat) : list (list (symbol A)) := flat_map (fun e => match production e with Some p => [p] | None => [] end) (entries g x).
Definition all : list nat := seq 0 (length g).
Definition start : tables := mkTables (map (fun _ => false) all) (map (fun _ => []) all) (map (fun x => if Nat.eqb x 0 then [None] else []) all) (map (fun _ => 0) all).
Definition more_null (t : tables) : tables :=
  mkTables (map (fun x => existsb (vanish A (nullable t)) (productions x)) all) (t_first t) (t_follow t) (t_rank t).
Definition more_first (t : tables) : tables :=
  mkTables (t_null t) (map (fun x => filter (fun r => existsb (fun p => firstsb t p r) (productions x)) sample) all) (t_follow t) (t_rank t).
(** Every nonterminal in a production of [z], with the characters that follow it there, and whether nothing may. *)
Fixpoint spots (t : tables) (z : nat) (k : list (symbol A)) : list (nat * (list Z * (bool * nat))) :=
  match k with
  | [] => []
  | SN y :: k => (y, (filter (firstsb t k) sample, (vanish A (nullable t) k, z))) :: spots t z k
  | _ :: k => spots t z k
  end.
Definition links (t : tables) : list (nat * (list Z * (bool * nat))) := flat_map (fun z => flat_map (spots t z) (productions z)) all.
Definition more_follow (ls : list (nat * (list Z * (bool * nat)))) (t : tables) : tables :=
  mkTables (t_null t) (t_first t)
    (map (fun x => let mine := filter (fun l => Nat.eqb (fst l) x) ls in
       filter (fun o => followb t x o ||
         existsb (fun l => match o with Some r => existsb (Z.eqb r) (fst (snd l)) | None => false end ||
                           (fst (snd (snd l)) && followb t (snd (snd (snd l))) o)) mine) looks) all) (t_rank t).
Fixpoint above (t : tables) (k : list (symbol A)) : nat :=
  match k with
  | [] => 0
  | SM _ :: _ => 0
  | SN y :: k => Nat.max (S (rank_of t y)) (if nullable t y then above t k else 0)
  | SA _ :: k => above t k
  end.
Definition more_rank (t : tables) : tables :=
  mkTables (t_null t) (t_first t) (t_follow t) (map (fun x => fold_right Nat.max 0 (map (above t) (productions x))) all).
Definition size (t : tables) : nat :=
  length (filter (fun b => b) (t_null t)) + length (List.concat (t_first t)) + length (List.concat (t_follow t)) + fold_right plus 0 (t_rank t).
Fixpoint rounds (n : nat) (f : tables -> tables) (t : tables) : tables :=
  match n with O => t | S n => let t' := f t in if Nat.eqb (size t') (size t) then t' else rounds n f t' end.
Definition compute : tables :=
  let n := S (length g) in
  let t := rounds n more_first (rounds n more_null start) in
  let ls := links t in
  rounds n more_rank (rounds n (more_follow ls) t).
Hypothesis Hps : ps = grammar_corners.

(** * The check is sound *)
Notation cls := (rep ps).
Lemma corner_in : forall x e p, In e (entries g x) -> In p (entry_corners e) -> In p ps.
Proof.
  intros x e p I P. rewrite Hps. apply adds_in, in_flat_map. exists (entries g x). split.
  - unfold entries in *. destruct (nth_in_or_default x g []) as [H|H]; [exact H|]. rewrite H in I. destruct I.
  - apply in_flat_map. exists e. auto.
Qed.
Lemma matcher_same : forall x e p m, In e (entries g x) -> production e = Some p -> In (SM m) p -> forall c, fit m c = fit m (cls c).
Proof.
  intros x e p m I P H c. apply sides_fit. intros q Q. apply rep_sides. apply (corner_in x e q I). unfold entry_corners.
  destruct e as [la [l|]]; [|destruct la; discriminate]. cbn [fst snd body_corners].
  assert (B : In (SM m) l -> In q ((match la with LM m => corners m | LEps => [] end) ++ flat_map (fun y => match y with SM m => corners m | _ => [] end) l)).
  { intros J. apply in_or_app. right. apply in_flat_map. exists (SM m). auto. }
  destruct la as [m'|]; cbn in P; injection P as <-; [|auto].
  assert (C : In (SM m) (lead m' l) -> m = m' \/ In (SM m) l).
  { clear. induction l as [|[y|x|a] l IH]; cbn [lead]; auto.
    - destruct y; auto. intros [H|H]; [injection H as ->; auto|right; right; exact H].
    - intros [H|H]; [discriminate|]. destruct (IH H) as [->|H']; [auto|right; right; exact H']. }
  destruct (C H) as [->|H']; [apply in_or_app; left; exact Q|auto].
Qed.
Lemma filter_same : forall X (f h : X -> bool) l, (forall x, In x l -> f x = h x) -> filter f l = filter h l.
Proof. induction l as [|a l IH]; intros H; [reflexivity|]. cbn [filter]. rewrite (H a (or_introl eq_refl)), IH; [reflexivity|]. intros x I. apply H. right. exact I. Qed.
Lemma resolve_same : forall x c, resolve g x (Some c) = resolve g x (Some (cls c)).
Proof.
  intros x c. unfold resolve.
  assert (S : forall e, In e (entries g x) -> match fst e with LM m => fit m c = fit m (cls c) | LEps => True end).
  { intros e I. destruct (fst e) as [m|] eqn:E; [|exact Logic.I]. apply sides_fit. intros q Q. apply rep_sides. apply (corner_in x e q I).
    unfold entry_corners. rewrite E. apply in_or_app. left. exact Q. }
  rewrite (filter_same _ (exact c) (exact (cls c))), (filter_same _ (convertible c) (convertible (cls c))); [reflexivity| |].
  - intros e I. specialize (S e I). unfold convertible. destruct (fst e) as [[]|]; auto.
  - intros e I. specialize (S e I). unfold exact. destruct (fst e) as [[]|]; auto.
Qed.
Hypothesis HeqA : forall a b, eqA a b = true -> a = b.
Lemma chooses_ok : forall x o b, chooses x o b = true -> resolve g x o = Chosen b.
Proof. intros x o b C. unfold chooses in C. destruct (resolve g x o) as [b'|]; [|discriminate]. f_equal. exact (same_body_eq A eqA HeqA b' b C). Qed.
Lemma definite_ok : forall x o, definite x o = true -> resolve g x o <> Ambiguous.
Proof. intros x o D E. unfold definite in D. rewrite E in D. discriminate. Qed.

Section Sound.
Variable t : tables.
Hypothesis OK : tables_ok t = true.
Notation nul := (nullable t).
Notation fi := (fun x c => firstb t x (cls c) = true).
Definition look_class (o : option Z) : option Z := option_map cls o.
Notation fo := (fun x o => followb t x (look_class o) = true).
Lemma cls_sample : forall c, In (cls c) sample.
Proof. intros c. apply rep_in. Qed.
Lemma look_in : forall o, In (look_class o) looks.
Proof. intros [c|]; [right; apply (in_map Some), cls_sample|left; reflexivity]. Qed.
Lemma cls_idem : forall x o, resolve g x (look_class o) = resolve g x o.
Proof. intros x [c|]; [symmetry; apply resolve_same|reflexivity]. Qed.
Lemma firsts_class : forall p c, (forall m, In (SM m) p -> fit m c = fit m (cls c)) -> (firsts A nul fi p c <-> firstsb t p (cls c) = true).
Proof.
  clear OK. induction p as [|[m|x|a] p IH]; intros c H; cbn [firsts firstsb].
  - split; [intros []|discriminate].
  - rewrite (H m (or_introl eq_refl)). tauto.
  - rewrite orb_true_iff, andb_true_iff, IH; [tauto|]. intros m I. apply H. right. exact I.
  - apply IH. intros m I. apply H. right. exact I.
Qed.
Lemma entry_checked : forall x e, In e (entries g x) -> entry_ok t x e = true.
Proof.
  intros x e I. unfold tables_ok in OK. apply andb_true_iff in OK as [_ H]. rewrite forallb_forall in H.
  assert (X : In x (seq 0 (length g))).
  { apply in_seq. split; [lia|]. destruct (Nat.lt_ge_cases x (length g)) as [L|L]; [lia|]. unfold entries in I. rewrite nth_overflow in I by exact L. destruct I. }
  specialize (H x X). unfold nonterminal_ok in H. apply andb_true_iff in H as [H _]. rewrite forallb_forall in H. apply H, I.
Qed.
Lemma followed_class : forall x p, (forall m c, In (SM m) p -> fit m c = fit m (cls c)) -> followedb t x p = true -> followed A nul fi fo x p.
Proof.
  clear OK. intros x. induction p as [|[m|y|a] p IH]; intros M H; cbn [followed followedb] in *.
  - exact Logic.I.
  - apply IH; [intros m' c I; apply M; right; exact I|exact H].
  - rewrite !andb_true_iff in H. destruct H as [[H1 H2] H3]. split; [|split].
    + intros c F. apply firsts_class in F; [|intros m I; apply M; right; exact I]. rewrite forallb_forall in H1. specialize (H1 _ (cls_sample c)).
      cbn [look_class option_map]. rewrite F in H1. exact H1.
    + intros V o F. rewrite V in H2. cbn [implb] in H2. rewrite forallb_forall in H2. specialize (H2 _ (look_in o)). rewrite F in H2. exact H2.
    + apply IH; [intros m c I; apply M; right; exact I|exact H3].
  - apply IH; [intros m c I; apply M; right; exact I|exact H].
Qed.
Lemma lower_checked : forall r p, lowerb t r p = true -> lower A nul (rank_of t) r p.
Proof.
  clear OK. intros r. induction p as [|[m|y|a] p IH]; cbn [lower lowerb]; auto.
  rewrite andb_true_iff. intros [H1 H2]. split; [apply Nat.ltb_lt, H1|]. intros V. rewrite V in H2. apply IH, H2.
Qed.
Lemma checked_rank : forall x e p, In e (entries g x) -> production e = Some p -> lower A nul (rank_of t) (rank_of t x) p.
Proof.
  intros x e p I P. pose proof (entry_checked x e I) as H. unfold entry_ok in H. rewrite P in H.
  rewrite !andb_true_iff in H. apply lower_checked, H.
Qed.
Lemma checked_predictive : predictive A g nul fi fo.
Proof.
  assert (C : forall x e p, In e (entries g x) -> production e = Some p ->
    (vanish A nul p = true -> nul x = true) /\ (vanish A nul p = true -> forall o, fo x o -> resolve g x o = Chosen (snd e)) /\
    (forall c, firsts A nul fi p c -> fi x c /\ resolve g x (Some c) = Chosen (snd e)) /\ followed A nul fi fo x p).
  { intros x e p I P. pose proof (entry_checked x e I) as H. unfold entry_ok in H. rewrite P in H.
    rewrite !andb_true_iff in H. destruct H as [[[H1 H2] H3] _].
    assert (M : forall m c, In (SM m) p -> fit m c = fit m (cls c)) by (intros m c J; exact (matcher_same x e p m I P J c)).
    split; [|split; [|split]].
    - intros V. rewrite V in H1. cbn [implb] in H1. apply andb_true_iff in H1 as [H1 _]. exact H1.
    - intros V o F. rewrite V in H1. cbn [implb] in H1. apply andb_true_iff in H1 as [_ H1]. rewrite forallb_forall in H1. specialize (H1 _ (look_in o)).
      cbn in F. rewrite F in H1. cbn [implb] in H1. rewrite <- cls_idem. exact (chooses_ok x _ _ H1).
    - intros c F. apply firsts_class in F; [|intros m J; apply M, J]. rewrite forallb_forall in H2. specialize (H2 _ (cls_sample c)). rewrite F in H2. cbn [implb] in H2.
      apply andb_true_iff in H2 as [H2 H2']. split; [exact H2|]. rewrite resolve_same. exact (chooses_ok x _ _ H2').
    - apply followed_class; [exact M|exact H3]. }
  split.
  - intros x e p I P. exact (proj1 (C x e p I P)).
  - intros x e p c I P F. exact (proj1 (proj1 (proj2 (proj2 (C x e p I P))) c F)).
  - unfold tables_ok in OK. apply andb_true_iff in OK as [H _]. exact H.
  - intros x e p I P. exact (proj2 (proj2 (proj2 (C x e p I P)))).
  - intros x e p c I P F. exact (proj2 (proj1 (proj2 (proj2 (C x e p I P))) c F)).
  - intros x e p o I P V F. exact (proj1 (proj2 (C x e p I P)) V o F).
Qed.
Lemma checked_definite : forall x o, resolve g x o <> Ambiguous.
Proof.
  intros x o. destruct (Nat.lt_ge_cases x (length g)) as [L|L].
  - rewrite <- cls_idem. apply definite_ok. unfold tables_ok in OK. apply andb_true_iff in OK as [_ H]. rewrite forallb_forall in H.
    specialize (H x ltac:(apply in_seq; lia)). unfold nonterminal_ok in H. apply andb_true_iff in H as [_ H]. rewrite forallb_forall in H. apply H, look_in.
  - unfold resolve, entries. rewrite nth_overflow by exact L. destruct o; discriminate.
Qed.
End Sound.
End Check.
(** The whole check: what the theorems need of a grammar. *)
Definition ll1 {A} (eqA : A -> A -> bool) (g : grammar A) : bool :=
  let ps := grammar_corners g in if tables_ok eqA g ps (compute g ps) then true else false.
Lemma ll1_ok : forall A eqA (g : grammar A), ll1 eqA g = true -> tables_ok eqA g (grammar_corners g) (compute g (grammar_corners g)) = true.
Proof. intros A eqA g. unfold ll1. cbv zeta. destruct (tables_ok eqA g (grammar_corners g) (compute g (grammar_corners g))); [reflexivity|discriminate]. Qed.

(** * The theorems for checked grammars *)
Section Theorems.
Variables (A T : Type) (g : grammar A) (act : A -> option Z -> T -> applied T).
Lemma never_ill : forall n prev rest k (s : T), (forall x o, resolve g x o <> Ambiguous) -> (forall a p s, act a p s <> NoOverload) ->
  loop g act n prev rest k s <> FIll.
Proof.
  intros n. induction n as [|n IH]; intros prev rest k s D N; [discriminate|]. cbn [loop]. destruct k as [|[m|x|a] k].
  - destruct rest; discriminate.
  - destruct rest; [discriminate|]. destruct (fit m z); [apply IH; assumption|discriminate].
  - specialize (D x (hd_error rest)) as D'. destruct (resolve g x (hd_error rest)) as [[l|]|]; [apply IH; assumption|discriminate|congruence].
  - specialize (N a prev s) as N'. destruct (act a prev s); [apply IH; assumption|discriminate|congruence].
Qed.
Variable eqA : A -> A -> bool.
Hypothesis HeqA : forall a b, eqA a b = true -> a = b.
Hypothesis L : ll1 eqA g = true.
Notation tbl := (compute g (grammar_corners g)).
Lemma good_ok : tables_ok eqA g (grammar_corners g) tbl = true.
Proof. exact (ll1_ok A eqA g L). Qed.
Lemma good_tables : predictive A g (nullable tbl) (fun x c => firstb tbl x (rep (grammar_corners g) c) = true) (fun x o => followb tbl x (look_class (grammar_corners g) o) = true).
Proof. exact (checked_predictive eqA g (grammar_corners g) eq_refl HeqA tbl good_ok). Qed.
Lemma good_rank : forall x e p, In e (entries g x) -> production e = Some p -> lower A (nullable tbl) (rank_of tbl) (rank_of tbl x) p.
Proof. exact (checked_rank eqA g (grammar_corners g) tbl good_ok). Qed.
Lemma good_definite : forall x o, resolve g x o <> Ambiguous.
Proof. exact (checked_definite eqA g (grammar_corners g) eq_refl tbl good_ok). Qed.
Theorem ll1_ends : forall input s, exists n, forall b, n <= b -> shown (parser g act input b s) = shown (parser g act input n s) /\ shown (parser g act input n s) <> FFuel.
Proof.
  intros input s. destruct (machine_ends A g _ _ _ good_tables _ good_rank T act input None [SN 0] s) as [n H].
  exists n. intros b Lb. rewrite (parser_loop A T g act input b n s Lb H), (parser_loop A T g act input n n s (le_n n) H). auto.
Qed.
Theorem ll1_reads : forall t s, sentence g t -> exists n, forall b, n <= b -> shown (parser g act (chars t) b s) = perform act None t s.
Proof.
  intros t s G. destruct (sentence_read A g _ _ _ good_tables T act _ _ G (stacked_start _ _ _ _ _ good_tables) None s) as [n H].
  exists n. intros b Lb. rewrite (parser_loop A T g act (chars t) b n s Lb); [exact H|]. rewrite H.
  clear. generalize (@None Z) as prev. revert s. induction t as [|[c|a] t IH]; intros s prev; cbn [perform]; [discriminate|apply IH|].
  destruct (act a prev s); [apply IH|discriminate..].
Qed.
Theorem ll1_unambiguous : forall t t', sentence g t -> sentence g t' -> chars t = chars t' -> t = t'.
Proof. exact (unambiguous A g _ _ _ good_tables). Qed.
Theorem ll1_refuses : forall input s, (forall a p s, act a p s <> NoOverload) -> (forall t, sentence g t -> chars t <> input) ->
  exists n, forall b, n <= b -> shown (parser g act input b s) = FReject.
Proof.
  intros input s N H. destruct (machine_ends A g _ _ _ good_tables _ good_rank T act input None [SN 0] s) as [n F].
  exists n. intros b Lb. rewrite (parser_loop A T g act input b n s Lb F).
  pose proof (never_ill n None input [SN 0] s good_definite N) as I.
  destruct (loop g act n None input [SN 0] s) as [s'| | |] eqn:E; try congruence.
  destruct (accepted_sentence A T g act n None input [SN 0] s s' E) as (t & G & C & _). destruct (H t G C).
Qed.
End Theorems.
(** Without the check: an accepted text is a sentence. *)
Theorem parser_sound : forall A T (g : grammar A) act input b (s s' : T), shown (parser g act input b s) = FAccept s' ->
  exists t, sentence g t /\ chars t = input /\ perform act None t s = FAccept s'.
Proof.
  intros A T g act input b s s' H. destruct (loop_parser A T g act input b s) as [n E]; [rewrite H; discriminate|]. rewrite H in E.
  exact (accepted_sentence A T g act n None input [SN 0] s s' E).
Qed.
(** A text is a sentence or not, and the machine finds out. *)
Theorem ll1_decides : forall A T (g : grammar A) (act : A -> option Z -> T -> applied T) eqA, (forall a b, eqA a b = true -> a = b) -> ll1 eqA g = true ->
  (forall a p s, act a p s <> NoOverload) -> forall input s,
  exists n, forall b, n <= b ->
    (exists t, sentence g t /\ chars t = input /\ shown (parser g act input b s) = perform act None t s) \/
    ((forall t, sentence g t -> chars t <> input) /\ shown (parser g act input b s) = FReject).
Proof.
  intros A T g act eqA HA L N input s. set (idle := fun (_ : A) (_ : option Z) (x : unit) => Applied x).
  destruct (ll1_ends A unit g idle eqA HA L input tt) as [n0 E]. destruct (E n0 (le_n _)) as [_ F].
  destruct (shown (parser g idle input n0 tt)) as [[]| | |] eqn:R; [|..|congruence].
  - destruct (parser_sound A unit g idle input n0 tt tt R) as (t & G & C & _).
    destruct (ll1_reads A T g act eqA HA L t s G) as [n H]. exists n. intros b B. left. exists t. rewrite C in H. auto.
  - assert (None_ : forall t, sentence g t -> chars t <> input).
    { intros t G C. destruct (ll1_reads A unit g idle eqA HA L t tt G) as [n H]. specialize (H n (le_n n)). rewrite C in H.
      assert (P : perform idle None t tt = FAccept tt) by (clear; generalize (@None Z); induction t as [|[c|a] t IH]; intros o; cbn; auto).
      rewrite P in H. pose proof (parser_agree A unit g idle input n0 n tt) as X. rewrite R, H in X. discriminate X; discriminate. }
    destruct (ll1_refuses A T g act eqA HA L input s N None_) as [n H]. exists n. intros b B. right. auto.
  - exfalso. destruct (loop_parser A unit g idle input n0 tt) as [n H]; [rewrite R; discriminate|]. rewrite R in H.
    revert H. apply never_ill; [exact (good_definite A g eqA L)|discriminate].
Qed.
