(** The extension of the shorthand and named classes, as finite or co-finite sets of values. *)
From Coq Require Import List ZArith NArith Bool Lia Arith String ZifyBool ZifyNat ZifyN.
From Verif Require Import Chars Syntax View Eval Api Actions Parser Spec CharProofs Constructs.
Import ListNotations.
Local Open Scope list_scope.
Local Open Scope Z_scope.

(** * Finite and co-finite sets *)
Inductive vset := Fin (l : list Z) | Cofin (l : list Z).
Definition mem (x : Z) (l : list Z) : bool := existsb (Z.eqb x) l.
Definition vmem (x : Z) (a : vset) : bool := match a with Fin l => mem x l | Cofin l => negb (mem x l) end.
Definition minus (a b : list Z) : list Z := filter (fun x => negb (mem x b)) a.
Definition meet (a b : list Z) : list Z := filter (fun x => mem x b) a.
Definition vunion (a b : vset) : vset :=
  match a, b with
  | Fin a, Fin b => Fin (a ++ b)
  | Fin a, Cofin b => Cofin (minus b a)
  | Cofin a, Fin b => Cofin (minus a b)
  | Cofin a, Cofin b => Cofin (meet a b)
  end.
Definition vcompl (a : vset) : vset := match a with Fin l => Cofin l | Cofin l => Fin l end.
Definition vequal (a b : vset) : bool :=
  match a, b with
  | Fin a, Fin b | Cofin a, Cofin b => forallb (fun x => mem x b) a && forallb (fun x => mem x a) b
  | _, _ => false
  end.

Lemma mem_In : forall x l, mem x l = true <-> In x l.
Proof.
  intros x l. unfold mem. rewrite existsb_exists. split.
  - intros (y & H1 & H2). apply Z.eqb_eq in H2 as ->. assumption.
  - intros H. exists x. split; [assumption|]. apply Z.eqb_refl.
Qed.
Lemma mem_filter : forall x P l, mem x (filter P l) = mem x l && P x.
Proof.
  intros x P l. apply eq_true_iff_eq. rewrite andb_true_iff, !mem_In, filter_In. reflexivity.
Qed.
Lemma mem_app : forall x a b, mem x (a ++ b) = mem x a || mem x b.
Proof. intros. apply existsb_app. Qed.
Lemma vmem_union : forall x a b, vmem x (vunion a b) = vmem x a || vmem x b.
Proof.
  intros x [a|a] [b|b]; cbn [vmem vunion]; unfold minus, meet; rewrite ?mem_app, ?mem_filter;
    destruct (mem x a), (mem x b); reflexivity.
Qed.
Lemma vmem_compl : forall x a, vmem x (vcompl a) = negb (vmem x a).
Proof. intros x [a|a]; cbn [vmem vcompl]; [reflexivity|]. rewrite negb_involutive. reflexivity. Qed.
Lemma sub_mem : forall a b, forallb (fun x => mem x b) a && forallb (fun x => mem x a) b = true -> forall x, mem x a = mem x b.
Proof.
  intros a b H x. apply andb_true_iff in H as [H1 H2]. rewrite forallb_forall in H1, H2.
  apply eq_true_iff_eq. rewrite !mem_In. split; intros H; apply mem_In; auto.
Qed.
Lemma vequal_mem : forall a b, vequal a b = true -> forall x, vmem x a = vmem x b.
Proof.
  intros [a|a] [b|b] H x; cbn [vequal vmem] in *; try discriminate; rewrite (sub_mem a b H x); reflexivity.
Qed.

(** * The set of a class *)
Fixpoint upto (a : Z) (n : nat) : list Z := match n with O => [] | S n => a :: upto (a + 1) n end.
Definition interval (a b : Z) : list Z := upto a (Z.to_nat (b - a + 1)).
Definition folded (ci : bool) (l : list Z) : list Z := l ++ (if ci then map swap_case l else []).

Lemma upto_In : forall n a x, In x (upto a n) <-> a <= x < a + Z.of_nat n.
Proof.
  induction n as [|n IH]; intros a x; cbn [upto In]; [lia|]. rewrite IH. lia.
Qed.
Lemma interval_In : forall a b x, In x (interval a b) <-> a <= x <= b.
Proof. intros. unfold interval. rewrite upto_In. lia. Qed.
Lemma folded_mem : forall ci l x, mem x (folded ci l) = fold_test ci (fun y => mem y l) x.
Proof.
  intros ci l x. unfold folded, fold_test. rewrite mem_app. f_equal. destruct ci; [|reflexivity]. cbn [andb].
  apply eq_true_iff_eq. rewrite !mem_In, in_map_iff. split.
  - intros (y & <- & H). rewrite swap_swap. assumption.
  - intros H. exists (swap_case x). split; [apply swap_swap|assumption].
Qed.

Fixpoint denote (ci : bool) (k : cls) : vset :=
  match k with
  | CChar v => Fin (folded ci [v])
  | CRange a b => Fin (folded ci (interval a b))
  | CEnum vs => Fin (folded ci vs)
  | CSet l => fold_right (fun x a => vunion (denote ci x) a) (Fin []) l
  | CNeg l | CNegate l => vcompl (fold_right (fun x a => vunion (denote ci x) a) (Fin []) l)
  | CProp tbl => Fin (List.concat (map (fun p => interval (fst p) (snd p)) tbl))
  end.

Lemma denote_has : forall ci k x, cls_has ci k x = vmem x (denote ci k).
Proof.
  intros ci k x. induction k as [v|a b|l IH|l IH|vs|l IH|t] using cls_ind2.
  - cbn [cls_has denote vmem]. rewrite folded_mem. unfold lit_has, fold_test. cbn [mem existsb].
    rewrite !orb_false_r, (Z.eqb_sym v), (Z.eqb_sym v (swap_case x)). reflexivity.
  - cbn [cls_has denote vmem]. rewrite folded_mem. unfold fold_test.
    assert (E : forall y, mem y (interval a b) = (a <=? y) && (y <=? b)).
    { intros y. apply eq_true_iff_eq. rewrite mem_In, interval_In. lia. }
    rewrite !E. reflexivity.
  - cbn [cls_has denote]. induction IH as [|k l Hk _ IHl]; [reflexivity|].
    cbn [existsb fold_right]. rewrite vmem_union, Hk, IHl. reflexivity.
  - cbn [cls_has denote]. rewrite vmem_compl. f_equal. induction IH as [|k l Hk _ IHl]; [reflexivity|].
    cbn [existsb fold_right]. rewrite vmem_union, Hk, IHl. reflexivity.
  - cbn [cls_has denote vmem]. rewrite folded_mem. unfold fold_test, lit_has, fold_test, mem.
    induction vs as [|v vs IH]; [destruct ci; reflexivity|]. cbn [existsb]. rewrite IH.
    rewrite (Z.eqb_sym v x), (Z.eqb_sym v (swap_case x)).
    destruct (x =? v), (swap_case x =? v), ci, (existsb (Z.eqb x) vs); reflexivity.
  - cbn [cls_has denote]. rewrite vmem_compl. f_equal. induction IH as [|k l Hk _ IHl]; [reflexivity|].
    cbn [existsb fold_right]. rewrite vmem_union, Hk, IHl. reflexivity.
  - cbn [cls_has denote vmem]. induction t as [|p t IH]; [reflexivity|]. cbn [existsb map List.concat]. rewrite mem_app, IH. f_equal.
    apply eq_true_iff_eq. rewrite mem_In, interval_In. lia.
Qed.

(** * Documented classes *)
Definition in_ranges (rs : list (Z * Z)) (x : Z) : bool := existsb (fun r => (fst r <=? x) && (x <=? snd r)) rs.
Definition spread (rs : list (Z * Z)) : list Z := List.concat (map (fun p => interval (fst p) (snd p)) rs).
Lemma spread_mem : forall rs x, mem x (spread rs) = in_ranges rs x.
Proof.
  intros rs x. unfold spread, in_ranges. induction rs as [|p t IH]; [reflexivity|]. cbn [existsb map List.concat].
  rewrite mem_app, IH. f_equal. apply eq_true_iff_eq. rewrite mem_In, interval_In. lia.
Qed.

(** The pattern text [t] is a class that stands for the ranges [rs], or for all other values. *)
Definition stands_for (ci : bool) (t : string) (neg : bool) (rs : list (Z * Z)) : bool :=
  match re_of t with
  | CRegex (RCls k) => cls_ok ci k && vequal (denote ci k) (if neg then Cofin (folded ci (spread rs)) else Fin (folded ci (spread rs)))
  | _ => false
  end.

Lemma stands_match : forall opt n f t neg rs x, stands_for (f_ci f) t neg rs = true -> val_ok x = true ->
  exists r c, re_of t = CRegex r /\ ctre_match opt (6 + n) [x] f r = Ok c /\
    matched c = xorb neg (in_ranges rs x || (f_ci f && in_ranges rs (swap_case x))).
Proof.
  intros opt n f t neg rs x H Hx. unfold stands_for in H. destruct (re_of t) as [r| | |]; try discriminate. destruct r; try discriminate.
  apply andb_true_iff in H as [H1 H2]. destruct (one_char opt n f c x) as (c' & A & B).
  exists (RCls c), c'. split; [reflexivity|]. split; [exact A|]. rewrite B.
  rewrite match_cls_spec by assumption. rewrite denote_has, (vequal_mem _ _ H2).
  destruct neg; cbn [vmem xorb]; rewrite folded_mem; unfold fold_test; rewrite !spread_mem; destruct (in_ranges rs x || _); reflexivity.
Qed.

(** * Bracket sets: the union of the items *)
Lemma leqb_eq : forall A (e : A -> A -> bool) l l', Forall (fun x => forall y, e x y = true -> x = y) l -> leqb e l l' = true -> l = l'.
Proof.
  intros A e l. induction l as [|x l IH]; intros [|y l'] F H; cbn in H; try discriminate; [reflexivity|].
  apply andb_true_iff in H as [H1 H2]. inversion F; subst. f_equal; auto.
Qed.
Lemma cls_eqb_eq : forall a b, cls_eqb a b = true -> a = b.
Proof.
  induction a as [v|a b|l IH|l IH|vs|l IH|t] using cls_ind2; intros [v'|a' b'|l'|l'|vs'|l'|t'] H; cbn in H; try discriminate; f_equal.
  - apply Z.eqb_eq. assumption.
  - lia.
  - lia.
  - apply (leqb_eq _ cls_eqb); assumption.
  - apply (leqb_eq _ cls_eqb); assumption.
  - apply (leqb_eq _ Z.eqb); [|assumption]. apply Forall_forall. intros x _ y. apply Z.eqb_eq.
  - apply (leqb_eq _ cls_eqb); assumption.
  - apply (leqb_eq _ pair_eqb); [|assumption]. apply Forall_forall. intros [x y] _ [x' y'] E. unfold pair_eqb in E. cbn in E.
    f_equal; lia.
Qed.
Lemma push_union : forall ci x l v, cls_has ci (CSet (push_into_set x l)) v = cls_has ci (CSet l) v || cls_has ci x v.
Proof.
  intros ci x l v. unfold push_into_set. destruct (existsb (cls_eqb x) l) eqn:E; cbn [cls_has].
  - apply existsb_exists in E as (y & H1 & H2). apply cls_eqb_eq in H2 as <-.
    destruct (existsb (fun c => cls_has ci c v) l) eqn:E; [reflexivity|].
    destruct (cls_has ci x v) eqn:E'; [|reflexivity]. exfalso. rewrite <- not_true_iff_false, existsb_exists in E. eauto.
  - rewrite existsb_app. cbn [existsb]. rewrite orb_false_r. reflexivity.
Qed.
(** So a set built from the items [xs] in this order accepts exactly what some item accepts. *)
Lemma set_union : forall ci xs x0 v,
  cls_has ci (CSet (fold_left (fun l x => push_into_set x l) xs [x0])) v = existsb (fun x => cls_has ci x v) (x0 :: xs).
Proof.
  intros ci xs x0 v.
  assert (G : forall l, cls_has ci (CSet (fold_left (fun l x => push_into_set x l) xs l)) v =
    cls_has ci (CSet l) v || existsb (fun x => cls_has ci x v) xs).
  { clear x0. induction xs as [|x xs IH]; intros l; cbn [fold_left existsb]; [rewrite orb_false_r; reflexivity|].
    rewrite IH, push_union. rewrite orb_assoc. reflexivity. }
  rewrite G. cbn [cls_has existsb]. rewrite orb_false_r. reflexivity.
Qed.
