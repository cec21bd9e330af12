(** When the library finds the match preferred by the usual backtracking order although the body of a
    repetition has several outcomes: what follows the body decides between them. The rule of ModeCut.v
    ([mtame_check]) looks at a body alone and asks for at most one outcome; here it is enough that at most
    the preferred one can be continued. *)
From Coq Require Import List ZArith NArith Bool Lia Arith ZifyBool ZifyN ZifyNat.
From Verif Require Import Chars Syntax First View Eval Api Spec CharProofs EvalMono EvalInv EvalSem SpecProps
  EvalRefine SpecCut ApiProofs EvalTop OptProofs Checks EvalSound Match Mode ModeSem ModeSound ModeEnum ModeRefine ModeCut.
Import ListNotations.

(** * What is known about the positions from which the rest can match *)

(** All of them; nothing; the next character is covered by [h] (or, if [e], it is the end). *)
Inductive ctx := KAll | KAny | KIn (e : bool) (h : list fitem).

Definition weak (k : ctx) : ctx := match k with KAll => KAny | _ => k end.
Definition join (a b : ctx) : ctx :=
  match a, b with
  | KAll, _ | _, KAll => KAll
  | KIn e h, KIn e' h' => KIn (e || e') (h ++ h')
  | _, _ => KAny
  end.
Definition meet (a b : ctx) : ctx := match a with KIn _ _ => a | _ => weak b end.
Definition at_last (k : ctx) : ctx := match k with KIn e _ => KIn e [] | _ => KIn true [] end.

(** No position fits both. *)
Definition disjoint (a b : ctx) : bool :=
  match a, b with
  | KIn e h, KIn e' h' =>
      negb (e && e') && forallb item_ok h && forallb item_ok h' &&
      match collides h h' with Some false => true | _ => false end
  | _, _ => false
  end.

(** Items covering the characters of a class. *)
Definition range_items (a b : Z) : list fitem := if (a <=? b)%Z then [FCls (CRange a b)] else [].
Definition both_cases (l : Z) : list fitem := [FCls (CChar l); FCls (CChar (swap_case l))].
Fixpoint hit (ci : bool) (c : cls) : list fitem :=
  if caseless ci c then [FCls c]
  else match c with
       | CChar l => both_cases l
       | CRange a b => FCls c :: range_items (Z.max 65 (a - 32)) (Z.min 90 (b - 32))
                              ++ range_items (Z.max 97 (a + 32)) (Z.min 122 (b + 32))
       | CEnum vs => flat_map both_cases vs
       | CSet l => flat_map (hit ci) l
       | _ => [FAny]
       end.

Section Heads.
Variable M : list modes.

Definition cover (c : cls) : ctx := KIn false (flat_map (fun m => hit (snd m) c) M).
Definition line_end (k : ctx) : ctx :=
  if forallb (fun m => negb (fst m)) M then at_last k else meet k (KIn true [FCls (CChar 10)]).

(** Where [r] followed by something known to fit [k] can match. *)
Fixpoint fheads (r : re) (k : ctx) : ctx :=
  let fheads_l := fix fheads_l (l : list re) (k : ctx) : ctx :=
    match l with [] => k | x :: xs => fheads x (fheads_l xs k) end in
  match r with
  | RCls c => cover c
  | RAny => KIn false (if forallb fst M then [FCls (CNeg [CChar 10])] else [FAny])
  | RStr (c :: _) => cover (CChar c)
  | RSelect l => fold_right (fun x acc => join (fheads x k) acc) (KIn false []) l
  | RSeq l | RCap _ l | RNCap _ _ l => fheads_l l k
  | RAtomic l => fheads_l l (weak k)
  | RReject => KIn false []
  | RRep _ a _ l => if N.eqb a 0 then join (weak (fheads_l l KAny)) k else weak (fheads_l l KAny)
  | RStr [] | REmpty | RMode _ => k
  | RAhead false l => meet k (fheads_l l KAny)
  | RAhead true _ | RBehind _ _ | RBound _ | RNotBound _ => weak k
  | RAssert ASubjectEnd => at_last k
  | RAssert ASubjectEndLine | RAssert ALineEnd => line_end k
  | RAssert _ => weak k
  | RBack _ | RNBack _ => KAny
  end.
Fixpoint fheads_l (l : list re) (k : ctx) : ctx :=
  match l with [] => k | x :: xs => fheads x (fheads_l xs k) end.

(** * The checks *)
Definition fixed (a b : N) : bool := N.eqb a b && negb (N.eqb a 0).

(** At most one outcome of [r] is at a position that fits [k]. *)
Fixpoint ucheck (r : re) (k : ctx) : bool :=
  let useq := fix useq (l : list re) (k : ctx) : bool :=
    match l with [] => true | x :: xs => ucheck x (fheads_l xs k) && useq xs k end in
  let usel := fix usel (l : list re) : bool :=
    match l with
    | [] => true
    | x :: xs => ucheck x k && usel xs &&
                 match xs with [] => true | _ => disjoint (fheads x k) (fheads (RSelect xs) k) end
    end in
  match r with
  | RSelect l => usel l
  | RSeq l | RCap _ l | RNCap _ _ l => useq l k
  | RRep Possessive _ _ _ => true
  | RRep _ a b l => fixed a b || disjoint (fheads_l l KAny) k
  | _ => true
  end.
Fixpoint useq (l : list re) (k : ctx) : bool :=
  match l with [] => true | x :: xs => ucheck x (fheads_l xs k) && useq xs k end.
Fixpoint usel (k : ctx) (l : list re) : bool :=
  match l with
  | [] => true
  | x :: xs => ucheck x k && usel k xs &&
               match xs with [] => true | _ => disjoint (fheads x k) (fheads (RSelect xs) k) end
  end.

(** Only the preferred outcome of [r] can be at a position that fits [k]. *)
Fixpoint fdcheck (r : re) (k : ctx) : bool :=
  let fdseq := fix fdseq (l : list re) (k : ctx) : bool :=
    match l with
    | [] => true
    | x :: xs => (fdcheck x (fheads_l xs k) || ucheck x (fheads_l xs KAny)) && fdseq xs k
    end in
  let fdsel := fix fdsel (l : list re) : bool :=
    match l with
    | [] => true
    | x :: xs => fdcheck x k && fdsel xs &&
                 match xs with [] => true | _ => disjoint (fheads x KAny) (fheads (RSelect xs) k) end
    end in
  match k with KAll => true | _ =>
  match r with
  | RSelect l => fdsel l
  | RSeq l | RCap _ l | RNCap _ _ l => fdseq l k
  | RRep Possessive _ _ _ => true
  | RRep Greedy a b l => fixed a b || disjoint (fheads_l l KAny) k
  | RRep Lazy a b l => fixed a b
  | _ => true
  end end.
Fixpoint fdseq (l : list re) (k : ctx) : bool :=
  match l with
  | [] => true
  | x :: xs => (fdcheck x (fheads_l xs k) || ucheck x (fheads_l xs KAny)) && fdseq xs k
  end.
Fixpoint fdsel (k : ctx) (l : list re) : bool :=
  match l with
  | [] => true
  | x :: xs => fdcheck x k && fdsel k xs &&
               match xs with [] => true | _ => disjoint (fheads x KAny) (fheads (RSelect xs) k) end
  end.

(** What follows the body of a repetition with bounds [a] and [b] that is followed by [k]. *)
Definition after_body (a b : N) (l : list re) (k : ctx) : ctx :=
  if N.eqb b 1 && N.leb a 1 then k else
  match k with
  | KAll => if N.leb a 1 then KAll else KAny
  | _ => join (weak (fheads_l l KAny)) k
  end.

(** The first outcome of [r] that fits [k] is the same in both disciplines. *)
Fixpoint acheck (r : re) (k : ctx) : bool :=
  let aseq := fix aseq (l : list re) (k : ctx) : bool :=
    match l with [] => true | x :: xs => acheck x (fheads_l xs k) && aseq xs k end in
  mtame_check M r ||
  match r with
  | RSelect l => forallb (fun x => acheck x k) l
  | RSeq l | RCap _ l | RNCap _ _ l => aseq l k
  | RAhead _ l => aseq l KAll
  | RAtomic l => existsb consuming l && aseq l KAll
  | RRep kd a b l =>
      let k' := after_body a b l (match kd with Possessive => KAll | _ => k end) in
      existsb consuming l && aseq l k' && fdcheck (RSeq l) k'
  | _ => true
  end.
Fixpoint aseq (l : list re) (k : ctx) : bool :=
  match l with [] => true | x :: xs => acheck x (fheads_l xs k) && aseq xs k end.
End Heads.

Lemma ucheck_select : forall M k l, ucheck M (RSelect l) k = usel M k l.
Proof. intros M k l. induction l as [|x l IH]; [reflexivity|]. cbn [usel]. rewrite <- IH. reflexivity. Qed.
Lemma fdcheck_select : forall M k l, k <> KAll -> fdcheck M (RSelect l) k = fdsel M k l.
Proof.
  intros M k l Hk. induction l as [|x l IH]; [destruct k; reflexivity|]. cbn [fdsel]. rewrite <- IH.
  destruct k; [congruence|reflexivity|reflexivity].
Qed.

(** * Lists *)
Definition some {A} (o : option A) : bool := match o with Some _ => true | None => false end.

Lemma find_app : forall A (P : A -> bool) l1 l2,
  find P (l1 ++ l2) = match find P l1 with Some x => Some x | None => find P l2 end.
Proof. intros A P l1 l2. induction l1 as [|x l1 IH]; [reflexivity|]. cbn. destruct (P x); auto. Qed.
Lemma find_flat : forall A B (P : B -> bool) (g : A -> list B) l,
  find P (flat_map g l) = match find (fun m => existsb P (g m)) l with Some m => find P (g m) | None => None end.
Proof.
  intros A B P g l. induction l as [|x l IH]; [reflexivity|]. cbn. rewrite find_app, IH.
  destruct (find P (g x)) as [y|] eqn:E.
  - apply find_some in E as E'. replace (existsb P (g x)) with true; [rewrite E; reflexivity|].
    symmetry. apply existsb_exists. exists y. exact E'.
  - replace (existsb P (g x)) with false; [reflexivity|]. symmetry. apply not_true_is_false. intros H.
    apply existsb_exists in H as (y & H1 & H2). rewrite (find_none _ _ E y H1) in H2. discriminate.
Qed.
Lemma find_ext_in : forall A (P Q : A -> bool) l, (forall x, In x l -> P x = Q x) -> find P l = find Q l.
Proof.
  intros A P Q l H. induction l as [|x l IH]; [reflexivity|]. cbn. rewrite <- H by (left; reflexivity).
  rewrite IH by (intros; apply H; right; assumption). reflexivity.
Qed.
Lemma existsb_ext_in : forall A (P Q : A -> bool) l, (forall x, In x l -> P x = Q x) -> existsb P l = existsb Q l.
Proof.
  intros A P Q l H. induction l as [|x l IH]; [reflexivity|]. cbn. rewrite <- H by (left; reflexivity).
  rewrite IH by (intros; apply H; right; assumption). reflexivity.
Qed.
Lemma existsb_find : forall A (P : A -> bool) l, existsb P l = some (find P l).
Proof. intros A P l. induction l as [|x l IH]; [reflexivity|]. cbn. destruct (P x); auto. Qed.
Lemma find_map : forall A B (g : A -> B) (P : B -> bool) l,
  find P (map g l) = option_map g (find (fun x => P (g x)) l).
Proof. intros A B g P l. induction l as [|x l IH]; [reflexivity|]. cbn. destruct (P (g x)); auto. Qed.
Lemma existsb_map : forall A B (g : A -> B) (P : B -> bool) l, existsb P (map g l) = existsb (fun x => P (g x)) l.
Proof. intros A B g P l. induction l as [|x l IH]; [reflexivity|]. cbn. rewrite IH. reflexivity. Qed.
Lemma hd_map : forall A B (g : A -> B) l, hd_error (map g l) = option_map g (hd_error l).
Proof. intros A B g [|x l]; reflexivity. Qed.
Lemma filter_map' : forall A B (g : A -> B) (P : B -> bool) l, filter P (map g l) = map g (filter (fun x => P (g x)) l).
Proof. intros A B g P l. induction l as [|x l IH]; [reflexivity|]. cbn. destruct (P (g x)); cbn; rewrite IH; reflexivity. Qed.
Lemma find_true : forall A (l : list A), find (fun _ => true) l = hd_error l.
Proof. intros A [|x l]; reflexivity. Qed.

(** The first element that passes, if any, is the first of all. *)
Definition first_only {A} (P : A -> bool) (l : list A) : Prop := find P l = None \/ find P l = hd_error l.
Definition one_only {A} (P : A -> bool) (l : list A) : Prop := length (filter P l) <= 1.

Lemma one_small : forall A (P : A -> bool) l, length l <= 1 -> one_only P l.
Proof. intros A P [|x [|y l]] H; unfold one_only; cbn in *; try lia. destruct (P x); cbn; lia. Qed.
Lemma first_small : forall A (P : A -> bool) l, length l <= 1 -> first_only P l.
Proof. intros A P [|x [|y l]] H; unfold first_only; cbn in *; try lia; auto. destruct (P x); auto. Qed.
Lemma none_existsb : forall A (P : A -> bool) l, existsb P l = false -> find P l = None /\ filter P l = [].
Proof.
  intros A P l. induction l as [|x l IH]; [auto|]. cbn. intros H. apply orb_false_iff in H as [-> H]. auto.
Qed.
Lemma filter_flat : forall A B (P : B -> bool) (g : A -> list B) l, filter P (flat_map g l) = flat_map (fun x => filter P (g x)) l.
Proof.
  intros A B P g l. induction l as [|x l IH]; [reflexivity|]. cbn. rewrite filter_app, IH. reflexivity.
Qed.
Lemma one_flat : forall A B (P : B -> bool) (g : A -> list B) l, one_only (fun x => existsb P (g x)) l ->
  (forall x, In x l -> one_only P (g x)) -> one_only P (flat_map g l).
Proof.
  intros A B P g l H Hg. unfold one_only in *. rewrite filter_flat. induction l as [|x l IH]; [cbn; lia|].
  cbn [filter flat_map] in *. rewrite app_length.
  assert (I : forall y, In y l -> length (filter P (g y)) <= 1) by (intros; apply Hg; right; assumption).
  specialize (Hg x ltac:(left; reflexivity)).
  destruct (existsb P (g x)) eqn:E.
  - cbn [length] in H. assert (Z : flat_map (fun x => filter P (g x)) l = []); [|rewrite Z; cbn [length]; lia].
    clear - H. induction l as [|y l IH]; [reflexivity|]. cbn [filter flat_map] in *.
    destruct (existsb P (g y)) eqn:E; [cbn in H; lia|]. destruct (none_existsb _ _ _ E) as [_ ->]. cbn. auto.
  - destruct (none_existsb _ _ _ E) as [_ ->]. cbn [length]. auto.
Qed.
Lemma first_flat : forall A B (P : B -> bool) (g : A -> list B) l, first_only (fun x => existsb P (g x)) l ->
  (forall x, In x l -> first_only P (g x)) -> first_only P (flat_map g l).
Proof.
  intros A B P g l H Hg. unfold first_only in *. rewrite find_flat.
  destruct (find (fun m => existsb P (g m)) l) as [m|] eqn:E; [|auto].
  destruct H as [H|H]; [discriminate|]. destruct l as [|x l]; [discriminate|]. cbn in H. injection H as ->.
  apply find_some in E as [_ E]. specialize (Hg x ltac:(left; reflexivity)). rewrite existsb_find in E.
  destruct (find P (g x)) as [y|]; [|discriminate]. destruct Hg as [Hg|Hg]; [discriminate|]. right.
  cbn. destruct (g x); [discriminate|]. exact Hg.
Qed.
(** Only one [x] contributes anything. *)
Lemma first_flat_one : forall A B (P : B -> bool) (g : A -> list B) l,
  one_only (fun x => existsb (fun _ => true) (g x)) l ->
  (forall x, In x l -> first_only P (g x)) -> first_only P (flat_map g l).
Proof.
  intros A B P g l H Hg. induction l as [|x l IH]; [left; reflexivity|]. cbn [flat_map].
  unfold one_only in *. cbn [filter] in H. destruct (g x) as [|y ys] eqn:E.
  - cbn in H |- *. apply IH; [assumption|]. intros; apply Hg; right; assumption.
  - cbn [existsb orb length] in H. assert (Z : flat_map g l = []).
    { clear - H. induction l as [|z l IH]; [reflexivity|]. cbn [filter flat_map] in *.
      destruct (g z); cbn in *; [auto|lia]. }
    rewrite Z, app_nil_r, <- E. apply Hg. left. reflexivity.
Qed.

Section Follow.
Variables (s : list Z) (M : list modes) (names : list Z -> option nat).
Hypothesis s_ok : forallb val_ok s = true.
Notation menumT := (menum s names true).
Notation menumF := (menum s names false).
Notation menumsT := (menums s names true).
Notation menumsF := (menums s names false).
Notation bT := (mbody s names true).
Notation bF := (mbody s names false).
Notation len := (length s).
Notation st_ok := (st_ok s).
Notation closed := (closed M).
Notation closeds := (closeds M).
Notation pos x := (fst (@snd modes state x)).

Definition valid (x : mstate) : Prop := In (fst x) M /\ st_ok (snd x).
Definition fits (e : bool) (h : list fitem) (p : nat) : Prop :=
  match nth_error s p with Some v => fin h v = true | None => e = true end.
Definition compat (k : ctx) (T : mstate -> bool) : Prop :=
  match k with
  | KAll => forall y, valid y -> T y = true
  | KAny => True
  | KIn e h => forall y, valid y -> T y = true -> fits e h (pos y)
  end.

Lemma menum_valid : forall cut r x y, closed r -> valid x -> In y (menum s names cut r x) -> valid y.
Proof.
  intros cut r x y C [V1 V2] H. split; [exact (menum_modes _ _ _ _ _ C _ _ V1 H)|].
  apply (menum_forth _ _ _ _ _ _ H V2).
Qed.
Lemma menums_valid : forall cut l x y, closeds l -> valid x -> In y (menums s names cut l x) -> valid y.
Proof. intros cut l. exact (menum_valid cut (RSeq l)). Qed.

(** * Contexts *)
Lemma fits_l : forall e h e' h' p, fits e h p -> fits (e || e') (h ++ h') p.
Proof.
  unfold fits. intros e h e' h' p H. destruct (nth_error s p); [|rewrite H; reflexivity].
  rewrite fin_app, H. reflexivity.
Qed.
Lemma fits_r : forall e h e' h' p, fits e' h' p -> fits (e || e') (h ++ h') p.
Proof.
  unfold fits. intros e h e' h' p H. destruct (nth_error s p); [|rewrite H; apply orb_true_r].
  rewrite fin_app, H. apply orb_true_r.
Qed.
Lemma compat_ext : forall k T T', (forall y, valid y -> T y = T' y) -> compat k T -> compat k T'.
Proof.
  intros [] T T' H C; cbn in *; auto.
  - intros y V. rewrite <- H by assumption. auto.
  - intros y V Hy. apply C; [assumption|]. rewrite H; assumption.
Qed.
(** Fewer positions. *)
Lemma compat_weak : forall k T T', compat k T -> (forall y, valid y -> T' y = true -> T y = true) -> compat (weak k) T'.
Proof. intros [] T T' C H; cbn in *; auto. Qed.
Lemma compat_join : forall a b T, compat a T -> forall T', compat b T' -> compat (join a b) (fun y => T y || T' y).
Proof.
  intros a b T Ca T' Cb. destruct a as [| |e h], b as [| |e' h']; cbn in *; auto; intros y V.
  - rewrite Ca by assumption. reflexivity.
  - rewrite Ca by assumption. reflexivity.
  - rewrite Ca by assumption. reflexivity.
  - rewrite Cb by assumption. apply orb_true_r.
  - rewrite Cb by assumption. apply orb_true_r.
  - intros H. apply orb_true_iff in H as [H|H]; [apply fits_l | apply fits_r]; auto.
Qed.
Lemma compat_meet : forall a b T T' U, compat a T -> compat b T' ->
  (forall y, valid y -> U y = true -> T y = true) -> (forall y, valid y -> U y = true -> T' y = true) ->
  compat (meet a b) U.
Proof.
  intros a b T T' U Ca Cb H1 H2. destruct a; [| |cbn in *; auto]; exact (compat_weak b T' U Cb H2).
Qed.
Lemma compat_last : forall k T U, compat k T -> (forall y, valid y -> U y = true -> T y = true) ->
  (forall y, valid y -> U y = true -> pos y = len) -> compat (at_last k) U.
Proof.
  intros k T U C H1 H2. assert (N : forall y, valid y -> U y = true -> nth_error s (pos y) = None).
  { intros y V Hy. rewrite (H2 y V Hy). apply nth_error_None. lia. }
  destruct k; cbn in *; intros y V Hy; unfold fits; rewrite (N y V Hy); auto.
  specialize (C y V (H1 y V Hy)). unfold fits in C. rewrite (N y V Hy) in C. assumption.
Qed.
Lemma disjoint_sound : forall a b T T' y, disjoint a b = true -> compat a T -> compat b T' -> valid y ->
  T y = true -> T' y = true -> False.
Proof.
  intros a b T T' y D Ca Cb V H H'. destruct a as [| |e h], b as [| |e' h']; try discriminate.
  cbn [disjoint] in D. apply andb_true_iff in D as [D D4]. apply andb_true_iff in D as [D D3].
  apply andb_true_iff in D as [D1 D2]. destruct (collides h h') as [[]|] eqn:E; try discriminate.
  specialize (Ca y V H). specialize (Cb y V H'). unfold fits in *.
  destruct (nth_error s (pos y)) as [v|] eqn:Ev.
  - rewrite (no_collision h h' v) in Cb; auto; [discriminate|].
    rewrite forallb_forall in s_ok. apply s_ok. eapply nth_error_In. exact Ev.
  - subst. discriminate.
Qed.

(** * Heads *)
Lemma range_items_has : forall a b v, (a <= v <= b)%Z -> fin (range_items a b) v = true.
Proof.
  intros a b v H. unfold range_items. destruct (Z.leb_spec a b); [|lia]. unfold fin. cbn [existsb has cls_has].
  unfold fold_test. cbn [andb]. rewrite !orb_false_r. lia.
Qed.
Lemma both_cases_has : forall l v, lit_has true l v = true -> fin (both_cases l) v = true.
Proof.
  intros l v H. unfold lit_has, fold_test in H. unfold fin, both_cases. cbn [existsb has cls_has].
  unfold lit_has, fold_test. cbn [andb]. rewrite !orb_false_r.
  apply orb_true_iff in H as [H|H]; [rewrite H; reflexivity|]. cbn [andb] in H. apply Z.eqb_eq in H. subst l.
  rewrite swap_swap, (Z.eqb_refl v). apply orb_true_r.
Qed.
Lemma fin_flat : forall A (g : A -> list fitem) l x v, In x l -> fin (g x) v = true -> fin (flat_map g l) v = true.
Proof.
  intros A g l x v H Hx. induction l as [|y l IH]; [contradiction|]. cbn [flat_map]. rewrite fin_app.
  destruct H as [->|H]; [rewrite Hx; reflexivity | rewrite (IH H); apply orb_true_r].
Qed.
Lemma hit_has : forall ci c v, cls_has ci c v = true -> fin (hit ci c) v = true.
Proof.
  intros ci c v. induction c as [l|a b|l IH|l IH|vs|l IH|t] using cls_ind2; intros H;
    (match goal with |- context [hit ci ?c] => destruct (caseless ci c) eqn:E end;
     [rewrite caseless_has in H by assumption; cbn [hit]; rewrite E; unfold fin; cbn [existsb has]; rewrite H; reflexivity|]);
    cbn [hit]; rewrite E; try reflexivity; try (destruct ci; [|discriminate]).
  - apply both_cases_has. exact H.
  - cbn [cls_has] in H. unfold fold_test in H. cbn [andb] in H.
    change (FCls (CRange a b) :: ?x) with ([FCls (CRange a b)] ++ x). rewrite !fin_app.
    destruct ((a <=? v)%Z && (v <=? b)%Z)%bool eqn:E1.
    { replace (fin [FCls (CRange a b)] v) with true; [reflexivity|]. unfold fin. cbn [existsb has cls_has].
      unfold fold_test. rewrite E1. reflexivity. }
    cbn [orb] in H. unfold swap_case in H.
    destruct ((65 <=? v) && (v <=? 90))%Z eqn:E2; [|destruct ((97 <=? v) && (v <=? 122))%Z eqn:E3; [|congruence]].
    + rewrite (range_items_has (Z.max 65 (a - 32)) (Z.min 90 (b - 32))) by lia. rewrite orb_true_r. reflexivity.
    + rewrite (range_items_has (Z.max 97 (a + 32)) (Z.min 122 (b + 32))) by lia. rewrite !orb_true_r. reflexivity.
  - cbn [cls_has] in H. apply existsb_exists in H as (c & H1 & H2). rewrite Forall_forall in IH.
    exact (fin_flat _ _ _ _ _ H1 (IH c H1 H2)).
  - cbn [cls_has] in H. apply existsb_exists in H as (x & H1 & H2).
    exact (fin_flat _ _ _ _ _ H1 (both_cases_has x v H2)).
Qed.

Lemma existsb_in : forall A (P : A -> bool) l, existsb P l = true -> exists y, In y l /\ P y = true.
Proof. intros A P l. apply existsb_exists. Qed.

Lemma rep_shape : forall cut body kd a b st m, In m (iterate s cut body kd a b st) ->
  (a = 0%N /\ m = st) \/ exists m1, In m1 (body st).
Proof.
  intros cut body kd a b st m H. unfold iterate in H.
  destruct (negb (N.eqb b 0) && N.ltb b a)%bool; [contradiction|].
  assert (Mn : forall x, In x (mandatory cut body (N.to_nat a) st) ->
            (a = 0%N /\ x = st) \/ exists m1, In m1 (body st)).
  { intros x Hx. destruct (N.to_nat a) as [|k] eqn:E.
    - destruct Hx as [<-|[]]. left. split; [lia|reflexivity].
    - cbn [mandatory] in Hx. apply in_flat_map in Hx as (m1 & H1 & _).
      apply (keep_in cut), (progress_in s names) in H1. right. eauto. }
  assert (Gr : forall n, In m (more_greedy cut body (S n) b a st) -> m = st \/ exists m1, In m1 (body st)).
  { intros n Hm. cbn [more_greedy] in Hm. apply in_app_iff in Hm as [Hm|[Hm|[]]]; [|auto].
    destruct (N.eqb b 0 || N.ltb a b)%bool; [|contradiction].
    apply in_flat_map in Hm as (m1 & H1 & _). apply (keep_in cut), filter_In in H1. right. exists m1. tauto. }
  assert (Lz : forall n, In m (more_lazy cut body (S n) b a st) -> m = st \/ exists m1, In m1 (body st)).
  { intros n Hm. cbn [more_lazy] in Hm. destruct Hm as [Hm|Hm]; [auto|].
    destruct (N.eqb b 0 || N.ltb a b)%bool; [|contradiction].
    apply in_flat_map in Hm as (m1 & H1 & _). apply (keep_in cut), filter_In in H1. right. exists m1. tauto. }
  destruct kd; [| |apply firstn1_in in H]; apply in_flat_map in H as (x & H1 & H2);
    (destruct (Mn x H1) as [[Ha ->]|HM]; [|right; assumption]).
  - destruct (Gr _ H2); auto.
  - destruct (Lz _ H2); auto.
  - destruct (Gr _ H2); auto.
Qed.
(** No iteration is needed. *)
Lemma rep_zero : forall cut body kd b st, iterate s cut body kd 0 b st <> [].
Proof.
  intros cut body kd b st. unfold iterate. replace (negb (N.eqb b 0) && N.ltb b 0)%bool with false by lia.
  change (N.to_nat 0) with 0. cbn [mandatory flat_map]. rewrite app_nil_r.
  destruct kd; [apply mg_not_nil | discriminate | ].
  pose proof (mg_not_nil cut body (len - fst st) b 0 st) as H.
  destruct (more_greedy cut body (S (len - fst st)) b 0 st); [contradiction|discriminate].
Qed.

Lemma weak_not_all : forall k, weak k <> KAll.
Proof. intros []; discriminate. Qed.
Lemma fheads_not_all : forall r k, k <> KAll -> fheads M r k <> KAll.
Proof.
  assert (W := weak_not_all).
  assert (Jn : forall a b, a <> KAll -> b <> KAll -> join a b <> KAll) by (intros [] []; cbn; congruence).
  assert (Me : forall a b, meet a b <> KAll) by (intros [] []; cbn; congruence).
  assert (La : forall a, at_last a <> KAll) by (intros []; cbn; congruence).
  induction r as
    [ | r l IHr IHl | c | | t | l IH | l IH | | | kd a b l IH | id l IH | id nm l IH | id | nm
    | neg l IH | neg l IH | l IH | c | c | a | md ]
    using re_ind2 with (Q := fun l => forall k, k <> KAll -> fheads_l M l k <> KAll /\ fheads M (RSelect l) k <> KAll);
    intros k Hk; try discriminate; try exact Hk; try apply W.
  - split; [exact Hk | discriminate].
  - destruct (IHl k Hk) as [I1 I2]. split; [apply IHr; exact I1|].
    apply Jn; [apply IHr; exact Hk | exact I2].
  - destruct t; [exact Hk|discriminate].
  - apply (IH k Hk).
  - apply (IH k Hk).
  - cbn [fheads]. fold (fheads_l M). destruct (N.eqb a 0); [|apply W]. apply Jn; [apply W|exact Hk].
  - apply (IH k Hk).
  - apply (IH k Hk).
  - destruct neg; [apply W | apply Me].
  - apply (IH (weak k) (W k)).
  - destruct a; cbn [fheads]; try apply W; try apply La; unfold line_end;
      destruct (forallb (fun m => negb (fst m)) M); (apply La || apply Me).
Qed.

Section FHeads.
Variable cut : bool.
Notation menum := (menum s names cut).
Notation menums := (menums s names cut).
Notation after r T := (fun x => existsb T (menum r x)).

(** Pointwise. *)
Lemma compat_pt : forall k T, (forall x, valid x -> exists P, compat k P /\ (T x = true -> P x = true) /\ (P x = true -> T x = true)) ->
  compat k T.
Proof.
  intros [] T H; cbn in *; [|exact I|]; intros y V; destruct (H y V) as (P & H1 & H2 & H3); auto.
Qed.
(** Groups: the state after closing group [id], opened at [p]. *)
Definition close (id p : nat) (y : mstate) : mstate := (fst y, (pos y, (id, (p, pos y)) :: snd (snd y))).
Definition closing (id p : nat) (T : mstate -> bool) (y : mstate) : bool :=
  if Nat.leb p (pos y) then T (close id p y) else T y.
Lemma close_valid : forall id p y, valid y -> p <= pos y -> valid (close id p y).
Proof.
  intros id p y [V1 V2] H. split; [exact V1|]. destruct V2 as [V2 V3]. split; [exact V2|]. constructor; [|exact V3].
  exact (conj H V2).
Qed.
Lemma closing_compat : forall k id p T, compat k T -> compat k (closing id p T).
Proof.
  intros k id p T H. destruct k as [| |e h]; cbn in *; [|exact I|]; intros y V; unfold closing;
    (destruct (Nat.leb_spec p (pos y)) as [L|L]; [|auto]).
  - apply H. apply close_valid; assumption.
  - intros Hy. exact (H _ (close_valid id p y V L) Hy).
Qed.
Lemma closing_at : forall id x T y, valid x -> (exists cut l, In y (ModeEnum.menums s names cut l x)) ->
  T (close id (pos x) y) = closing id (pos x) T y.
Proof.
  intros id x T y [_ V] (c & l & H). unfold closing. apply (menums_forth _ _ _ _ _ _ H) in V. destruct V as [_ V].
  destruct (Nat.leb_spec (pos x) (pos y)) as [L|L]; [reflexivity|]. unfold mstate, state in *. lia.
Qed.
(** The mode is restored. *)
Lemma restore_compat : forall k m T, In m M -> compat k T -> compat k (fun y => T (m, snd y)).
Proof.
  intros [] m T Hm H; cbn in *; [|exact I|]; intros y [V1 V2]; [apply H; split; assumption|].
  intros Hy. exact (H (m, snd y) (conj Hm V2) Hy).
Qed.

Lemma zero_width : forall r k T, (forall x y, In y (menum r x) -> y = x) -> compat k T -> compat (weak k) (after r T).
Proof.
  intros r k T H C. eapply compat_weak; [exact C|]. intros y V Hy. apply existsb_in in Hy as (z & H1 & H2).
  rewrite <- (H y z H1). exact H2.
Qed.
Lemma leaf_zero : forall r, (forall ml ci st st', In st' (enum s ml ci names cut r st) -> st' = st) ->
  forall (x y : mstate), In y (map (pair (fst x)) (enum s (fst (fst x)) (snd (fst x)) names cut r (snd x))) -> y = x.
Proof. intros r H [m st] y Hy. apply in_map_iff in Hy as (st' & <- & Hy). cbn [fst snd] in *. rewrite (H _ _ _ _ Hy). reflexivity. Qed.
Lemma cover_sound : forall c ci p v, nth_error s p = Some v -> cls_has ci c v = true -> (exists ml, In (ml, ci) M) ->
  fits false (flat_map (fun m => hit (snd m) c) M) p.
Proof.
  intros c ci p v H1 H2 (ml & Hm). unfold fits. rewrite H1.
  exact (fin_flat _ _ _ _ _ Hm (hit_has ci c v H2)).
Qed.

Lemma fheads_sound : forall r, closed r -> forall k T, compat k T -> compat (fheads M r k) (after r T).
Proof.
  induction r as
    [ | r l IHr IHl | c | | t | l IH | l IH | | | kd a b l IH | id l IH | id nm l IH | id | nm
    | neg l IH | neg l IH | l IH | c | c | a | md ]
    using re_ind2 with (Q := fun l => closeds l -> forall k T, compat k T ->
      compat (fheads_l M l k) (fun x => existsb T (menums l x)) /\
      compat (fheads M (RSelect l) k) (after (RSelect l) T)).
  - intros _ k T HT. split.
    + eapply compat_ext; [|exact HT]. intros y _. cbn. rewrite orb_false_r. reflexivity.
    + intros y _ H. discriminate.
  - intros [C1 C2] k T HT. destruct (IHl C2 k T HT) as [I1 I2]. split.
    + cbn [fheads_l]. eapply compat_ext; [|exact (IHr C1 _ _ I1)]. intros y _. cbn beta. rewrite menums_cons.
      clear. induction (menum r y) as [|z zs IH]; [reflexivity|]. cbn. rewrite existsb_app, IH. reflexivity.
    + change (fheads M (RSelect (r :: l)) k) with (join (fheads M r k) (fheads M (RSelect l) k)).
      eapply compat_ext; [|exact (compat_join _ _ _ (IHr C1 k T HT) _ I2)]. intros y _. cbn beta.
      rewrite menum_select_cons, existsb_app. reflexivity.
  - (* RCls *)
    intros _ k T HT [m st] [V _] H. apply existsb_in in H as (z & H & _). apply in_map_iff in H as (st' & <- & H).
    apply step_fin in H as (v & V1 & V2 & _). cbn [fst snd] in *. eapply cover_sound; eauto. exists (fst m). destruct m. exact V.
  - (* RAny *)
    intros _ k T HT [m st] [V _] H. apply existsb_in in H as (z & H & _). apply in_map_iff in H as (st' & <- & H).
    apply step_fin in H as (v & V1 & V2 & _). cbn [fst snd] in *. unfold fits. rewrite V1.
    destruct (forallb fst M) eqn:E; [|reflexivity]. rewrite forallb_forall in E. specialize (E m V). unfold dot in V2.
    rewrite E in V2. unfold fin. cbn [existsb has cls_has]. unfold lit_has, fold_test. cbn [andb].
    rewrite !orb_false_r, Z.eqb_sym. exact V2.
  - (* RStr *)
    intros _ k T HT. destruct t as [|c t].
    + eapply compat_ext; [|exact HT]. intros [m st] _. cbn. rewrite orb_false_r. reflexivity.
    + intros [m st] [V _] H. apply existsb_in in H as (z & H & _). apply in_map_iff in H as (st' & <- & H).
      cbn [enum walk fst snd] in H. apply in_flat_map in H as (y & Y1 & _).
      apply step_fin in Y1 as (v & V1 & V2 & _). cbn [fst snd] in *.
      eapply (cover_sound (CChar c) (snd m)); eauto. exists (fst m). destruct m. exact V.
  - intros C k T HT. apply (IH C k T HT).
  - intros C k T HT. apply (IH C k T HT).
  - intros _ k T HT. eapply compat_ext; [|exact HT]. intros [m st] _. cbn. rewrite orb_false_r. reflexivity.
  - intros _ k T HT y _ H. discriminate.
  - (* RRep *)
    intros C k T HT. destruct (IH C KAny (fun _ => true) I) as [I1 _]. cbn [fheads]. fold (fheads_l M).
    assert (B : forall x y, In y (menum (RRep kd a b l) x) ->
      (a = 0%N /\ y = x) \/ existsb (fun _ => true) (menums l x) = true).
    { intros [m st] y H. rewrite menum_rep in H. apply in_map_iff in H as (st' & <- & H). cbn [fst snd] in *.
      destruct (rep_shape _ _ _ _ _ _ _ H) as [[Ha ->]|(m1 & H1)]; [auto|right].
      apply in_map_iff in H1 as (z & _ & H1). apply existsb_exists. eauto. }
    destruct (N.eqb_spec a 0) as [Ha|Ha].
    + assert (D : forall x, after (RRep kd a b l) T x = true -> (existsb (fun _ => true) (menums l x) || T x)%bool = true).
      { intros x H. apply existsb_in in H as (y & Y1 & Y2).
        destruct (B _ _ Y1) as [[_ ->]|H]; [rewrite Y2; apply orb_true_r | rewrite H; reflexivity]. }
      destruct k as [| |e h].
      * destruct (fheads_l M l KAny); intros [m st] V; apply existsb_exists; subst a; rewrite menum_rep;
          cbn [fst snd];
          (pose proof (rep_zero cut (mbody s names cut l m) kd b st) as Z;
           destruct (iterate s cut (mbody s names cut l m) kd 0 b st) as [|z zs] eqn:E; [contradiction|];
           exists (m, z); split; [left; reflexivity|]; apply HT;
           split; [apply V|];
           apply (menum_forth s names cut (RRep kd 0 b l) (m, st) (m, z)); [|apply V];
           rewrite menum_rep; cbn [fst snd]; rewrite E; left; reflexivity).
      * destruct (fheads_l M l KAny); exact I.
      * assert (J0 := compat_join _ _ _ (compat_weak _ _ (fun x => existsb (fun _ => true) (menums l x)) I1 (fun y _ H => H)) T HT).
        destruct (fheads_l M l KAny) as [| |e' h'] eqn:E; [exact I|exact I|].
        cbn [join weak] in *. intros y V H. apply J0; [exact V|]. apply D. exact H.
    + eapply compat_weak; [exact I1|]. intros y V H. apply existsb_in in H as (z & Z1 & _).
      destruct (B _ _ Z1) as [[? _]|H]; [contradiction|exact H].
  - (* RCap *)
    intros C k T HT. cbn [fheads]. fold (fheads_l M). apply compat_pt. intros x V.
    destruct (IH C k (closing id (pos x) T) (closing_compat _ _ _ _ HT)) as [I1 _].
    eexists. split; [exact I1|]. cbn beta. rewrite menum_cap.
    change (fun y => (fst y, _)) with (close id (pos x)). rewrite existsb_map.
    rewrite (existsb_ext_in _ _ (closing id (pos x) T)) by (intros y Hy; apply closing_at; [exact V|eauto]). auto.
  - intros C k T HT. cbn [fheads]. fold (fheads_l M). apply compat_pt. intros x V.
    destruct (IH C k (closing id (pos x) T) (closing_compat _ _ _ _ HT)) as [I1 _].
    eexists. split; [exact I1|]. cbn beta. rewrite menum_ncap.
    change (fun y => (fst y, _)) with (close id (pos x)). rewrite existsb_map.
    rewrite (existsb_ext_in _ _ (closing id (pos x) T)) by (intros y Hy; apply closing_at; [exact V|eauto]). auto.
  - intros _ k T HT. exact I.
  - intros _ k T HT. exact I.
  - (* RAhead *)
    intros C k T HT. destruct neg.
    + apply zero_width; [|exact HT]. intros x y H. rewrite menum_ahead in H. destruct (menums l x); [|contradiction].
      destruct H as [<-|[]]. reflexivity.
    + destruct (IH C KAny (fun _ => true) I) as [I1 _]. cbn [fheads]. fold (fheads_l M).
      assert (X : forall y, after (RAhead false l) T y = true -> valid y ->
        existsb (fun _ => true) (menums l y) = true /\ exists z, valid z /\ T z = true /\ pos z = pos y).
      { intros y H V. rewrite menum_ahead in H. destruct (menums l y) as [|z zs] eqn:E; [discriminate|].
        split; [reflexivity|]. cbn [existsb] in H. rewrite orb_false_r in H.
        exists (fst y, (pos y, snd (snd z))). split; [|split; [exact H|reflexivity]].
        split; [apply V|]. assert (Hz : In z (menums l y)) by (rewrite E; left; reflexivity).
        apply menums_forth in Hz. destruct (Hz (proj2 V)) as [[Z1 Z2] Z3]. split; [apply V | exact Z2]. }
      destruct k as [| |e h]; cbn [meet].
      * eapply compat_weak; [exact I1|]. intros y V H. apply (X y H V).
      * eapply compat_weak; [exact I1|]. intros y V H. apply (X y H V).
      * intros y V H. destruct (X y H V) as [_ (z & Z1 & Z2 & Z3)]. rewrite <- Z3. exact (HT z Z1 Z2).
  - intros _ k T HT. apply zero_width; [|exact HT]. apply leaf_zero. intros ml ci st st' H. cbn [enum] in H.
    destruct neg, (bseq s ml ci l (fst st)); try contradiction; destruct H as [<-|[]]; reflexivity.
  - (* RAtomic *)
    intros C k T HT. cbn [fheads]. fold (fheads_l M).
    assert (X : forall x, after (RAtomic l) T x = true -> existsb (fun y => T (fst x, snd y)) (menums l x) = true).
    { intros [m st] H. rewrite menum_atomic in H. cbn [fst snd] in *. rewrite existsb_map in H.
      apply existsb_in in H as (st' & H1 & H2). apply firstn1_in, (progress_in s names) in H1.
      apply in_map_iff in H1 as (y & <- & H1). apply existsb_exists. eauto. }
    assert (Y : forall x, valid x -> compat (fheads_l M l (weak k)) (fun z => existsb (fun y => T (fst x, snd y)) (menums l z))).
    { intros x V. apply (IH C). eapply compat_weak; [exact (restore_compat k (fst x) T (proj1 V) HT)|auto]. }
    destruct (fheads_l M l (weak k)) as [| |e h] eqn:E; [|exact I|].
    + exfalso. revert E. generalize (weak k) (weak_not_all k). clear. intros k Hk. apply (fheads_not_all (RSeq l) k Hk).
    + intros x V H. exact (Y x V x V (X x H)).
  - intros _ k T HT. apply zero_width; [|exact HT]. apply leaf_zero. intros ml ci st st' H. cbn [enum] in H.
    destruct (boundary s ci c (fst st)); [|contradiction]. destruct H as [<-|[]]; reflexivity.
  - intros _ k T HT. apply zero_width; [|exact HT]. apply leaf_zero. intros ml ci st st' H. cbn [enum] in H.
    destruct (boundary s ci c (fst st)); [contradiction|]. destruct H as [<-|[]]; reflexivity.
  - (* RAssert *)
    intros _ k T HT. assert (Zw : forall x y, In y (menum (RAssert a) x) -> y = x).
    { apply leaf_zero. intros ml ci st st' H. cbn [enum] in H.
      destruct (holds s ml a (fst st)); [|contradiction]. destruct H as [<-|[]]; reflexivity. }
    assert (X : forall y, after (RAssert a) T y = true -> T y = true /\ holds s (fst (fst y)) a (pos y) = true).
    { intros [m st] H. apply existsb_in in H as (z & H1 & H2). rewrite (Zw _ _ H1) in H2. split; [exact H2|].
      apply in_map_iff in H1 as (st' & _ & H1). cbn [enum fst snd] in *. destruct (holds s (fst m) a (fst st)); [reflexivity|contradiction]. }
    assert (Le : (forall y, after (RAssert a) T y = true -> at_end s (pos y) = true \/ (fst (fst y) = true /\ char_after s (Z.eqb 10) (pos y) = true)) ->
      compat (line_end M k) (after (RAssert a) T)).
    { intros H. unfold line_end. destruct (forallb (fun m => negb (fst m)) M) eqn:E.
      - eapply compat_last; [exact HT | intros y V Hy; apply X; exact Hy |]. intros y V Hy.
        destruct (H y Hy) as [H1|[H1 _]]; [apply Nat.eqb_eq; exact H1|]. rewrite forallb_forall in E.
        specialize (E _ (proj1 V)). rewrite H1 in E. discriminate.
      - eapply (compat_meet _ _ T (after (RAssert a) T)); [exact HT | | intros y V Hy; apply X; exact Hy | auto].
        intros y V Hy. unfold fits. destruct (H y Hy) as [H1|[_ H1]].
        + apply Nat.eqb_eq in H1. rewrite H1. replace (nth_error s len) with (@None Z); [reflexivity|].
          symmetry. apply nth_error_None. lia.
        + unfold char_after in H1. destruct (nth_error s (pos y)) as [v|]; [|discriminate].
          unfold fin. cbn [existsb has cls_has]. unfold lit_has, fold_test. cbn [andb]. rewrite H1. reflexivity. }
    destruct a; cbn [fheads]; try (apply zero_width; assumption).
    + eapply compat_last; [exact HT | intros y V Hy; apply X; exact Hy |]. intros y V Hy. apply X in Hy as [_ Hy].
      apply Nat.eqb_eq. exact Hy.
    + apply Le. intros y Hy. apply X in Hy as [_ Hy]. cbn [holds] in Hy. apply orb_true_iff in Hy as [Hy|Hy]; [auto|].
      apply andb_true_iff in Hy as [Hy _]. apply andb_true_iff in Hy. auto.
    + apply Le. intros y Hy. apply X in Hy as [_ Hy]. cbn [holds] in Hy. apply orb_true_iff in Hy as [Hy|Hy]; [auto|].
      apply andb_true_iff in Hy. auto.
  - (* RMode *)
    intros C k T HT. destruct k as [| |e h]; cbn [fheads]; [|exact I|]; intros [m st] [V1 V2]; cbn [fst snd] in *.
    + cbn. rewrite HT; [reflexivity|]. split; [apply C; exact V1|exact V2].
    + intros H. cbn in H. rewrite orb_false_r in H. apply (HT (switch md m, st)); [|exact H]. split; [apply C; exact V1|exact V2].
Qed.
End FHeads.

(** * Outcomes of the library's discipline *)
Section Chain.
  Variable body : state -> list state.

  Lemma mandatory_one : forall k st, length (mandatory true body k st) <= 1.
  Proof.
    induction k as [|k IH]; intros st; [cbn; lia|]. cbn [mandatory]. unfold keep, progress.
    destruct (filter (advances st) (body st)) as [|x l]; [cbn; lia|].
    change (firstn 1 (x :: l)) with [x]. cbn [flat_map]. rewrite app_nil_r. apply IH.
  Qed.
  Lemma fixed_one : forall kd a b st, fixed a b = true -> length (iterate s true body kd a b st) <= 1.
  Proof.
    intros kd a b st H. unfold fixed in H. apply andb_true_iff in H as [H1 H2]. apply N.eqb_eq in H1. subst b.
    apply negb_true_iff in H2. unfold iterate. rewrite N.ltb_irrefl, andb_false_r.
    pose proof (mandatory_one (N.to_nat a) st) as L.
    destruct (mandatory true body (N.to_nat a) st) as [|x [|y l]]; cbn in L; try lia.
    - destruct kd; cbn; lia.
    - cbn [flat_map]. rewrite !app_nil_r. cbn [more_greedy more_lazy]. rewrite H2, N.ltb_irrefl.
      destruct kd; cbn; lia.
  Qed.

  Hypothesis body_ok : forall st st', st_ok st -> In st' (body st) -> st_ok st'.
  Lemma mandatory_ok : forall k st st', st_ok st -> In st' (mandatory true body k st) -> st_ok st'.
  Proof.
    induction k as [|k IH]; intros st st' Hs H; [destruct H as [<-|[]]; assumption|]. cbn [mandatory] in H.
    apply in_flat_map in H as (m & H1 & H2). apply (keep_in true), (progress_in s names) in H1.
    apply (IH m st'); [exact (body_ok _ _ Hs H1) | exact H2].
  Qed.

  (** Where an iteration can start, nothing that passes can follow. *)
  Variable T : state -> bool.
  Hypothesis sep : forall st, st_ok st -> body st <> [] -> T st = false.

  Lemma greedy_chain : forall k b i st, st_ok st ->
    first_only T (more_greedy true body k b i st) /\ one_only T (more_greedy true body k b i st).
  Proof.
    induction k as [|k IH]; intros b i st Hs; [split; [left; reflexivity | unfold one_only; cbn; lia]|].
    cbn [more_greedy]. unfold keep.
    destruct (N.eqb b 0 || N.ltb i b)%bool; [|split; [apply first_small | apply one_small]; cbn; lia].
    destruct (filter (advances st) (body st)) as [|m l] eqn:E; [split; [apply first_small | apply one_small]; cbn; lia|].
    change (firstn 1 (m :: l)) with [m]. cbn [flat_map]. rewrite app_nil_r.
    assert (Hm : In m (body st)) by (apply (filter_In (advances st)); rewrite E; left; reflexivity).
    assert (Ht : T st = false) by (apply sep; [assumption | intros Z; rewrite Z in Hm; contradiction]).
    destruct (IH b (N.succ i) m (body_ok _ _ Hs Hm)) as [I1 I2]. split.
    - unfold first_only in *. rewrite find_app. cbn [find]. rewrite Ht.
      destruct (find T (more_greedy true body k b (N.succ i) m)) as [y|]; [|auto].
      destruct I1 as [I1|I1]; [discriminate|]. right. destruct (more_greedy true body k b (N.succ i) m); [discriminate|exact I1].
    - unfold one_only in *. rewrite filter_app. cbn [filter]. rewrite Ht, app_nil_r. exact I2.
  Qed.
  Lemma lazy_chain : forall k b i st, st_ok st -> one_only T (more_lazy true body k b i st).
  Proof.
    induction k as [|k IH]; intros b i st Hs; [unfold one_only; cbn; lia|].
    cbn [more_lazy]. unfold keep.
    destruct (N.eqb b 0 || N.ltb i b)%bool; [|apply one_small; cbn; lia].
    destruct (filter (advances st) (body st)) as [|m l] eqn:E; [apply one_small; cbn; lia|].
    change (firstn 1 (m :: l)) with [m]. cbn [flat_map]. rewrite app_nil_r.
    assert (Hm : In m (body st)) by (apply (filter_In (advances st)); rewrite E; left; reflexivity).
    assert (Ht : T st = false) by (apply sep; [assumption | intros Z; rewrite Z in Hm; contradiction]).
    unfold one_only. cbn [filter]. rewrite Ht. exact (IH b (N.succ i) m (body_ok _ _ Hs Hm)).
  Qed.
  Lemma loop_chain : forall kd a b st, st_ok st -> one_only T (iterate s true body kd a b st) /\
    (kd <> Lazy -> first_only T (iterate s true body kd a b st)).
  Proof.
    intros kd a b st Hs. unfold iterate. destruct (negb (N.eqb b 0) && N.ltb b a)%bool;
      [split; [apply one_small; cbn; lia | intros _; left; reflexivity]|].
    pose proof (mandatory_one (N.to_nat a) st) as L. pose proof (mandatory_ok (N.to_nat a) st) as Hm.
    destruct (mandatory true body (N.to_nat a) st) as [|x [|y l]]; cbn in L; try lia.
    - destruct kd; (split; [apply one_small; cbn; lia | intros _; left; reflexivity]).
    - cbn [flat_map]. rewrite !app_nil_r. assert (Hx : st_ok x) by (apply Hm; [assumption | left; reflexivity]).
      destruct kd.
      + split; [|intros _]; apply greedy_chain; assumption.
      + split; [apply lazy_chain; assumption | congruence].
      + assert (Z : length (firstn 1 (more_greedy true body (S (len - fst x)) b a x)) <= 1)
          by (rewrite firstn_length; apply Nat.le_min_l).
        split; [apply one_small | intros _; apply first_small]; exact Z.
  Qed.
End Chain.

Lemma leaf_small : forall r x, single false r = true -> 
  (forall ml ci st, enum s ml ci names true r st = enum s ml ci names false r st) ->
  (forall ci, single ci r = true) ->
  length (map (@pair modes state (fst x)) (enum s (fst (fst x)) (snd (fst x)) names true r (snd x))) <= 1.
Proof.
  intros r x _ H Hs. rewrite map_length, H. exact (single_sound s _ _ names s_ok r (Hs _) (snd x)).
Qed.
Ltac leaf_small := match goal with |- length _ <= 1 =>
  apply leaf_small; [reflexivity | reflexivity | reflexivity] end.

Lemma one_ext : forall A (P Q : A -> bool) l, (forall x, In x l -> P x = Q x) -> one_only Q l -> one_only P l.
Proof. intros A P Q l H. unfold one_only. rewrite (filter_ext_in _ _ _ H). auto. Qed.
Lemma first_ext : forall A (P Q : A -> bool) l, (forall x, In x l -> P x = Q x) -> first_only Q l -> first_only P l.
Proof. intros A P Q l H. unfold first_only. rewrite (find_ext_in _ _ _ _ H). auto. Qed.
Lemma one_map : forall A B (g : A -> B) P l, one_only (fun x => P (g x)) l -> one_only P (map g l).
Proof. intros A B g P l. unfold one_only. rewrite filter_map', map_length. auto. Qed.
Lemma first_map : forall A B (g : A -> B) P l, first_only (fun x => P (g x)) l -> first_only P (map g l).
Proof. intros A B g P l. unfold first_only. rewrite find_map, hd_map. intros [->| ->]; auto. Qed.

Lemma rep_small : forall kd a b l x, kd = Possessive \/ fixed a b = true -> length (menumT (RRep kd a b l) x) <= 1.
Proof.
  intros kd a b l x H. rewrite menum_rep, map_length. destruct H as [->|H]; [|apply fixed_one; exact H].
  unfold iterate. destruct (negb (N.eqb b 0) && N.ltb b a)%bool; [cbn; lia|]. rewrite firstn_length. apply Nat.le_min_l.
Qed.
Lemma rep_chain : forall kd a b l k T x, closeds l -> compat k T -> disjoint (fheads_l M l KAny) k = true -> valid x ->
  one_only T (menumT (RRep kd a b l) x) /\ (kd <> Lazy -> first_only T (menumT (RRep kd a b l) x)).
Proof.
  intros kd a b l k T [m st] C HT D [V1 V2]. rewrite menum_rep. cbn [fst snd] in *.
  destruct (loop_chain (bT l m)) with (T := fun st => T (m, st)) (kd := kd) (a := a) (b := b) (st := st) as [H1 H2].
  - intros st1 st2 Hs H. apply (mbody_forth s names true l m _ _ H Hs).
  - intros st1 Hs Hb. apply not_true_is_false. intros Ht.
    apply (disjoint_sound _ _ (fun x => existsb (fun _ => true) (menumsT l x)) T (m, st1) D); auto.
    + exact (fheads_sound true (RSeq l) C KAny (fun _ => true) I).
    + split; assumption.
    + unfold mbody in Hb. destruct (menumsT l (m, st1)); [contradiction|reflexivity].
  - exact V2.
  - split; [apply one_map; exact H1|]. intros Hk. apply first_map. exact (H2 Hk).
Qed.

Lemma u_sound : forall r, closed r -> forall k T, compat k T -> ucheck M r k = true -> forall x, valid x ->
  one_only T (menumT r x).
Proof.
  induction r as
    [ | r l IHr IHl | c | | t | l IH | l IH | | | kd a b l IH | id l IH | id nm l IH | id | nm
    | neg l IH | neg l IH | l IH | c | c | a | md ]
    using re_ind2 with (Q := fun l => closeds l -> forall k T, compat k T ->
      (useq M l k = true -> forall x, valid x -> one_only T (menumsT l x)) /\
      (usel M k l = true -> forall x, valid x -> one_only T (menumT (RSelect l) x)));
    try (intros _ k T HT _ x V; apply one_small; leaf_small).
  - intros _ k T HT. split; intros _ x V; apply one_small; cbn; lia.
  - intros [C1 C2] k T HT. destruct (IHl C2 k T HT) as [I1 I2]. split.
    + cbn [useq]. intros H x V. apply andb_true_iff in H as [H1 H2]. rewrite menums_cons. apply one_flat.
      * eapply (IHr C1); [|exact H1|exact V]. exact (fheads_sound true (RSeq l) C2 k T HT).
      * intros y Hy. apply I1; [exact H2|]. exact (menum_valid _ _ _ _ C1 V Hy).
    + cbn [usel]. intros H x V. apply andb_true_iff in H as [H H3]. apply andb_true_iff in H as [H1 H2].
      rewrite menum_select_cons. specialize (IHr C1 k T HT H1 x V). specialize (I2 H2 x V).
      unfold one_only in *. rewrite filter_app, app_length. destruct l as [|r' l']; [cbn; lia|].
      destruct (existsb T (menumT r x)) eqn:E1.
      2:{ destruct (none_existsb _ _ _ E1) as [_ ->]. exact I2. }
      destruct (existsb T (menumT (RSelect (r' :: l')) x)) eqn:E2.
      2:{ destruct (none_existsb _ _ _ E2) as [_ ->]. cbn [length]. lia. }
      exfalso. apply (disjoint_sound _ _ (fun x => existsb T (menumT r x)) (fun x => existsb T (menumT (RSelect (r' :: l')) x)) x H3);
        [| |exact V|exact E1|exact E2].
      * exact (fheads_sound true r C1 k T HT).
      * exact (fheads_sound true (RSelect (r' :: l')) C2 k T HT).
  - intros C k T HT H. rewrite ucheck_select in H. revert H. apply (IH C k T HT).
  - intros C k T HT. apply (IH C k T HT).
  - intros C k T HT H x V.
    assert (X : (kd = Possessive \/ fixed a b = true) \/ disjoint (fheads_l M l KAny) k = true).
    { destruct kd; cbn [ucheck] in H; auto; apply orb_true_iff in H as [H|H]; auto. }
    destruct X as [X|X]; [apply one_small, rep_small; exact X|]. apply (rep_chain kd a b l k T x C HT X V).
  - intros C k T HT H x V. rewrite menum_cap. apply one_map.
    eapply one_ext; [intros y Hy; apply (closing_at id x T y V); eauto|].
    apply (IH C k _ (closing_compat k id (pos x) T HT)); assumption.
  - intros C k T HT H x V. rewrite menum_ncap. apply one_map.
    eapply one_ext; [intros y Hy; apply (closing_at id x T y V); eauto|].
    apply (IH C k _ (closing_compat k id (pos x) T HT)); assumption.
  - intros _ k T HT _ x V. apply one_small. rewrite menum_ahead. destruct neg, (menumsT l x); cbn; lia.
  - intros _ k T HT _ x V. apply one_small. rewrite menum_atomic, map_length, firstn_length. apply Nat.le_min_l.
  - intros _ k T HT _ x V. apply one_small. cbn. lia.
Qed.

Lemma first_all : forall A (P : A -> bool) l, (forall x, In x l -> P x = true) -> first_only P l.
Proof. intros A P [|x l] H; [left; reflexivity|]. right. cbn. rewrite H by (left; reflexivity). reflexivity. Qed.

Lemma fd_sound : forall r, closed r -> forall k T, compat k T -> fdcheck M r k = true -> forall x, valid x ->
  first_only T (menumT r x).
Proof.
  induction r as
    [ | r l IHr IHl | c | | t | l IH | l IH | | | kd a b l IH | id l IH | id nm l IH | id | nm
    | neg l IH | neg l IH | l IH | c | c | a | md ]
    using re_ind2 with (Q := fun l => closeds l -> forall k T, compat k T ->
      (fdseq M l k = true -> forall x, valid x -> first_only T (menumsT l x)) /\
      (fdsel M k l = true -> forall x, valid x -> first_only T (menumT (RSelect l) x)));
    try (intros _ k T HT _ x V; apply first_small; leaf_small).
  - intros _ k T HT. split; intros _ x V; apply first_small; cbn; lia.
  - intros [C1 C2] k T HT. destruct (IHl C2 k T HT) as [I1 I2]. split.
    + cbn [fdseq]. intros H x V. apply andb_true_iff in H as [H1 H2]. rewrite menums_cons.
      assert (Hr : forall y, In y (menumT r x) -> first_only T (menumsT l y)).
      { intros y Hy. apply I1; [exact H2|]. exact (menum_valid _ _ _ _ C1 V Hy). }
      apply orb_true_iff in H1 as [H1|H1].
      * apply first_flat; [|exact Hr]. eapply (IHr C1); [|exact H1|exact V]. exact (fheads_sound true (RSeq l) C2 k T HT).
      * apply first_flat_one; [|exact Hr]. eapply (u_sound r C1); [|exact H1|exact V].
        exact (fheads_sound true (RSeq l) C2 KAny (fun _ => true) I).
    + cbn [fdsel]. intros H x V. apply andb_true_iff in H as [H H3]. apply andb_true_iff in H as [H1 H2].
      rewrite menum_select_cons. specialize (IHr C1 k T HT H1 x V). specialize (I2 H2 x V).
      destruct l as [|r' l']; [change (menumT (RSelect []) x) with (@nil mstate); rewrite app_nil_r; exact IHr|].
      destruct (menumT r x) as [|y ys] eqn:E1; [exact I2|].
      destruct (existsb T (menumT (RSelect (r' :: l')) x)) eqn:E2.
      * exfalso. apply (disjoint_sound _ _ (fun x => existsb (fun _ => true) (menumT r x)) (fun x => existsb T (menumT (RSelect (r' :: l')) x)) x H3);
          [| |exact V| |exact E2].
        -- exact (fheads_sound true r C1 KAny (fun _ => true) I).
        -- exact (fheads_sound true (RSelect (r' :: l')) C2 k T HT).
        -- cbn beta. rewrite E1. reflexivity.
      * destruct (none_existsb _ _ _ E2) as [E3 _]. unfold first_only in *. rewrite find_app, E3.
        destruct IHr as [->|IHr]; [auto|]. right. rewrite IHr. reflexivity.
  - intros C k T HT H x V. destruct k; [apply first_all; intros y Hy; apply HT; exact (menum_valid _ (RSelect l) _ _ C V Hy)|..];
      rewrite fdcheck_select in H by discriminate; apply (IH C _ T HT); assumption.
  - intros C k T HT H x V. destruct k; [apply first_all; intros y Hy; apply HT; exact (menum_valid _ (RSeq l) _ _ C V Hy)|..];
      apply (IH C _ T HT); assumption.
  - intros C k T HT H x V.
    assert (X : k = KAll \/ (kd = Possessive \/ fixed a b = true) \/ (kd <> Lazy /\ disjoint (fheads_l M l KAny) k = true)).
    { destruct k; [auto| |]; right; destruct kd; cbn [fdcheck] in H; auto;
        apply orb_true_iff in H as [H|H]; auto; right; (split; [discriminate|assumption]). }
    destruct X as [->|[X|[X1 X2]]].
    + apply first_all. intros y Hy. apply HT. exact (menum_valid _ _ _ _ C V Hy).
    + apply first_small, rep_small. exact X.
    + apply (rep_chain kd a b l k T x C HT X2 V). exact X1.
  - intros C k T HT H x V. destruct k; [apply first_all; intros y Hy; apply HT; exact (menum_valid _ (RCap id l) _ _ C V Hy)|..];
    rewrite menum_cap; apply first_map;
    (eapply first_ext; [intros y Hy; apply (closing_at id x T y V); eauto|]);
    apply (IH C _ _ (closing_compat _ id (pos x) T HT)); assumption.
  - intros C k T HT H x V. destruct k; [apply first_all; intros y Hy; apply HT; exact (menum_valid _ (RNCap id nm l) _ _ C V Hy)|..];
    rewrite menum_ncap; apply first_map;
    (eapply first_ext; [intros y Hy; apply (closing_at id x T y V); eauto|]);
    apply (IH C _ _ (closing_compat _ id (pos x) T HT)); assumption.
  - intros _ k T HT _ x V. apply first_small. rewrite menum_ahead. destruct neg, (menumsT l x); cbn; lia.
  - intros _ k T HT _ x V. apply first_small. rewrite menum_atomic, map_length, firstn_length. apply Nat.le_min_l.
  - intros _ k T HT _ x V. apply first_small. cbn. lia.
Qed.

(** * Both disciplines agree on the first outcome that fits *)
Section Loops.
  Variables bt bf : state -> list state.
  Variable T : state -> bool.
  Variable K : (state -> bool) -> Prop.
  Hypothesis bt_ok : forall st st', st_ok st -> In st' (bt st) -> st_ok st' /\ fst st < fst st'.
  Hypothesis bf_ok : forall st st', st_ok st -> In st' (bf st) -> st_ok st' /\ fst st < fst st'.
  Hypothesis same : forall P, K P -> forall st, st_ok st -> find P (bt st) = find P (bf st).
  Hypothesis only : forall P, K P -> forall st, st_ok st -> first_only P (bt st).

  Lemma bt_advances : forall st, st_ok st -> filter (advances st) (bt st) = bt st.
  Proof. intros st Hs. apply filter_all. intros x Hx. apply Nat.ltb_lt. apply (bt_ok _ _ Hs Hx). Qed.
  Lemma bf_advances : forall st, st_ok st -> filter (advances st) (bf st) = bf st.
  Proof. intros st Hs. apply filter_all. intros x Hx. apply Nat.ltb_lt. apply (bf_ok _ _ Hs Hx). Qed.

  Lemma committed : forall gt gf st, st_ok st ->
    (forall m, st_ok m -> fst st < fst m -> find T (gt m) = find T (gf m)) ->
    (bt st <> [] \/ bf st <> [] -> K (fun m => existsb T (gf m))) ->
    find T (flat_map gt (firstn 1 (bt st))) = find T (flat_map gf (bf st)).
  Proof.
    intros gt gf st Hs Hg Hk. rewrite !find_flat.
    destruct (bt st) as [|m l] eqn:Et, (bf st) as [|m' l'] eqn:Ef; [reflexivity|..];
      specialize (Hk ltac:((left; discriminate) || (right; discriminate)));
      pose proof (same _ Hk st Hs) as E; pose proof (only _ Hk st Hs) as O; rewrite Et in E, O; rewrite Ef in E;
      rewrite <- E.
    - reflexivity.
    - change (firstn 1 (m :: l)) with [m]. destruct (bt_ok st m Hs) as [M1 M2]; [rewrite Et; left; reflexivity|].
      assert (G : existsb T (gt m) = existsb T (gf m)) by (rewrite !existsb_find, Hg by assumption; reflexivity).
      cbn [find]. rewrite G. destruct (existsb T (gf m)) eqn:X; [apply Hg; assumption|].
      unfold first_only in O. cbn [find hd_error] in O. rewrite X in O. destruct O as [->|O]; [reflexivity|].
      apply find_some in O as [_ O]. cbn beta in O. rewrite X in O. discriminate.
    - change (firstn 1 (m :: l)) with [m]. destruct (bt_ok st m Hs) as [M1 M2]; [rewrite Et; left; reflexivity|].
      assert (G : existsb T (gt m) = existsb T (gf m)) by (rewrite !existsb_find, Hg by assumption; reflexivity).
      cbn [find]. rewrite G. destruct (existsb T (gf m)) eqn:X; [apply Hg; assumption|].
      unfold first_only in O. cbn [find hd_error] in O. rewrite X in O. destruct O as [->|O]; [reflexivity|].
      apply find_some in O as [_ O]. cbn beta in O. rewrite X in O. discriminate.
  Qed.

  Lemma greedy_same : forall b a, (forall k i, (a < i)%N -> K (fun y => existsb T (more_greedy false bf (S k) b i y))) ->
    forall k i st, (a <= i)%N -> st_ok st -> len - fst st < k ->
    find T (more_greedy true bt k b i st) = find T (more_greedy false bf k b i st).
  Proof.
    intros b a Hk. induction k as [|k IH]; intros i st Hi Hs Hl; [lia|]. cbn [more_greedy]. unfold keep.
    rewrite bt_advances, bf_advances by assumption.
    destruct (N.eqb b 0 || N.ltb i b)%bool; [|reflexivity]. rewrite !find_app.
    rewrite (committed _ (more_greedy false bf k b (N.succ i)) st Hs).
    - reflexivity.
    - intros m Hm Hlt. apply IH; [lia|assumption|]. destruct Hm as [Hm _]. lia.
    - intros H. destruct k as [|k]; [|apply Hk; lia]. exfalso.
      assert (X : forall m, st_ok m /\ fst st < fst m -> False) by (intros m [[Hm _] Hlt]; lia).
      destruct H as [H|H]; [destruct (bt st) as [|m l] eqn:E | destruct (bf st) as [|m l] eqn:E]; try contradiction; apply (X m).
      + apply bt_ok; [assumption | rewrite E; left; reflexivity].
      + apply bf_ok; [assumption | rewrite E; left; reflexivity].
  Qed.
  Lemma lazy_same : forall b a, (forall k i, (a < i)%N -> K (fun y => existsb T (more_lazy false bf (S k) b i y))) ->
    forall k i st, (a <= i)%N -> st_ok st -> len - fst st < k ->
    find T (more_lazy true bt k b i st) = find T (more_lazy false bf k b i st).
  Proof.
    intros b a Hk. induction k as [|k IH]; intros i st Hi Hs Hl; [lia|]. cbn [more_lazy]. unfold keep.
    rewrite bt_advances, bf_advances by assumption.
    destruct (N.eqb b 0 || N.ltb i b)%bool; [|reflexivity]. cbn [find]. destruct (T st); [reflexivity|].
    apply committed; [assumption|..].
    - intros m Hm Hlt. apply IH; [lia|assumption|]. destruct Hm as [Hm _]. lia.
    - intros H. destruct k as [|k]; [|apply Hk; lia]. exfalso.
      assert (X : forall m, st_ok m /\ fst st < fst m -> False) by (intros m [[Hm _] Hlt]; lia).
      destruct H as [H|H]; [destruct (bt st) as [|m l] eqn:E | destruct (bf st) as [|m l] eqn:E]; try contradiction; apply (X m).
      + apply bt_ok; [assumption | rewrite E; left; reflexivity].
      + apply bf_ok; [assumption | rewrite E; left; reflexivity].
  Qed.

  Lemma flat_map_flat_map : forall A B C (g : B -> list C) (h : A -> list B) l,
    flat_map g (flat_map h l) = flat_map (fun x => flat_map g (h x)) l.
  Proof. intros A B C g h l. induction l as [|x l IH]; [reflexivity|]. cbn. rewrite flat_map_app, IH. reflexivity. Qed.

  Lemma rounds_same : forall mt mf, (forall x, st_ok x -> find T (mt x) = find T (mf x)) ->
    forall k, (forall j, j < k -> K (fun y => existsb T (flat_map mf (mandatory false bf j y)))) ->
    forall st, st_ok st -> find T (flat_map mt (mandatory true bt k st)) = find T (flat_map mf (mandatory false bf k st)).
  Proof.
    intros mt mf Hm. induction k as [|k IH]; intros Hk st Hs.
    - cbn [mandatory flat_map]. rewrite !app_nil_r. auto.
    - cbn [mandatory]. unfold keep, progress. rewrite bt_advances, !flat_map_flat_map by assumption.
      apply committed; [assumption| |intros _; apply Hk; lia]. intros m Hs' _. apply IH; [|assumption].
      intros j Hj. apply Hk. lia.
  Qed.
End Loops.

(** The states from which the rest of a repetition can end at a state that fits. *)
Lemma greedy_shape : forall cut body n b i st y, In y (more_greedy cut body n b i st) ->
  y = st \/ ((b = 0 \/ i < b)%N /\ body st <> []).
Proof.
  intros cut body [|n] b i st y H; [contradiction|]. cbn [more_greedy] in H. apply in_app_iff in H as [H|[H|[]]]; [|auto].
  destruct (N.eqb b 0 || N.ltb i b)%bool eqn:Eb; [|contradiction].
  apply in_flat_map in H as (m & H & _). apply (keep_in cut), filter_In in H. right. split; [lia|].
  intros E. rewrite E in H. apply H.
Qed.
Lemma lazy_shape : forall cut body n b i st y, In y (more_lazy cut body n b i st) ->
  y = st \/ ((b = 0 \/ i < b)%N /\ body st <> []).
Proof.
  intros cut body [|n] b i st y H; [contradiction|]. cbn [more_lazy] in H. destruct H as [H|H]; [auto|].
  destruct (N.eqb b 0 || N.ltb i b)%bool eqn:Eb; [|contradiction].
  apply in_flat_map in H as (m & H & _). apply (keep_in cut), filter_In in H. right. split; [lia|].
  intros E. rewrite E in H. apply H.
Qed.
Lemma greedy_self : forall cut body n b i st, In st (more_greedy cut body (S n) b i st).
Proof. intros. cbn [more_greedy]. apply in_or_app. right. left. reflexivity. Qed.
Lemma lazy_self : forall cut body n b i st, In st (more_lazy cut body (S n) b i st).
Proof. intros. left. reflexivity. Qed.

Lemma compat_less : forall k T T', k <> KAll -> compat k T -> (forall y, valid y -> T' y = true -> T y = true) -> compat k T'.
Proof. intros [] T T' Hk C H; cbn in *; [congruence|auto|auto]. Qed.

Lemma after_sound : forall a b l k T m (R : state -> list state), closeds l -> In m M -> compat k T ->
  (forall st y, In y (R st) -> y = st \/ (~ (b = 1 /\ a <= 1)%N /\ bF l m st <> [])) ->
  ((a <= 1)%N -> forall st, st_ok st -> In st (R st)) ->
  compat (after_body M a b l k) (fun y => existsb (fun st => T (m, st)) (R (snd y))).
Proof.
  intros a b l k T m R C Hm HT H1 H2.
  assert (G : k <> KAll -> compat (join (weak (fheads_l M l KAny)) k) (fun y => existsb (fun st => T (m, st)) (R (snd y)))).
  { intros Hk. eapply compat_less.
    - pose proof (weak_not_all (fheads_l M l KAny)) as W. destruct (weak (fheads_l M l KAny)), k; cbn; congruence.
    - apply (restore_compat _ m (fun x => existsb (fun _ => true) (menumF (RSeq l) x) || T x)%bool Hm). apply compat_join; [|exact HT].
      eapply compat_weak; [exact (fheads_sound false (RSeq l) C KAny (fun _ => true) I)|]. intros y _ Hy. exact Hy.
    - intros [m' st] V H. cbn [snd] in *. apply existsb_in in H as (y & Y1 & Y2).
      destruct (H1 _ _ Y1) as [->|[_ Hb]]; [rewrite Y2; apply orb_true_r|].
      unfold mbody in Hb. rewrite menum_seq. destruct (menumsF l (m, st)); [contradiction|reflexivity]. }
  unfold after_body. destruct (N.eqb b 1 && N.leb a 1)%bool eqn:Eb.
  { assert (Ha : (a <= 1)%N) by lia. assert (Hb : ~ ~ (b = 1 /\ a <= 1)%N) by lia.
    eapply compat_ext; [|apply (restore_compat k m T Hm HT)]. intros [m' st] [_ V]. cbn [snd] in *.
    apply eq_true_iff_eq. rewrite existsb_exists. split.
    - intros Ht. exists st. split; [apply H2; assumption|exact Ht].
    - intros (y & Y1 & Y2). destruct (H1 _ _ Y1) as [->|[Y3 _]]; [exact Y2|contradiction]. }
  destruct k as [| |e h]; [|apply G; discriminate|apply G; discriminate].
  destruct (N.leb_spec a 1); [|exact I]. intros [m' st] [_ V]. cbn [fst snd] in *. apply existsb_exists. exists st.
  split; [apply H2; assumption|]. apply HT. split; assumption.
Qed.

Lemma rep_same : forall kd a b l k T x, closeds l -> existsb consuming l = true -> compat k T ->
  (forall P, compat (after_body M a b l k) P -> forall x, valid x -> find P (menumsT l x) = find P (menumsF l x)) ->
  (forall P, compat (after_body M a b l k) P -> forall x, valid x -> first_only P (menumsT l x)) ->
  kd <> Possessive -> valid x ->
  find T (menumT (RRep kd a b l) x) = find T (menumF (RRep kd a b l) x).
Proof.
  intros kd a b l k T [m st] C Hc HT Hs Ho Hk [V1 V2]. rewrite !menum_rep, !find_map. cbn [fst snd] in *. f_equal.
  unfold iterate. destruct (negb (N.eqb b 0) && N.ltb b a)%bool; [reflexivity|].
  set (Kp := fun P : state -> bool => compat (after_body M a b l k) (fun y => P (snd y))).
  assert (Bt : forall st st', st_ok st -> In st' (bT l m st) -> st_ok st' /\ fst st < fst st').
  { intros z w Hz Hw. split; [apply (mbody_forth _ _ _ _ _ _ _ Hw Hz)|].
    apply in_map_iff in Hw as (y & <- & Hw). exact (consuming_menum s names true (RSeq l) Hc (m, z) y Hz Hw). }
  assert (Bf : forall st st', st_ok st -> In st' (bF l m st) -> st_ok st' /\ fst st < fst st').
  { intros z w Hz Hw. split; [apply (mbody_forth _ _ _ _ _ _ _ Hw Hz)|].
    apply in_map_iff in Hw as (y & <- & Hw). exact (consuming_menum s names false (RSeq l) Hc (m, z) y Hz Hw). }
  assert (Ss : forall P, Kp P -> forall st, st_ok st -> find P (bT l m st) = find P (bF l m st)).
  { intros P HP z Hz. unfold mbody. rewrite !find_map. f_equal. apply (Hs (fun y => P (snd y)) HP). split; assumption. }
  assert (So : forall P, Kp P -> forall st, st_ok st -> first_only P (bT l m st)).
  { intros P HP z Hz. unfold mbody. apply first_map. apply (Ho (fun y => P (snd y)) HP). split; assumption. }
  assert (Rd : forall mf : state -> list state,
    (forall x y, In y (mf x) -> y = x \/ ((b = 0 \/ a < b)%N /\ bF l m x <> [])) -> (forall x, In x (mf x)) ->
    forall j, j < N.to_nat a -> Kp (fun y => existsb (fun st => T (m, st)) (flat_map mf (mandatory false (bF l m) j y)))).
  { intros mf F1 F2 j Hj. apply (after_sound a b l k T m (fun y => flat_map mf (mandatory false (bF l m) j y)) C V1 HT).
    - intros z y Hy. apply in_flat_map in Hy as (w & W1 & W2). destruct j as [|j].
      + destruct W1 as [<-|[]]. destruct (F1 _ _ W2) as [W|[Wb W]]; [left; exact W|]. right. split; [lia|exact W].
      + cbn [mandatory] in W1. apply in_flat_map in W1 as (u & U1 & _). right. split; [lia|].
        intros E. rewrite E in U1. contradiction.
    - intros Ha z _. assert (j = 0) by lia. subst j. cbn [mandatory flat_map]. rewrite app_nil_r. apply F2. }
  destruct kd; [| |congruence].
  - apply (rounds_same (bT l m) (bF l m) (fun st => T (m, st)) Kp Bt Bf Ss So); [| |exact V2].
    + intros z Hz. apply (greedy_same (bT l m) (bF l m) (fun st => T (m, st)) Kp Bt Bf Ss So b a); [|lia|assumption|lia].
      intros n i Hi. apply (after_sound a b l k T m (more_greedy false (bF l m) (S n) b i) C V1 HT).
      * intros z' y Hy. destruct (greedy_shape _ _ _ _ _ _ _ Hy) as [W|[Wb W]]; [left; exact W|]. right. split; [lia|exact W].
      * intros _ z' _. apply greedy_self.
    + apply Rd; [intros; eapply greedy_shape; eassumption | intros; apply greedy_self].
  - apply (rounds_same (bT l m) (bF l m) (fun st => T (m, st)) Kp Bt Bf Ss So); [| |exact V2].
    + intros z Hz. apply (lazy_same (bT l m) (bF l m) (fun st => T (m, st)) Kp Bt Bf Ss So b a); [|lia|assumption|lia].
      intros n i Hi. apply (after_sound a b l k T m (more_lazy false (bF l m) (S n) b i) C V1 HT).
      * intros z' y Hy. destruct (lazy_shape _ _ _ _ _ _ _ Hy) as [W|[Wb W]]; [left; exact W|]. right. split; [lia|exact W].
      * intros _ z' _. apply lazy_self.
    + apply Rd; [intros; eapply lazy_shape; eassumption | intros; apply lazy_self].
Qed.

Lemma possessive_greedy : forall cut a b l x,
  menum s names cut (RRep Possessive a b l) x = firstn 1 (menum s names cut (RRep Greedy a b l) x).
Proof.
  intros cut a b l x. rewrite !menum_rep. unfold iterate. destruct (negb (N.eqb b 0) && N.ltb b a)%bool; [reflexivity|].
  rewrite firstn_map. reflexivity.
Qed.
Lemma hd_firstn : forall A (l l' : list A), hd_error l = hd_error l' -> firstn 1 l = firstn 1 l'.
Proof. intros A [|x l] [|x' l']; cbn; congruence. Qed.

Theorem follow_agrees : forall r, closed r -> forall k T, compat k T -> acheck M r k = true -> forall x, valid x ->
  find T (menumT r x) = find T (menumF r x).
Proof.
  assert (Tame : forall r, closed r -> mtame_check M r = true -> forall T x, valid x ->
    find T (menumT r x) = find T (menumF r x)).
  { intros r C H T x [V1 V2]. rewrite (mcut_agrees s M names s_ok r C H x V1 V2). reflexivity. }
  induction r as
    [ | r l IHr IHl | c | | t | l IH | l IH | | | kd a b l IH | id l IH | id nm l IH | id | nm
    | neg l IH | neg l IH | l IH | c | c | a | md ]
    using re_ind2 with (Q := fun l => closeds l -> forall k T, compat k T ->
      (aseq M l k = true -> forall x, valid x -> find T (menumsT l x) = find T (menumsF l x)) /\
      (forallb (fun x => acheck M x k) l = true -> forall x, valid x ->
        find T (menumT (RSelect l) x) = find T (menumF (RSelect l) x)));
    try (intros; reflexivity).
  - intros _ k T HT. split; reflexivity.
  - intros [C1 C2] k T HT. destruct (IHl C2 k T HT) as [I1 I2]. split; intros H x V.
    + cbn [aseq] in H. apply andb_true_iff in H as [H1 H2]. rewrite !menums_cons, !find_flat.
      rewrite (find_ext_in _ _ (fun m => existsb T (menumsF l m)) (menumT r x)).
      2:{ intros y Hy. rewrite !existsb_find, I1; [reflexivity|exact H2|exact (menum_valid _ _ _ _ C1 V Hy)]. }
      rewrite (IHr C1 _ (fun m => existsb T (menumsF l m)) (fheads_sound false (RSeq l) C2 k T HT) H1 x V).
      destruct (find (fun m => existsb T (menumsF l m)) (menumF r x)) as [y|] eqn:E; [|reflexivity].
      apply find_some in E as [E _]. apply I1; [exact H2|exact (menum_valid _ _ _ _ C1 V E)].
    + cbn [forallb] in H. apply andb_true_iff in H as [H1 H2]. rewrite !menum_select_cons, !find_app.
      rewrite (IHr C1 k T HT H1 x V), (I2 H2 x V). reflexivity.
  - intros C k T HT H. cbn [acheck] in H. apply orb_true_iff in H as [H|H]; [exact (Tame _ C H T)|].
    apply (IH C k T HT). exact H.
  - intros C k T HT H. cbn [acheck] in H. apply orb_true_iff in H as [H|H]; [exact (Tame _ C H T)|].
    apply (IH C k T HT). exact H.
  - (* RRep *)
    intros C k T HT H x V. cbn [acheck] in H. fold (aseq M) in H. apply orb_true_iff in H as [H|H]; [exact (Tame (RRep kd a b l) C H T x V)|].
    apply andb_true_iff in H as [H H3]. apply andb_true_iff in H as [H1 H2].
    assert (X : forall kd T k, kd <> Possessive -> compat k T ->
      aseq M l (after_body M a b l k) = true -> fdcheck M (RSeq l) (after_body M a b l k) = true ->
      find T (menumT (RRep kd a b l) x) = find T (menumF (RRep kd a b l) x)).
    { intros kd' T' k' Hk HT' A1 A2. apply (rep_same kd' a b l k' T' x C H1 HT'); [| |exact Hk|exact V].
      - intros P HP y Vy. apply (IH C _ P HP); assumption.
      - intros P HP y Vy. apply (fd_sound (RSeq l) C _ P HP A2 y Vy). }
    destruct kd; [apply (X Greedy T k) | apply (X Lazy T k) |]; try assumption; try discriminate.
    rewrite !possessive_greedy.
    assert (E : hd_error (menumT (RRep Greedy a b l) x) = hd_error (menumF (RRep Greedy a b l) x)).
    { rewrite <- !find_true. apply (X Greedy (fun _ => true) KAll); try assumption; [discriminate|]. intros y _. reflexivity. }
    rewrite (hd_firstn _ _ _ E). reflexivity.
  - intros C k T HT H x V. cbn [acheck] in H. fold (aseq M) in H. apply orb_true_iff in H as [H|H]; [exact (Tame (RCap id l) C H T x V)|].
    rewrite !menum_cap. rewrite !find_map.
    change (fun y => T (fst y, (pos y, (id, (pos x, pos y)) :: snd (snd y)))) with (fun y => T (close id (pos x) y)).
    rewrite (find_ext_in _ _ (closing id (pos x) T) (menumsT l x)) by (intros y Hy; apply closing_at; [exact V|eauto]).
    rewrite (find_ext_in _ _ (closing id (pos x) T) (menumsF l x)) by (intros y Hy; apply closing_at; [exact V|eauto]).
    f_equal. apply (IH C k _ (closing_compat k id (pos x) T HT)); assumption.
  - intros C k T HT H x V. cbn [acheck] in H. fold (aseq M) in H. apply orb_true_iff in H as [H|H]; [exact (Tame (RNCap id nm l) C H T x V)|].
    rewrite !menum_ncap. rewrite !find_map.
    change (fun y => T (fst y, (pos y, (id, (pos x, pos y)) :: snd (snd y)))) with (fun y => T (close id (pos x) y)).
    rewrite (find_ext_in _ _ (closing id (pos x) T) (menumsT l x)) by (intros y Hy; apply closing_at; [exact V|eauto]).
    rewrite (find_ext_in _ _ (closing id (pos x) T) (menumsF l x)) by (intros y Hy; apply closing_at; [exact V|eauto]).
    f_equal. apply (IH C k _ (closing_compat k id (pos x) T HT)); assumption.
  - (* RAhead *)
    intros C k T HT H x V. cbn [acheck] in H. fold (aseq M) in H. apply orb_true_iff in H as [H|H]; [exact (Tame (RAhead neg l) C H T x V)|].
    assert (E : hd_error (menumsT l x) = hd_error (menumsF l x)).
    { rewrite <- !find_true. apply (IH C KAll (fun _ => true)); try assumption. intros y _. reflexivity. }
    rewrite !menum_ahead. destruct (menumsT l x), (menumsF l x); cbn in E; try discriminate; [reflexivity|].
    injection E as ->. reflexivity.
  - (* RAtomic *)
    intros C k T HT H x V. cbn [acheck] in H. fold (aseq M) in H. apply orb_true_iff in H as [H|H]; [exact (Tame (RAtomic l) C H T x V)|].
    apply andb_true_iff in H as [H1 H2]. rewrite !menum_atomic. unfold progress. rewrite filter_all.
    2:{ intros z Hz. apply Nat.ltb_lt. apply in_map_iff in Hz as (y & <- & Hz). destruct x as [m st], V as [V1 V2].
        exact (consuming_menum s names true (RSeq l) H1 (m, st) y V2 Hz). }
    assert (E : hd_error (menumsT l x) = hd_error (menumsF l x)).
    { rewrite <- !find_true. apply (IH C KAll (fun _ => true)); try assumption. intros y _. reflexivity. }
    unfold mbody. destruct x as [m st]. cbn [fst snd].
    rewrite (hd_firstn _ (map snd (menumsT l (m, st))) (map snd (menumsF l (m, st)))); [reflexivity|].
    rewrite !hd_map. f_equal. exact E.
Qed.
End Follow.
