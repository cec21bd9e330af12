(** Comparing two textbook regular expressions: equivalence, inclusion, disjointness, decided by a walk over pairs of
    derivatives with finitely many representatives of the characters. *)
From Coq Require Import List ZArith NArith Bool Lia Arith.
From Verif Require Import Chars Syntax First View Eval Api Spec CharProofs EvalInv ApiProofs EvalTop Checks Match Views Term
  Mode ModeSem ModeScope ModeCalls ModeTop Compiles Total Grammar Actions Parser Numbering Fusion FusionRuns Pattern PatternLink ModeText
  Lang Textbook.
Import ListNotations.

(** * Places where a test of characters may change *)
(** [P] answers the same for [x] and [y] when no [b] of [B] has [x < b <= y]. *)
Definition steady (B : list Z) (P : Z -> bool) : Prop :=
  forall x y, (x <= y)%Z -> (forall b, In b B -> ~ (x < b <= y)%Z) -> P x = P y.
Lemma steady_more : forall B B' P, incl B B' -> steady B P -> steady B' P.
Proof. intros B B' P I H x y L N. apply H; [exact L|]. intros b Hb. apply N, I, Hb. Qed.
Lemma steady_neg : forall B P, steady B P -> steady B (fun v => negb (P v)).
Proof. intros B P H x y L N. f_equal. apply H; assumption. Qed.
Lemma steady_any : forall A (B : A -> list Z) (P : A -> Z -> bool) l, (forall a, In a l -> steady (B a) (P a)) ->
  steady (flat_map B l) (fun v => existsb (fun a => P a v) l).
Proof.
  intros A B P l. induction l as [|a l IH]; intros H x y L N; [reflexivity|]. cbn [existsb]. f_equal.
  - apply (H a (or_introl eq_refl) x y L). intros b Hb. apply N. cbn [flat_map]. apply in_or_app. left. exact Hb.
  - apply IH; [intros a' Ha; apply H; right; exact Ha|exact L|]. intros b Hb. apply N. cbn [flat_map]. apply in_or_app. right. exact Hb.
Qed.
(** Both cases: the borders of the letters, and the places moved by 32. *)
Definition folded (B : list Z) : list Z :=
  65%Z :: 91%Z :: 97%Z :: 123%Z :: B ++ map (fun b => b + 32)%Z B ++ map (fun b => b - 32)%Z B.
Lemma steady_fold : forall B P ci, steady B P -> steady (folded B) (fold_test ci P).
Proof.
  intros B P ci H x y L N. unfold fold_test.
  assert (In1 : forall b, In b B -> In b (folded B)) by (intros b Hb; do 4 right; apply in_or_app; left; exact Hb).
  assert (In2 : forall b, In b B -> In (b + 32)%Z (folded B)).
  { intros b Hb. do 4 right. apply in_or_app. right. apply in_or_app. left. apply (in_map (fun b => b + 32)%Z). exact Hb. }
  assert (In3 : forall b, In b B -> In (b - 32)%Z (folded B)).
  { intros b Hb. do 4 right. apply in_or_app. right. apply in_or_app. right. apply (in_map (fun b => b - 32)%Z). exact Hb. }
  assert (N1 := N 65%Z ltac:(cbn; auto)). assert (N2 := N 91%Z ltac:(cbn; auto)).
  assert (N3 := N 97%Z ltac:(cbn; auto)). assert (N4 := N 123%Z ltac:(cbn; auto 6)).
  f_equal; [apply H; [exact L|]; intros b Hb; apply N, In1, Hb|]. destruct ci; [|reflexivity]. cbn [andb]. unfold swap_case.
  destruct (Z.leb_spec 65 x), (Z.leb_spec x 90), (Z.leb_spec 65 y), (Z.leb_spec y 90), (Z.leb_spec 97 x), (Z.leb_spec x 122),
    (Z.leb_spec 97 y), (Z.leb_spec y 122); cbn [andb]; try lia.
  all: apply H; [lia|]; intros b Hb B1; first
    [ apply (N b (In1 b Hb)); lia | apply (N (b + 32)%Z (In2 b Hb)); lia | apply (N (b - 32)%Z (In3 b Hb)); lia ].
Qed.
Definition lit_breaks (l : Z) : list Z := folded [l; l + 1]%Z.
Lemma lit_steady : forall ci l, steady (lit_breaks l) (lit_has ci l).
Proof.
  intros ci l. apply steady_fold. intros x y L N. assert (N1 := N l ltac:(cbn; auto)). assert (N2 := N (l + 1)%Z ltac:(cbn; auto)).
  destruct (Z.eqb_spec l x), (Z.eqb_spec l y); lia.
Qed.
Fixpoint cls_breaks (c : cls) : list Z :=
  match c with
  | CChar l => lit_breaks l
  | CRange a b => folded [a; b + 1]%Z
  | CSet l | CNeg l | CNegate l => flat_map cls_breaks l
  | CEnum vs => flat_map lit_breaks vs
  | CProp tbl => flat_map (fun p => [fst p; snd p + 1]%Z) tbl
  end.
Lemma cls_steady : forall ci c, steady (cls_breaks c) (cls_has ci c).
Proof.
  intros ci. fix IH 1. assert (L : forall l, steady (flat_map cls_breaks l) (fun v => existsb (fun c => cls_has ci c v) l)).
  { induction l as [|c l I]; intros x y Hl N; [reflexivity|]. cbn [existsb flat_map] in *. f_equal.
    - apply IH; [exact Hl|]. intros b Hb. apply N. apply in_or_app. left. exact Hb.
    - apply I; [exact Hl|]. intros b Hb. apply N. apply in_or_app. right. exact Hb. }
  intros [l|a b|l|l|vs|l|tbl]; cbn [cls_has cls_breaks].
  - apply lit_steady.
  - apply steady_fold. intros x y Hl N. assert (N1 := N a ltac:(cbn; auto)). assert (N2 := N (b + 1)%Z ltac:(cbn; auto)).
    destruct (Z.leb_spec a x), (Z.leb_spec x b), (Z.leb_spec a y), (Z.leb_spec y b); cbn [andb]; try reflexivity; lia.
  - apply L.
  - apply steady_neg, L.
  - apply (steady_any Z lit_breaks (lit_has ci)). intros a _. apply lit_steady.
  - apply steady_neg, L.
  - apply (steady_any (Z * Z) (fun p => [fst p; snd p + 1]%Z) (fun p v => (fst p <=? v)%Z && (v <=? snd p)%Z)).
    intros [a b] _ x y Hl N. cbn [fst snd] in *. assert (N1 := N a ltac:(cbn; auto)). assert (N2 := N (b + 1)%Z ltac:(cbn; auto)).
    destruct (Z.leb_spec a x), (Z.leb_spec x b), (Z.leb_spec a y), (Z.leb_spec y b); cbn [andb]; try reflexivity; lia.
Qed.
Fixpoint re_breaks (r : re) : list Z :=
  match r with
  | RCls c => cls_breaks c
  | RAny => [10; 11]%Z
  | RStr t => flat_map lit_breaks t
  | RSelect l | RSeq l | RCap _ l | RNCap _ _ l | RRep _ _ _ l => flat_map re_breaks l
  | _ => []
  end.

(** * The tests in an expression *)
Fixpoint tests (x : regexp) : list (Z -> bool) :=
  match x with
  | XNone | XEps => []
  | XChar P => [P]
  | XAlt x y | XCat x y => tests x ++ tests y
  | XStar x => tests x
  end.
Lemma tests_power : forall n x Q, Forall Q (tests x) -> Forall Q (tests (power n x)).
Proof. induction n as [|n IH]; intros x Q H; [constructor|]. cbn [power tests]. apply Forall_app. auto. Qed.
Lemma tests_upto : forall n x Q, Forall Q (tests x) -> Forall Q (tests (upto n x)).
Proof. induction n as [|n IH]; intros x Q H; [constructor|]. cbn [upto tests]. cbn [app]. apply Forall_app. auto. Qed.
Lemma tests_between : forall a b x Q, Forall Q (tests x) -> Forall Q (tests (between a b x)).
Proof.
  intros a b x Q H. unfold between. destruct (N.eqb b 0); [|destruct (N.ltb b a); [constructor|]]; cbn [tests]; apply Forall_app;
    auto using tests_power, tests_upto.
Qed.
Lemma tests_deriv : forall v x Q, Forall Q (tests x) -> Forall Q (tests (deriv v x)).
Proof.
  intros v. induction x as [| |P|x IHx y IHy|x IHx y IHy|x IHx]; intros Q H; cbn [deriv tests] in *; try (apply Forall_app in H as [H1 H2]).
  - constructor.
  - constructor.
  - destruct (P v); constructor.
  - apply Forall_app. auto.
  - destruct (nullable x); cbn [tests]; rewrite ?Forall_app; auto.
  - apply Forall_app. auto.
Qed.
Lemma tests_steady : forall r m, Forall (steady (re_breaks r)) (tests (denote m r)).
Proof.
  assert (W : forall B B' l, incl B B' -> Forall (steady B) l -> Forall (steady B') l).
  { intros B B' l I H. eapply Forall_impl; [|exact H]. intros P. apply steady_more. exact I. }
  fix IH 1.
  assert (L : forall l m, Forall (steady (flat_map re_breaks l)) (tests (denotes m l))).
  { induction l as [|r l I]; intros m; [constructor|]. assert (G : Forall (steady (re_breaks r ++ flat_map re_breaks l)) (tests (XCat (denote m r) (denotes m l)))).
    { cbn [tests]. apply Forall_app. split; [eapply W; [|apply IH]; apply incl_appl, incl_refl|eapply W; [|apply I]; apply incl_appr, incl_refl]. }
    cbn [flat_map denotes]. destruct r; try exact G. eapply W; [|apply I]. apply incl_appr, incl_refl. }
  assert (A : forall l m, Forall (steady (flat_map re_breaks l)) (tests (denote_alt m l))).
  { induction l as [|r l I]; intros m; [constructor|]. cbn [flat_map denote_alt tests]. apply Forall_app.
    split; [eapply W; [|apply IH]; apply incl_appl, incl_refl|eapply W; [|apply I]; apply incl_appr, incl_refl]. }
  intros r m. destruct r; try (cbn; constructor; fail).
  all: try (cbn [denote re_breaks]; apply L). all: try (cbn [denote re_breaks]; apply A).
  all: try (cbn [denote re_breaks]; apply tests_between; apply L).
  - cbn [denote re_breaks tests]. constructor; [apply cls_steady|constructor].
  - cbn [denote re_breaks tests]. constructor; [|constructor]. intros x y Hl N. f_equal. f_equal.
    assert (N1 := N 10%Z ltac:(cbn; auto)). assert (N2 := N 11%Z ltac:(cbn; auto)). destruct (Z.eqb_spec x 10), (Z.eqb_spec y 10); lia.
  - cbn [denote re_breaks]. induction l as [|c t I]; [constructor|]. cbn [fold_right tests flat_map app]. constructor.
    + eapply steady_more; [|apply lit_steady]. apply incl_appl, incl_refl.
    + eapply W; [|exact I]. apply incl_appr, incl_refl.
Qed.

(** * Representatives *)
Definition agrees (Ps : list (Z -> bool)) (v v' : Z) : Prop := Forall (fun P : Z -> bool => P v = P v') Ps.
(** One below all places, and the places. *)
Definition lowest (B : list Z) : Z := (fold_right Z.min 0 B - 1)%Z.
Lemma lowest_below : forall B b, In b B -> (lowest B < b)%Z.
Proof.
  unfold lowest. induction B as [|a B IH]; intros b [].
  - subst. cbn [fold_right]. lia.
  - specialize (IH b H). cbn [fold_right]. lia.
Qed.
Lemma greatest : forall B v, (exists b, In b B /\ (b <= v)%Z) -> exists b, In b B /\ (b <= v)%Z /\ forall b', In b' B -> ~ (b < b' <= v)%Z.
Proof.
  induction B as [|a B IH]; intros v (b & Hb & L); [destruct Hb|].
  destruct (existsb (fun c => Z.leb c v) B) eqn:E.
  - apply existsb_exists in E as (c & C1 & C2). apply Z.leb_le in C2. destruct (IH v (ex_intro _ c (conj C1 C2))) as (d & D1 & D2 & D3).
    destruct (Z.leb_spec a v) as [A|A].
    + destruct (Z.leb_spec a d) as [A'|A'].
      * exists d. split; [right; exact D1|]. split; [exact D2|]. intros b' [<-|B']; [lia|apply D3; exact B'].
      * exists a. split; [left; reflexivity|]. split; [exact A|]. intros b' [<-|B'] K; [lia|]. apply (D3 b' B'). lia.
    + exists d. split; [right; exact D1|]. split; [exact D2|]. intros b' [<-|B']; [lia|apply D3; exact B'].
  - assert (None : forall c, In c B -> (v < c)%Z).
    { intros c C. destruct (Z.leb_spec c v) as [K|K]; [|exact K].
      assert (X : existsb (fun c => Z.leb c v) B = true) by (apply existsb_exists; exists c; split; [exact C|apply Z.leb_le; exact K]). congruence. }
    destruct Hb as [<-|Hb]; [|specialize (None b Hb); lia]. exists a. split; [left; reflexivity|]. split; [exact L|].
    intros b' [<-|B'] K; [lia|]. specialize (None b' B'). lia.
Qed.
Lemma represented : forall B Ps v, Forall (steady B) Ps -> exists v', In v' (B ++ [lowest B]) /\ agrees Ps v v'.
Proof.
  intros B Ps v H. destruct (existsb (fun c => Z.leb c v) B) eqn:E.
  - apply existsb_exists in E as (c & C1 & C2). apply Z.leb_le in C2. destruct (greatest B v (ex_intro _ c (conj C1 C2))) as (d & D1 & D2 & D3).
    exists d. split; [apply in_or_app; left; exact D1|]. eapply Forall_impl; [|exact H]. intros P HP. symmetry. apply HP; assumption.
  - assert (None : forall c, In c B -> (v < c)%Z).
    { intros c C. destruct (Z.leb_spec c v) as [K|K]; [|exact K].
      assert (X : existsb (fun c => Z.leb c v) B = true) by (apply existsb_exists; exists c; split; [exact C|apply Z.leb_le; exact K]). congruence. }
    exists (lowest B). split; [apply in_or_app; right; left; reflexivity|]. eapply Forall_impl; [|exact H]. intros P HP.
    destruct (Z.leb_spec v (lowest B)) as [K|K].
    + apply HP; [exact K|]. intros b Hb X. pose proof (lowest_below B b Hb). lia.
    + symmetry. apply HP; [lia|]. intros b Hb X. specialize (None b Hb). lia.
Qed.
(** One of each row of answers. *)
Fixpoint rows_eqb (a b : list bool) : bool :=
  match a, b with [], [] => true | x :: a, y :: b => Bool.eqb x y && rows_eqb a b | _, _ => false end.
Lemma rows_eq : forall a b, rows_eqb a b = true -> a = b.
Proof. induction a as [|x a IH]; intros [|y b] H; try discriminate; [reflexivity|]. cbn in H. apply andb_true_iff in H as [H1 H2].
  apply Bool.eqb_prop in H1 as ->. f_equal. apply IH, H2. Qed.
Definition row (Ps : list (Z -> bool)) (v : Z) : list bool := map (fun P => P v) Ps.
Fixpoint distinct (Ps : list (Z -> bool)) (vs : list Z) (have : list (Z * list bool)) : list Z :=
  match vs with
  | [] => map fst have
  | v :: vs => let w := row Ps v in if existsb (fun x => rows_eqb w (snd x)) have then distinct Ps vs have else distinct Ps vs ((v, w) :: have)
  end.
Lemma row_agrees : forall Ps v v', row Ps v = row Ps v' -> agrees Ps v v'.
Proof. induction Ps as [|P Ps IH]; intros v v' H; [constructor|]. cbn in H. injection H as H1 H2. constructor; [exact H1|apply IH, H2]. Qed.
Lemma agrees_trans : forall Ps a b c, agrees Ps a b -> agrees Ps b c -> agrees Ps a c.
Proof. unfold agrees. intros Ps a b c H1 H2. rewrite Forall_forall in *. intros P HP. rewrite (H1 P HP). apply H2, HP. Qed.
Lemma distinct_spec : forall Ps vs have, (forall v w, In (v, w) have -> w = row Ps v) ->
  (forall v, In v (map fst have) -> In v (distinct Ps vs have)) /\
  forall v, In v vs -> exists v', In v' (distinct Ps vs have) /\ agrees Ps v v'.
Proof.
  intros Ps. induction vs as [|v vs IH]; intros have H; cbn [distinct]; [split; [auto|intros v []]|].
  destruct (existsb (fun x => rows_eqb (row Ps v) (snd x)) have) eqn:E.
  - destruct (IH have H) as [I1 I2]. split; [exact I1|]. intros u [<-|Hu]; [|apply I2, Hu].
    apply existsb_exists in E as ((v' & w) & E1 & E2). cbn [snd] in E2. apply rows_eq in E2. rewrite (H v' w E1) in E2.
    exists v'. split; [apply I1; apply (in_map fst) in E1; exact E1|]. apply row_agrees. exact E2.
  - destruct (IH ((v, row Ps v) :: have)) as [I1 I2]; [intros v' w [K|K]; [injection K as <- <-; reflexivity|apply H, K]|].
    split; [intros u Hu; apply I1; right; exact Hu|]. intros u [<-|Hu]; [|apply I2, Hu]. exists v. split; [apply I1; left; reflexivity|].
    apply row_agrees. reflexivity.
Qed.
Definition reps (B : list Z) (Ps : list (Z -> bool)) : list Z := distinct Ps (B ++ [lowest B]) [].
Lemma reps_all : forall B Ps v, Forall (steady B) Ps -> exists j v', nth_error (reps B Ps) j = Some v' /\ agrees Ps v v'.
Proof.
  intros B Ps v H. destruct (represented B Ps v H) as (v1 & V1 & A1). destruct (distinct_spec Ps (B ++ [lowest B]) []) as [_ D]; [intros ? ? []|].
  destruct (D v1 V1) as (v2 & V2 & A2). apply In_nth_error in V2 as (j & J). exists j, v2. split; [exact J|]. exact (agrees_trans _ _ _ _ A1 A2).
Qed.
Lemma agrees_deriv : forall x v v', agrees (tests x) v v' -> deriv v x = deriv v' x.
Proof.
  induction x as [| |P|x IHx y IHy|x IHx y IHy|x IHx]; intros v v' H; cbn [deriv tests] in *; try reflexivity.
  - inversion H. subst. match goal with E : P v = _ |- _ => rewrite E end. reflexivity.
  - apply Forall_app in H as [H1 H2]. rewrite (IHx v v' H1), (IHy v v' H2). reflexivity.
  - apply Forall_app in H as [H1 H2]. rewrite (IHx v v' H1), (IHy v v' H2). reflexivity.
  - rewrite (IHx v v' H). reflexivity.
Qed.

(** * Expressions over numbered representatives, kept small by the laws of alternatives and sequences *)
Inductive sexp := SNone | SEps | SAll | SChar (col : list bool) | SAlt (a b : sexp) | SCat (a b : sexp) | SStar (a : sexp).
Fixpoint interp (e : sexp) : regexp :=
  match e with
  | SNone => XNone
  | SEps => XEps
  | SAll => XStar (XChar (fun _ => true))
  | SChar col => XChar (fun j => nth (Z.to_nat j) col false)
  | SAlt a b => XAlt (interp a) (interp b)
  | SCat a b => XCat (interp a) (interp b)
  | SStar a => XStar (interp a)
  end.
Fixpoint abs (vs : list Z) (x : regexp) : sexp :=
  match x with
  | XNone => SNone
  | XEps => SEps
  | XChar P => SChar (map P vs)
  | XAlt x y => SAlt (abs vs x) (abs vs y)
  | XCat x y => SCat (abs vs x) (abs vs y)
  | XStar x => match x with XChar P => if forallb P vs then SAll else SStar (abs vs x) | _ => SStar (abs vs x) end
  end.
Definition means (e : sexp) (w : list Z) : Prop := word (interp e) w.
Lemma abs_null : forall vs x, nullable (interp (abs vs x)) = nullable x.
Proof. intros vs. induction x as [| |P|x IHx y IHy|x IHx y IHy|x IHx]; cbn [abs interp nullable]; try congruence.
  destruct x; try reflexivity. destruct (forallb _ vs); reflexivity. Qed.
Lemma abs_deriv : forall vs j v x, nth_error vs j = Some v -> deriv (Z.of_nat j) (interp (abs vs x)) = interp (abs vs (deriv v x)).
Proof.
  intros vs j v x H. induction x as [| |P|x IHx y IHy|x IHx y IHy|x IHx]; cbn [abs interp deriv]; try congruence.
  - assert (E : nth (Z.to_nat (Z.of_nat j)) (map P vs) false = P v).
    { rewrite Nat2Z.id. apply nth_error_nth. rewrite nth_error_map, H. reflexivity. }
    rewrite E. destruct (P v); reflexivity.
  - rewrite abs_null, IHx, IHy. destruct (nullable x); reflexivity.
  - destruct x as [| |P|x1 x2|x1 x2|x]; try (cbn [interp deriv] in *; rewrite <- IHx; reflexivity).
    destruct (forallb P vs) eqn:A; [|cbn [interp deriv] in *; rewrite <- IHx; reflexivity]. cbn [interp deriv]. f_equal.
    rewrite forallb_forall in A. rewrite (A v (nth_error_In _ _ H)). reflexivity.
Qed.
Lemma abs_word : forall vs Ps w, (forall v, exists j v', nth_error vs j = Some v' /\ agrees Ps v v') ->
  exists ws, Forall (fun j => (0 <= j < Z.of_nat (length vs))%Z) ws /\
    forall x, (forall P, In P (tests x) -> In P Ps) -> accepts x w = accepts (interp (abs vs x)) ws.
Proof.
  intros vs Ps w R. induction w as [|v w IH].
  - exists []. split; [constructor|]. intros x _. cbn [accepts]. symmetry. apply abs_null.
  - destruct IH as (ws & W1 & W2). destruct (R v) as (j & v' & J & A). exists (Z.of_nat j :: ws). split.
    + constructor; [|exact W1]. assert (j < length vs) by (apply nth_error_Some; congruence). lia.
    + intros x I. cbn [accepts]. rewrite (abs_deriv vs j v' x J). rewrite (agrees_deriv x v v').
      * apply W2. intros P HP. pose proof (tests_deriv v' x (fun P => In P Ps)) as T. rewrite !Forall_forall in T. apply T; [exact I|exact HP].
      * unfold agrees in *. rewrite Forall_forall in *. intros P HP. apply A, I, HP.
Qed.
Fixpoint cmp_cols (a b : list bool) : comparison :=
  match a, b with
  | [], [] => Eq | [], _ => Lt | _, [] => Gt
  | true :: _, false :: _ => Lt | false :: _, true :: _ => Gt
  | _ :: a, _ :: b => cmp_cols a b
  end.
Definition tag (e : sexp) : nat := match e with SNone => 0 | SEps => 1 | SAll => 2 | SChar _ => 3 | SAlt _ _ => 4 | SCat _ _ => 5 | SStar _ => 6 end.
Fixpoint cmp (x y : sexp) : comparison :=
  match x, y with
  | SChar a, SChar b => cmp_cols a b
  | SAlt a b, SAlt c d | SCat a b, SCat c d => match cmp a c with Eq => cmp b d | o => o end
  | SStar a, SStar b => cmp a b
  | _, _ => Nat.compare (tag x) (tag y)
  end.
Lemma cmp_cols_eq : forall a b, cmp_cols a b = Eq -> a = b.
Proof. induction a as [|[] a IH]; intros [|[] b] H; try discriminate; try reflexivity; cbn in H; f_equal; apply IH, H. Qed.
Lemma cmp_eq : forall x y, cmp x y = Eq -> x = y.
Proof.
  induction x as [| | |c|x1 IH1 x2 IH2|x1 IH1 x2 IH2|x IH]; intros [| | |c'|y1 y2|y1 y2|y] H; try discriminate; try reflexivity; cbn [cmp] in H.
  - f_equal. apply cmp_cols_eq, H.
  - destruct (cmp x1 y1) eqn:E; try discriminate. f_equal; auto.
  - destruct (cmp x1 y1) eqn:E; try discriminate. f_equal; auto.
  - f_equal. auto.
Qed.
Fixpoint alts (e : sexp) : list sexp := match e with SNone => [] | SAlt a b => alts a ++ alts b | e => [e] end.
Fixpoint insert (e : sexp) (l : list sexp) : list sexp :=
  match l with [] => [e] | x :: l' => match cmp e x with Lt => e :: l | Eq => l | Gt => x :: insert e l' end end.
Definition is_all (e : sexp) : bool := match e with SAll => true | _ => false end.
Fixpoint join (l : list sexp) : sexp := match l with [] => SNone | [e] => e | e :: l => SAlt e (join l) end.
Definition salt (a b : sexp) : sexp :=
  let l := fold_right insert [] (alts a ++ alts b) in if existsb is_all l then SAll else join l.
Fixpoint scat (a b : sexp) : sexp :=
  match a with
  | SNone => SNone
  | SEps => b
  | SCat x y => match b with SNone => SNone | _ => SCat x (scat y b) end
  | SAll => match b with SNone => SNone | SEps | SAll => SAll | SCat SAll c => SCat SAll c | _ => SCat SAll b end
  | _ => match b with SNone => SNone | SEps => a | _ => SCat a b end
  end.
Fixpoint snull (e : sexp) : bool :=
  match e with
  | SNone | SChar _ => false
  | SEps | SAll | SStar _ => true
  | SAlt a b => snull a || snull b
  | SCat a b => snull a && snull b
  end.
Fixpoint sderiv (j : nat) (e : sexp) : sexp :=
  match e with
  | SNone | SEps => SNone
  | SAll => SAll
  | SChar col => if nth j col false then SEps else SNone
  | SAlt a b => salt (sderiv j a) (sderiv j b)
  | SCat a b => if snull a then salt (scat (sderiv j a) b) (sderiv j b) else scat (sderiv j a) b
  | SStar a => scat (sderiv j a) (SStar a)
  end.

(** The laws. *)
Lemma word_alt : forall x y w, word (XAlt x y) w <-> word x w \/ word y w.
Proof. intros x y w. split; [intros H; inversion H; auto|intros [H|H]; [apply w_left|apply w_right]; exact H]. Qed.
Lemma word_cat : forall x y w, word (XCat x y) w <-> exists w1 w2, w = w1 ++ w2 /\ word x w1 /\ word y w2.
Proof. intros x y w. split; [intros H; inversion H; eauto 6|intros (w1 & w2 & -> & H1 & H2); constructor; assumption]. Qed.
Lemma all_means : forall w, means SAll w.
Proof. induction w as [|v w IH]; unfold means in *; cbn [interp] in *; [constructor|]. change (v :: w) with ([v] ++ w). constructor; [constructor; reflexivity|exact IH]. Qed.
Lemma alts_means : forall e w, means e w <-> exists x, In x (alts e) /\ means x w.
Proof.
  induction e as [| | |c|x1 IH1 x2 IH2|x1 IH1 x2 IH2|x IH]; intros w; cbn [alts]; try (split; [intros H; eexists; split; [left; reflexivity|exact H]|intros (y & [<-|[]] & H); exact H]).
  - split; [intros H; inversion H|intros (y & [] & _)].
  - unfold means at 1. cbn [interp]. rewrite word_alt. fold (means x1 w). fold (means x2 w). rewrite IH1, IH2. split.
    + intros [(y & Y1 & Y2)|(y & Y1 & Y2)]; exists y; (split; [apply in_or_app|exact Y2]); auto.
    + intros (y & Y1 & Y2). apply in_app_or in Y1 as [Y1|Y1]; [left|right]; eauto.
Qed.
Lemma insert_means : forall e l w, (exists x, In x (insert e l) /\ means x w) <-> means e w \/ exists x, In x l /\ means x w.
Proof.
  intros e l w. induction l as [|y l IH]; cbn [insert].
  - split; [intros (x & [<-|[]] & H); auto|intros [H|(x & [] & _)]; exists e; cbn; auto].
  - destruct (cmp e y) eqn:E.
    + apply cmp_eq in E as ->. split; [intros H; right; exact H|intros [H|H]; [exists y; cbn; auto|exact H]].
    + split; [intros (x & [<-|X] & H); [auto|right; eauto]|intros [H|(x & X & H)]; [exists e; cbn; auto|exists x; cbn in *; auto]].
    + split.
      * intros (x & [<-|X] & H); [right; exists y; cbn; auto|]. destruct (proj1 IH (ex_intro _ x (conj X H))) as [K|(z & Z1 & Z2)]; [auto|].
        right. exists z. cbn. auto.
      * intros [H|(x & [<-|X] & H)]; [|exists y; cbn; auto|].
        { destruct (proj2 IH (or_introl H)) as (z & Z1 & Z2). exists z. cbn. auto. }
        destruct (proj2 IH (or_intror (ex_intro _ x (conj X H)))) as (z & Z1 & Z2). exists z. cbn. auto.
Qed.
Lemma join_means : forall l w, means (join l) w <-> exists x, In x l /\ means x w.
Proof.
  induction l as [|e l IH]; intros w; [split; [intros H; inversion H|intros (x & [] & _)]|]. destruct l as [|e' l].
  - cbn [join]. split; [intros H; exists e; cbn; auto|intros (x & [<-|[]] & H); exact H].
  - change (join (e :: e' :: l)) with (SAlt e (join (e' :: l))). unfold means at 1. cbn [interp]. rewrite word_alt.
    fold (means (join (e' :: l)) w). rewrite IH. split.
    + intros [H|(x & X & H)]; [exists e; cbn; auto|exists x; split; [right; exact X|exact H]].
    + intros (x & [<-|X] & H); [left; exact H|right; eauto].
Qed.
Lemma salt_means : forall a b w, means (salt a b) w <-> means a w \/ means b w.
Proof.
  intros a b w. assert (S : (exists x, In x (fold_right insert [] (alts a ++ alts b)) /\ means x w) <-> means a w \/ means b w).
  { rewrite (alts_means a), (alts_means b). transitivity (exists x, In x (alts a ++ alts b) /\ means x w).
    - induction (alts a ++ alts b) as [|e l IH]; cbn [fold_right]; [reflexivity|]. rewrite insert_means, IH. split.
      + intros [H|(x & X & H)]; [exists e; cbn; auto|exists x; cbn; auto].
      + intros (x & [<-|X] & H); eauto.
    - split; [intros (x & X & H); apply in_app_or in X as [X|X]; eauto|intros [(x & X & H)|(x & X & H)]; exists x; (split; [apply in_or_app; auto|exact H])]. }
  unfold salt. destruct (existsb is_all _) eqn:E; [|rewrite join_means; exact S].
  split; intros _; [|apply all_means]. apply S. apply existsb_exists in E as (x & X & K). exists x. split; [exact X|].
  destruct x; try discriminate. apply all_means.
Qed.
Lemma scat_means : forall a b w, means (scat a b) w <-> exists w1 w2, w = w1 ++ w2 /\ means a w1 /\ means b w2.
Proof.
  assert (N : forall (a : sexp) w, means SNone w <-> exists w1 w2, w = w1 ++ w2 /\ means a w1 /\ means SNone w2).
  { intros a w. split; [intros H; inversion H|intros (w1 & w2 & _ & _ & H); inversion H]. }
  assert (E : forall (a : sexp) w, means a w <-> exists w1 w2, w = w1 ++ w2 /\ means a w1 /\ means SEps w2).
  { intros a w. split; [intros H; exists w, []; rewrite app_nil_r; split; [reflexivity|split; [exact H|constructor]]|].
    intros (w1 & w2 & -> & H1 & H2). inversion H2. rewrite app_nil_r. exact H1. }
  assert (D : forall a b w, means (SCat a b) w <-> exists w1 w2, w = w1 ++ w2 /\ means a w1 /\ means b w2).
  { intros a b w. unfold means. cbn [interp]. apply word_cat. }
  assert (AA : forall w, means SAll w <-> exists w1 w2, w = w1 ++ w2 /\ means SAll w1 /\ means SAll w2).
  { intros w. split; [intros _; exists [], w; split; [reflexivity|split; apply all_means]|intros _; apply all_means]. }
  assert (AC : forall c w, means (SCat SAll c) w <-> exists w1 w2, w = w1 ++ w2 /\ means SAll w1 /\ means (SCat SAll c) w2).
  { intros c w. split.
    - intros H. exists [], w. split; [reflexivity|]. split; [apply all_means|exact H].
    - intros (w1 & w2 & -> & _ & H). apply D in H as (w3 & w4 & -> & _ & H). apply D. exists (w1 ++ w3), w4.
      rewrite <- app_assoc. split; [reflexivity|]. split; [apply all_means|exact H]. }
  induction a as [| | |c|x1 IH1 x2 IH2|x1 IH1 x2 IH2|x IH]; intros b w; cbn [scat].
  - split; [intros H; inversion H|intros (w1 & w2 & _ & H & _); inversion H].
  - split; [intros H; exists [], w; split; [reflexivity|split; [constructor|exact H]]|intros (w1 & w2 & -> & H1 & H2); inversion H1; exact H2].
  - destruct b; try apply N; try apply E; try apply AA; try apply D. destruct b1; try apply D. apply AC.
  - destruct b; try apply N; try apply E; apply D.
  - destruct b; try apply N; try apply E; apply D.
  - assert (G : means (SCat x1 (scat x2 b)) w <-> exists w1 w2, w = w1 ++ w2 /\ means (SCat x1 x2) w1 /\ means b w2).
    { rewrite D. split.
      - intros (w1 & w2 & -> & H1 & H2). apply IH2 in H2 as (w3 & w4 & -> & H3 & H4). exists (w1 ++ w3), w4. rewrite <- app_assoc.
        split; [reflexivity|]. split; [apply D; eauto 6|exact H4].
      - intros (w1 & w2 & -> & H1 & H2). apply D in H1 as (w3 & w4 & -> & H3 & H4). exists w3, (w4 ++ w2). rewrite <- app_assoc.
        split; [reflexivity|]. split; [exact H3|]. apply IH2. eauto 6. }
    destruct b; try exact G. apply N.
  - destruct b; try apply N; try apply E; apply D.
Qed.
Lemma snull_means : forall e, snull e = nullable (interp e).
Proof. induction e as [| | |c|x1 IH1 x2 IH2|x1 IH1 x2 IH2|x IH]; cbn [snull interp nullable]; congruence. Qed.
Lemma sderiv_means : forall j e w, means (sderiv j e) w <-> means e (Z.of_nat j :: w).
Proof.
  intros j e w. unfold means at 2. rewrite <- deriv_word. revert w.
  induction e as [| | |c|x1 IH1 x2 IH2|x1 IH1 x2 IH2|x IH]; intros w; cbn [sderiv interp deriv].
  - reflexivity.
  - reflexivity.
  - cbv iota. split; [|intros _; apply all_means]. intros _. change w with ([] ++ w). constructor; [constructor|apply all_means].
  - rewrite Nat2Z.id. destruct (nth j c false); reflexivity.
  - rewrite salt_means, word_alt, IH1, IH2. reflexivity.
  - assert (C : means (scat (sderiv j x1) x2) w <-> word (XCat (deriv (Z.of_nat j) (interp x1)) (interp x2)) w).
    { rewrite scat_means, word_cat. split; intros (w1 & w2 & W & H1 & H2); exists w1, w2; (split; [exact W|split; [apply IH1; exact H1|exact H2]]). }
    rewrite <- snull_means. destruct (snull x1); [|exact C]. rewrite salt_means, word_alt, C, IH2. reflexivity.
  - rewrite scat_means, word_cat. split; intros (w1 & w2 & W & H1 & H2); exists w1, w2; (split; [exact W|split; [apply IH; exact H1|exact H2]]).
Qed.
Lemma accepts_ext : forall x y, (forall w, word x w <-> word y w) -> forall w, accepts x w = accepts y w.
Proof.
  intros x y H w. destruct (accepts x w) eqn:E, (accepts y w) eqn:F; try reflexivity.
  - apply accepts_word, H, accepts_word in E. congruence.
  - apply accepts_word, H, accepts_word in F. congruence.
Qed.
Lemma accepts_sderiv : forall j e w, accepts (interp e) (Z.of_nat j :: w) = accepts (interp (sderiv j e)) w.
Proof. intros j e w. cbn [accepts]. apply accepts_ext. intros u. rewrite deriv_word. symmetry. apply sderiv_means. Qed.

(** * The walk *)
Inductive verdict := Holds | Fails (w : list Z) | Unknown.
Section Walk.
Variables (g : bool -> bool -> bool) (k : nat).
Definition same_pair (p q : sexp * sexp) : bool :=
  match cmp (fst p) (fst q), cmp (snd p) (snd q) with Eq, Eq => true | _, _ => false end.
Definition next_pairs (w : list nat) (p : sexp * sexp) : list (list nat * (sexp * sexp)) :=
  map (fun j => (j :: w, (sderiv j (fst p), sderiv j (snd p)))) (seq 0 k).
(** [todo]: pairs with the way there, last step first. *)
Fixpoint explore (fuel : nat) (todo : list (list nat * (sexp * sexp))) (seen : list (sexp * sexp)) : list nat + bool :=
  match fuel with
  | O => inr false
  | S fuel' =>
      match todo with
      | [] => inr true
      | (w, p) :: rest =>
          if existsb (same_pair p) seen then explore fuel' rest seen
          else if g (snull (fst p)) (snull (snd p)) then explore fuel' (rest ++ next_pairs w p) (p :: seen)
          else inl (rev w)
      end
  end.
Definition bisimulation (R : sexp * sexp -> Prop) : Prop := forall p, R p ->
  g (snull (fst p)) (snull (snd p)) = true /\ forall j, j < k -> R (sderiv j (fst p), sderiv j (snd p)).
Lemma explore_sound : forall fuel todo seen,
  (forall p, In p seen -> g (snull (fst p)) (snull (snd p)) = true /\
     forall j, j < k -> In (sderiv j (fst p), sderiv j (snd p)) (seen ++ map snd todo)) ->
  explore fuel todo seen = inr true -> exists R, bisimulation R /\ forall p, In p (seen ++ map snd todo) -> R p.
Proof.
  induction fuel as [|fuel IH]; intros todo seen H E; [discriminate|]. cbn [explore] in E. destruct todo as [|[w p] rest].
  - exists (fun p => In p seen). cbn [map] in *. rewrite app_nil_r in *. split; [exact H|auto].
  - destruct (existsb (same_pair p) seen) eqn:X.
    + assert (In p seen).
      { apply existsb_exists in X as (q & Q & K). unfold same_pair in K. destruct (cmp (fst p) (fst q)) eqn:K1; try discriminate.
        destruct (cmp (snd p) (snd q)) eqn:K2; try discriminate. apply cmp_eq in K1, K2. destruct p, q. cbn [fst snd] in *. subst. exact Q. }
      assert (Sub : forall q, In q (seen ++ map snd ((w, p) :: rest)) -> In q (seen ++ map snd rest)).
      { intros q Hq. apply in_app_or in Hq as [Hq|[<-|Hq]]; apply in_or_app; auto. }
      destruct (IH rest seen) as (R & R1 & R2); [|exact E|].
      * intros q Hq. destruct (H q Hq) as [H1 H2]. split; [exact H1|]. intros j Hj. apply Sub, H2, Hj.
      * exists R. split; [exact R1|]. intros q Hq. apply R2, Sub, Hq.
    + destruct (g (snull (fst p)) (snull (snd p))) eqn:G; [|discriminate].
      assert (Nx : map snd (rest ++ next_pairs w p) = map snd rest ++ map (fun j => (sderiv j (fst p), sderiv j (snd p))) (seq 0 k)).
      { rewrite map_app. f_equal. unfold next_pairs. rewrite map_map. reflexivity. }
      assert (Sub : forall q, In q (seen ++ map snd ((w, p) :: rest)) -> In q ((p :: seen) ++ map snd (rest ++ next_pairs w p))).
      { intros q Hq. rewrite Nx. apply in_app_or in Hq as [Hq|[<-|Hq]].
        - right. apply in_or_app. left. exact Hq.
        - left. reflexivity.
        - right. apply in_or_app. right. apply in_or_app. left. exact Hq. }
      destruct (IH (rest ++ next_pairs w p) (p :: seen)) as (R & R1 & R2); [|exact E|].
      * intros q [<-|Hq].
        { split; [exact G|]. intros j Hj. rewrite Nx. right. apply in_or_app. right. apply in_or_app. right.
          apply in_map_iff. exists j. split; [reflexivity|]. apply in_seq. lia. }
        destruct (H q Hq) as [H1 H2]. split; [exact H1|]. intros j Hj. apply Sub, H2, Hj.
      * exists R. split; [exact R1|]. intros q Hq. apply R2, Sub, Hq.
Qed.
Lemma bisimulation_words : forall R, bisimulation R -> forall w, Forall (fun j => (0 <= j < Z.of_nat k)%Z) w -> forall p, R p ->
  g (accepts (interp (fst p)) w) (accepts (interp (snd p)) w) = true.
Proof.
  intros R HR. induction 1 as [|j w Hj _ IH]; intros p Hp.
  - cbn [accepts]. rewrite <- !snull_means. apply HR, Hp.
  - replace j with (Z.of_nat (Z.to_nat j)) by lia. rewrite !accepts_sderiv.
    apply (IH (sderiv (Z.to_nat j) (fst p), sderiv (Z.to_nat j) (snd p))). apply HR; [exact Hp|lia].
Qed.
End Walk.

(** * Comparing *)
(** [pre]: after any prefix; [post]: before any rest. *)
Definition any_word : regexp := XStar (XChar (fun _ => true)).
Definition wrap (pre post : bool) (x : regexp) : regexp :=
  let x := if post then XCat x any_word else x in if pre then XCat any_word x else x.
(** [B]: places at which the tests of [x] and [y] may change. A word that tells them apart is tried again with the
    expressions themselves. *)
Definition compare (g : bool -> bool -> bool) (fuel : nat) (B : list Z) (x y : regexp) : verdict :=
  let vs := reps B (tests x ++ tests y) in
  match explore g (length vs) fuel [([], (abs vs x, abs vs y))] [] with
  | inr true => Holds
  | inr false => Unknown
  | inl js =>
      let w := map (fun j => nth j vs 0%Z) js in
      if g (accepts x w) (accepts y w) then Unknown else Fails w
  end.
Theorem compare_holds : forall g fuel B x y, Forall (steady B) (tests x) -> Forall (steady B) (tests y) ->
  compare g fuel B x y = Holds -> forall w, g (accepts x w) (accepts y w) = true.
Proof.
  intros g fuel B x y Hx Hy E w. unfold compare in E. set (vs := reps B (tests x ++ tests y)) in *.
  assert (H : Forall (steady B) (tests x ++ tests y)) by (apply Forall_app; auto).
  destruct (abs_word vs (tests x ++ tests y) w) as (ws & W1 & W2); [intros v; apply reps_all; exact H|].
  rewrite (W2 x), (W2 y) by (intros P HP; apply in_or_app; auto).
  destruct (explore g (length vs) fuel _ _) as [js|[|]] eqn:X; [destruct (g (accepts x _) _); discriminate| |discriminate].
  apply explore_sound in X as (R & R1 & R2); [|intros p []].
  apply (bisimulation_words g (length vs) R R1 ws W1 (abs vs x, abs vs y)). apply R2. left. reflexivity.
Qed.
Theorem compare_fails : forall g fuel B x y w, compare g fuel B x y = Fails w -> g (accepts x w) (accepts y w) = false.
Proof.
  intros g fuel B x y w E. unfold compare in E. destruct (explore g _ fuel _ _) as [js|[|]]; try discriminate. cbv zeta in E.
  destruct (g (accepts x (map _ js)) _) eqn:G; [discriminate|]. injection E as <-. exact G.
Qed.

(** * Patterns *)
Lemma any_word_all : forall w, word any_word w.
Proof. exact all_means. Qed.
Lemma wrap_starts : forall x w, accepts (wrap false true x) w = accepts_prefix x w.
Proof.
  intros x w. apply Textbook.bool_iff. unfold wrap. cbv zeta. rewrite accepts_word, accepts_prefix_word, word_cat. split.
  - intros (w1 & w2 & -> & H & _). eauto.
  - intros (w1 & w2 & -> & H). exists w1, w2. split; [reflexivity|]. split; [exact H|apply any_word_all].
Qed.
Lemma wrap_search : forall x w, accepts (wrap true true x) w = match first_piece x w with Some _ => true | None => false end.
Proof.
  intros x w. apply Textbook.bool_iff. unfold wrap. cbv zeta. rewrite accepts_word. pose proof (first_piece_least w x) as F.
  rewrite word_cat. destruct (first_piece x w) as [b|].
  - split; [reflexivity|]. intros _. destruct F as (F1 & F2 & _). apply accepts_prefix_word in F2 as (w1 & w2 & E & H).
    exists (firstn b w), (skipn b w). split; [symmetry; apply firstn_skipn|]. split; [apply any_word_all|]. rewrite E.
    apply word_cat. exists w1, w2. split; [reflexivity|]. split; [exact H|apply any_word_all].
  - split; [|discriminate]. intros (w1 & w2 & -> & _ & H). apply word_cat in H as (w3 & w4 & -> & H & _).
    specialize (F (length w1)). rewrite app_length in F. specialize (F ltac:(lia)).
    rewrite skipn_app, skipn_all, Nat.sub_diag in F. cbn [app skipn] in F.
    rewrite (proj2 (accepts_prefix_word (w3 ++ w4) x)) in F by eauto. discriminate.
Qed.
Lemma wrap_steady : forall B pre post x, Forall (steady B) (tests x) -> Forall (steady B) (tests (wrap pre post x)).
Proof.
  intros B pre post x H. assert (A : Forall (steady B) (tests any_word)) by (constructor; [intros ? ? ? ?; reflexivity|constructor]).
  unfold wrap. destruct pre, post; cbn [tests]; rewrite ?Forall_app; auto.
Qed.
Inductive question := Match | StartsWith | Search.
Definition asked (q : question) (x : regexp) : regexp :=
  match q with Match => x | StartsWith => wrap false true x | Search => wrap true true x end.
Definition compare_patterns (g : bool -> bool -> bool) (q1 q2 : question) (fuel : nat) (f1 f2 : flags) (r1 r2 : re) : verdict :=
  compare g fuel (re_breaks r1 ++ re_breaks r2) (asked q1 (textbook f1 r1)) (asked q2 (textbook f2 r2)).
Lemma asked_steady : forall B q f r, incl (re_breaks r) B -> Forall (steady B) (tests (asked q (textbook f r))).
Proof.
  intros B q f r I. assert (H : Forall (steady B) (tests (textbook f r))).
  { eapply Forall_impl; [|apply tests_steady]. intros P. apply steady_more. exact I. }
  destruct q; cbn [asked]; [exact H| |]; apply wrap_steady; exact H.
Qed.
Theorem patterns_hold : forall g q1 q2 fuel f1 f2 r1 r2, compare_patterns g q1 q2 fuel f1 f2 r1 r2 = Holds ->
  forall w, g (accepts (asked q1 (textbook f1 r1)) w) (accepts (asked q2 (textbook f2 r2)) w) = true.
Proof.
  intros g q1 q2 fuel f1 f2 r1 r2. apply compare_holds; apply asked_steady; [apply incl_appl|apply incl_appr]; apply incl_refl.
Qed.

(** * Calls *)
Definition call (q : question) (opt : bool) (n : nat) (s : list Z) (f : flags) (r : re) : res caps :=
  match q with Match => ctre_match opt n s f r | StartsWith => ctre_starts_with opt n s f r | Search => ctre_search opt n s f r end.
(** The checks of C47 and C48 for the call. *)
Definition ready (q : question) (opt : bool) (f : flags) (r0 r : re) : bool :=
  fusible r0 && regular r0 && terminating r && scope_check f r0 && msound_check opt f r &&
  match q with
  | Match => right_check opt f r MMatch
  | StartsWith => right_check opt f r MStarts
  | Search => right_check opt f r MSearch && negb (starts_with_anchor f r)
  end.
Theorem call_answers : forall props u r0 r, pattern_text props plain_builders u r0 -> compile props u = CRegex r ->
  forall q opt f, ready q opt f r0 r = true -> forall s, forallb val_ok s = true ->
  exists c, answers (fun n => call q opt n s f r) c /\ matched c = accepts (asked q (textbook f r0)) s.
Proof.
  intros props u r0 r T C q opt f R s V. unfold ready in R. repeat rewrite andb_true_iff in R. destruct R as (((((R1 & R2) & R3) & R4) & R5) & R6).
  destruct q; cbn [call asked].
  - exact (textbook_match props u r0 r T C R1 R2 opt s f V R3 R4 R5 R6).
  - destruct (textbook_starts props u r0 r T C R1 R2 opt s f V R3 R4 R5 R6) as (c & A & M & _). exists c. split; [exact A|].
    rewrite wrap_starts. exact M.
  - apply andb_true_iff in R6 as [R6 R7]. apply negb_true_iff in R7.
    destruct (textbook_search props u r0 r T C R1 R2 opt s f V R3 R4 R5 R6 R7) as (c & A & M). exists c. split; [exact A|].
    rewrite wrap_search. destruct (first_piece (textbook f r0) s); [apply M|exact M].
Qed.

(** * Texts *)
Lemma text_of : forall props u r0 r, several_letters u = false -> compile props u = CRegex r -> plain_compile props u = CRegex r0 ->
  pattern_text props plain_builders u r0.
Proof.
  intros props u r0 r S C P. destruct (compiled_denotes props u r S C) as (r' & T & _). destruct (text_plain props u r' T) as (n & k & E).
  unfold plain_compile in P. destruct (plain_run props (parse_fuel u) None u [NT N_s] (mkCtx [] 0)) as [c| | |] eqn:E1; try discriminate.
  apply (plain_mono _ _ (n + parse_fuel u)) in E; [|lia]. apply (plain_mono _ _ (n + parse_fuel u)) in E1; [|lia].
  rewrite E in E1. injection E1 as <-. injection P as <-. exact T.
Qed.
(** A call of the library: the function, the mode, the text of the pattern. *)
Record asking := mkAsking { a_question : question; a_mode : flags; a_text : list Z }.
Definition readings props (opt : bool) (a : asking) : option (re * re) :=
  match compile props (a_text a), plain_compile props (a_text a) with
  | CRegex r, CRegex r0 => if negb (several_letters (a_text a)) && ready (a_question a) opt (a_mode a) r0 r then Some (r0, r) else None
  | _, _ => None
  end.
Definition decide props (opt : bool) (g : bool -> bool -> bool) (fuel : nat) (a b : asking) : verdict :=
  match readings props opt a, readings props opt b with
  | Some (r1, _), Some (r2, _) =>
      match compare_patterns g (a_question a) (a_question b) fuel (a_mode a) (a_mode b) r1 r2 with
      | Fails w => if forallb val_ok w then Fails w else Unknown
      | v => v
      end
  | _, _ => Unknown
  end.
(** With the subject [s] the call [a] answers, with [m]: matched or not. *)
Definition says props (opt : bool) (a : asking) (s : list Z) (m : bool) : Prop :=
  exists r c, compile props (a_text a) = CRegex r /\ answers (fun n => call (a_question a) opt n s (a_mode a) r) c /\ matched c = m.
Lemma readings_say : forall props opt a r0 r, readings props opt a = Some (r0, r) -> forall s, forallb val_ok s = true ->
  says props opt a s (accepts (asked (a_question a) (textbook (a_mode a) r0)) s).
Proof.
  intros props opt a r0 r E s V. unfold readings in E. destruct (compile props (a_text a)) as [r'| | |] eqn:C; try discriminate.
  destruct (plain_compile props (a_text a)) as [r0'| | |] eqn:P; try discriminate. destruct (negb _ && _) eqn:R; [|discriminate].
  injection E as -> ->. apply andb_true_iff in R as [R1 R2]. apply negb_true_iff in R1.
  destruct (call_answers props (a_text a) r0 r (text_of _ _ _ _ R1 C P) C _ _ _ R2 s V) as (c & A & M). exists r, c. auto.
Qed.
Theorem decide_holds : forall props opt g fuel a b, decide props opt g fuel a b = Holds -> forall s, forallb val_ok s = true ->
  exists m1 m2, says props opt a s m1 /\ says props opt b s m2 /\ g m1 m2 = true.
Proof.
  intros props opt g fuel a b E s V. unfold decide in E. destruct (readings props opt a) as [[r1 k1]|] eqn:A; [|discriminate].
  destruct (readings props opt b) as [[r2 k2]|] eqn:B; [|discriminate].
  destruct (compare_patterns _ _ _ _ _ _ _ _) as [|w|] eqn:X; [|destruct (forallb val_ok w); discriminate|discriminate].
  do 2 eexists. split; [apply (readings_say _ _ _ _ _ A s V)|]. split; [apply (readings_say _ _ _ _ _ B s V)|].
  apply (patterns_hold _ _ _ _ _ _ _ _ X).
Qed.
Theorem decide_fails : forall props opt g fuel a b w, decide props opt g fuel a b = Fails w ->
  exists m1 m2, says props opt a w m1 /\ says props opt b w m2 /\ g m1 m2 = false.
Proof.
  intros props opt g fuel a b w E. unfold decide in E. destruct (readings props opt a) as [[r1 k1]|] eqn:A; [|discriminate].
  destruct (readings props opt b) as [[r2 k2]|] eqn:B; [|discriminate].
  destruct (compare_patterns _ _ _ _ _ _ _ _) as [|w'|] eqn:X; try discriminate. destruct (forallb val_ok w') eqn:V; [|discriminate].
  injection E as ->. do 2 eexists. split; [apply (readings_say _ _ _ _ _ A w V)|]. split; [apply (readings_say _ _ _ _ _ B w V)|].
  apply (compare_fails _ _ _ _ _ _ X).
Qed.
