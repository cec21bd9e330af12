(** The rewriting of the AST while parsing preserves the language: C35. *)
From Coq Require Import List ZArith NArith Bool Arith Lia.
From Coq Require Import ZifyBool ZifyNat ZifyN.
From Verif Require Import Mode ModeSem Chars Syntax View Eval Api Grammar Actions Parser Spec EvalInv ApiProofs EvalTop Match ParserProofs Numbering Classes.
Import ListNotations.

(** * Specification: a parser that does not rewrite *)
(** The same grammar, but a sequence stays a pair, an alternative stays a pair, and every construct keeps
    its content as one node. Only the actions that build nodes from nodes differ. *)
Definition plain_apply (props : list Z -> option (list Z) -> option (list (Z * Z))) (a : action) (p : option Z) (c : ctx) : act_res :=
  let one (f : re -> re) := match stk c with IRe x :: ts => Done (mkCtx (IRe (f x) :: ts) (counter c)) | _ => IllAct end in
  let two (f : re -> re -> re) :=
    match stk c with IRe y :: IRe x :: ts => Done (mkCtx (IRe (f x y) :: ts) (counter c)) | _ => IllAct end in
  let kind (k : rkind) :=
    match stk c with IRe (RRep Greedy a b l) :: ts => Done (mkCtx (IRe (RRep k a b l) :: ts) (counter c)) | _ => IllAct end in
  match p with
  | None => apply props a p c
  | Some _ =>
  match a with
  | A_make_alternate => two (fun x y => RSelect [x; y])
  | A_make_sequence => two (fun x y => RSeq [x; y])
  | A_make_optional => one (fun x => RRep Greedy 0 1 [x])
  | A_repeat_plus => one (fun x => RRep Greedy 1 0 [x])
  | A_repeat_star => one (fun x => RRep Greedy 0 0 [x])
  | A_repeat_ab => match stk c with INum b :: INum a :: IRe x :: ts => Done (mkCtx (IRe (RRep Greedy a b [x]) :: ts) (counter c)) | _ => IllAct end
  | A_repeat_exactly => match stk c with INum a :: IRe x :: ts => Done (mkCtx (IRe (RRep Greedy a a [x]) :: ts) (counter c)) | _ => IllAct end
  | A_repeat_at_least => match stk c with INum a :: IRe x :: ts => Done (mkCtx (IRe (RRep Greedy a 0 [x]) :: ts) (counter c)) | _ => IllAct end
  | A_make_lazy => kind Lazy
  | A_make_possessive => kind Possessive
  | A_make_capture => match stk c with IRe x :: ICap i :: ts => Done (mkCtx (IRe (RCap i [x]) :: ts) (counter c)) | _ => IllAct end
  | A_make_capture_with_name =>
      match stk c with IRe x :: IId n :: ICap i :: ts => Done (mkCtx (IRe (RNCap i n [x]) :: ts) (counter c)) | _ => IllAct end
  | A_look_finish =>
      match stk c with
      | IRe x :: ILook false neg :: ts => Done (mkCtx (IRe (RAhead neg [x]) :: ts) (counter c))
      | IRe x :: ILook true neg :: ts =>
          match rotate x with Some y => Done (mkCtx (IRe (RBehind neg [y]) :: ts) (counter c)) | None => IllAct end
      | _ => IllAct
      end
  | A_make_atomic => match stk c with IRe x :: IAtomic :: ts => Done (mkCtx (IRe (RAtomic [x]) :: ts) (counter c)) | _ => IllAct end
  | _ => apply props a p c
  end
  end.
Fixpoint plain_run props (fuel : nat) (prev : option Z) (input : list Z) (stack : list sym) (c : ctx) : parsed :=
  match fuel with
  | O => PFuel
  | S n =>
      match stack with
      | [] => match input with [] => PAccept c | _ => PReject end
      | Act a :: st => match plain_apply props a prev c with Done c' => plain_run props n prev input st c' | Reject => PReject | IllAct => PIll end
      | NT x :: st => match rule x (hd_error input) with Push l => plain_run props n prev input (l ++ st) c | Rej => PReject end
      | t :: st => match input with ch :: rest => if term_matches t ch then plain_run props n (Some ch) rest st c else PReject | [] => PReject end
      end
  end.
Definition plain_compile props (input : list Z) : compiled :=
  match plain_run props (parse_fuel input) None input [NT N_s] (mkCtx [] 0) with
  | PAccept c => match stk c with IRe r :: _ => CRegex r | _ => CIll end
  | PReject => CReject | PIll => CIll | PFuel => CFuel
  end.

(** When the rewriting is harmless, in terms of the unrewritten AST: bounds in order, no possessive
    repetition directly followed by a possessive repetition, sums of neighbouring bounds below 2^64. *)
Definition is_poss (r : re) : bool := match r with RRep Possessive _ _ _ => true | _ => false end.
Definition head_poss (r : re) : bool := match r with RSeq (x :: _) => is_poss x | _ => is_poss r end.
Fixpoint weight (r : re) : N :=
  match r with
  | RRep _ a b _ => a + b
  | RSeq l => fold_right (fun x n => weight x + n)%N 0%N l
  | _ => 0
  end.
Fixpoint adjacent (l : list re) : bool :=
  match l with x :: (y :: _) as t => (is_poss x && head_poss y) || adjacent t | _ => false end.
Fixpoint fusible (r : re) : bool :=
  match r with
  | RSelect l | RCap _ l | RNCap _ _ l | RAhead _ l | RAtomic l => forallb fusible l
  | RRep _ a b l => (N.eqb b 0 || N.leb a b) && forallb fusible l
  | RSeq l => forallb fusible l && negb (adjacent l) && N.ltb (weight r) size_mod
  | _ => true
  end.

(** * Equality of nodes is equality *)
Lemma re_eqb_eq : forall rr r', re_eqb rr r' = true -> rr = r'.
Proof.
  intros rr.
  apply (re_ind2 (fun r => forall r', re_eqb r r' = true -> r = r') (fun l => Forall (fun x => forall y, re_eqb x y = true -> x = y) l));
    try (intros; constructor; assumption);
    try (intros; match goal with r' : re |- _ => destruct r' end; cbn [re_eqb] in *; try discriminate; reflexivity).
  - intros c [] H; cbn [re_eqb] in H; try discriminate. f_equal. apply cls_eqb_eq. assumption.
  - intros l [] H; cbn [re_eqb] in H; try discriminate. f_equal. apply (leqb_eq _ Z.eqb); [|assumption]. apply Forall_forall. intros x _ y. apply Z.eqb_eq.
  - intros l F [] H; cbn [re_eqb] in H; try discriminate. f_equal. apply (leqb_eq _ re_eqb); assumption.
  - intros l F [] H; cbn [re_eqb] in H; try discriminate. f_equal. apply (leqb_eq _ re_eqb); assumption.
  - intros k a b l F [] H; cbn [re_eqb] in H; try discriminate. apply andb_true_iff in H as [H H1]. apply andb_true_iff in H as [H H2].
    apply andb_true_iff in H as [H H3]. apply N.eqb_eq in H2, H3. apply (leqb_eq _ re_eqb) in H1; [|assumption]. subst.
    destruct k, k0; try discriminate; reflexivity.
  - intros i l F [] H; cbn [re_eqb] in H; try discriminate. apply andb_true_iff in H as [H H1]. apply Nat.eqb_eq in H.
    apply (leqb_eq _ re_eqb) in H1; [|assumption]. subst. reflexivity.
  - intros i nm l F [] H; cbn [re_eqb] in H; try discriminate. apply andb_true_iff in H as [H H1]. apply andb_true_iff in H as [H H2].
    apply Nat.eqb_eq in H. apply (leqb_eq _ re_eqb) in H1; [|assumption].
    apply (leqb_eq _ Z.eqb) in H2; [|apply Forall_forall; intros x _ y; apply Z.eqb_eq]. subst. reflexivity.
  - intros i [] H; cbn [re_eqb] in H; try discriminate. apply Nat.eqb_eq in H. subst. reflexivity.
  - intros nm [] H; cbn [re_eqb] in H; try discriminate. f_equal. apply (leqb_eq _ Z.eqb); [|assumption]. apply Forall_forall. intros x _ y. apply Z.eqb_eq.
  - intros n l F [] H; cbn [re_eqb] in H; try discriminate. apply andb_true_iff in H as [H H1]. apply Bool.eqb_prop in H.
    apply (leqb_eq _ re_eqb) in H1; [|assumption]. subst. reflexivity.
  - intros n l F [] H; cbn [re_eqb] in H; try discriminate. apply andb_true_iff in H as [H H1]. apply Bool.eqb_prop in H.
    apply (leqb_eq _ re_eqb) in H1; [|assumption]. subst. reflexivity.
  - intros l F [] H; cbn [re_eqb] in H; try discriminate. f_equal. apply (leqb_eq _ re_eqb); assumption.
  - intros c [] H; cbn [re_eqb] in H; try discriminate. f_equal. apply cls_eqb_eq. assumption.
  - intros c [] H; cbn [re_eqb] in H; try discriminate. f_equal. apply cls_eqb_eq. assumption.
  - intros a [] H; cbn [re_eqb] in H; try discriminate. destruct a, a0; try discriminate; reflexivity.
  - intros m [] H; cbn [re_eqb] in H; try discriminate. destruct m, m0; try discriminate; reflexivity.
Qed.
Lemma same_rep : forall k k' l l', rkind_eqb k k' && leqb re_eqb l l' = true -> k = k' /\ l = l'.
Proof.
  intros k k' l l' H. apply andb_true_iff in H as [H1 H2]. split; [destruct k, k'; try discriminate; reflexivity|].
  apply (leqb_eq _ re_eqb); [|assumption]. apply Forall_forall. intros x _ y. apply re_eqb_eq.
Qed.

(** * The cases of [make_sequence] *)
Inductive seq_case : re -> re -> re -> Prop :=
| sc_pair : forall b a, seq_case b a (RSeq [a; b])
| sc_flat : forall bs a, seq_case (RSeq bs) a (RSeq (a :: bs))
| sc_chars : forall x y, seq_case (RCls (CChar y)) (RCls (CChar x)) (RStr [x; y])
| sc_str : forall x ys, seq_case (RStr ys) (RCls (CChar x)) (RStr (x :: ys))
| sc_chars_in : forall x y sq, seq_case (RSeq (RCls (CChar y) :: sq)) (RCls (CChar x)) (RSeq (RStr [x; y] :: sq))
| sc_str_in : forall x ys sq, seq_case (RSeq (RStr ys :: sq)) (RCls (CChar x)) (RSeq (RStr (x :: ys) :: sq))
| sc_reps : forall k a2 b2 a1 b1 l, seq_case (RRep k a2 b2 l) (RRep k a1 b1 l) (combine_repeat k a1 b1 a2 b2 l)
| sc_reps_in : forall k a2 b2 a1 b1 l sq,
    seq_case (RSeq (RRep k a2 b2 l :: sq)) (RRep k a1 b1 l) (RSeq (combine_repeat k a2 b2 a1 b1 l :: sq)).
Lemma make_sequence_case : forall b a, seq_case b a (make_sequence b a).
Proof.
  intros b a.
  destruct b as [kb|  |tb|lb|lb| | |k2 a2 b2 l2|i2 l2|i2 n2 l2|i2|n2|ng2 l2|ng2 l2|l2|c2|c2|as2|m2]; cbn [make_sequence];
    try (destruct a as [[x|? ?|?|?|?|?|?]| | | | | | | | | | | | | | | | | |]; constructor).
  - destruct kb; try (destruct a as [[x|? ?|?|?|?|?|?]| | | | | | | | | | | | | | | | | |]; constructor).
  - destruct a as [[x|? ?|?|?|?|?|?]| | | | | | |k1 a1 b1 l1| | | | | | | | | | |];
    try (destruct lb as [|[[y|? ?|?|?|?|?|?]| |ty| | | | |ky ay byy ly| | | | | | | | | | |] sq]; constructor).
    destruct lb as [|[[y|? ?|?|?|?|?|?]| |ty| | | | |ky ay byy ly| | | | | | | | | | |] sq]; try constructor.
    destruct (rkind_eqb ky k1 && leqb re_eqb ly l1) eqn:E; [|constructor]. apply same_rep in E as [-> ->]. constructor.
  - destruct a as [[x|? ?|?|?|?|?|?]| | | | | | |k1 a1 b1 l1| | | | | | | | | | |]; try constructor.
    destruct (rkind_eqb k2 k1 && leqb re_eqb l2 l1) eqn:E; [|constructor]. apply same_rep in E as [-> ->]. constructor.
Qed.

Lemma iter_ext : forall (R R' : state -> state -> Prop), (forall x y, R x y <-> R' x y) -> forall k x y, iter R k x y <-> iter R' k x y.
Proof.
  intros R R' H. induction k as [|k IH]; intros x y; [reflexivity|]. cbn [iter]. split; intros (m & H1 & H2); exists m; split;
    (apply H || apply IH); assumption.
Qed.
Lemma iter_add : forall (R : state -> state -> Prop) j k x y, iter R (j + k) x y <-> exists m, iter R j x m /\ iter R k m y.
Proof.
  intros R. induction j as [|j IH]; intros k x y; cbn [plus iter].
  - split; [eauto|]. intros (m & -> & H). assumption.
  - split.
    + intros (m & H1 & H2). apply IH in H2 as (m' & H2 & H3). eauto.
    + intros (m & (m' & H1 & H2) & H3). exists m'. split; [assumption|]. apply IH. eauto.
Qed.
Definition in_bounds (a b : N) : Prop := b = 0%N \/ (a <= b)%N.
Lemma iters_join : forall (R : state -> state -> Prop) a1 b1 a2 b2 st st', in_bounds a1 b1 -> in_bounds a2 b2 ->
  ((exists n : nat, (a1 + a2 <= N.of_nat n)%N /\
     ((if (b1 =? 0)%N || (b2 =? 0)%N then 0 else b1 + b2)%N = 0%N \/ (N.of_nat n <= if (b1 =? 0)%N || (b2 =? 0)%N then 0 else b1 + b2)%N) /\ iter R n st st') <->
   exists m, (exists n : nat, (a1 <= N.of_nat n)%N /\ (b1 = 0%N \/ (N.of_nat n <= b1)%N) /\ iter R n st m) /\
             (exists n : nat, (a2 <= N.of_nat n)%N /\ (b2 = 0%N \/ (N.of_nat n <= b2)%N) /\ iter R n m st')).
Proof.
  intros R a1 b1 a2 b2 st st' H1 H2. split.
  - intros (n & A & B & I).
    assert (S : exists n1 n2 : nat, n = n1 + n2 /\ (a1 <= N.of_nat n1)%N /\ (b1 = 0%N \/ (N.of_nat n1 <= b1)%N) /\
      (a2 <= N.of_nat n2)%N /\ (b2 = 0%N \/ (N.of_nat n2 <= b2)%N)).
    { unfold in_bounds in *. destruct (N.eqb_spec b1 0) as [->|N1].
      - exists (n - N.to_nat a2), (N.to_nat a2). cbn [orb] in B. lia.
      - destruct (N.eqb_spec b2 0) as [->|N2].
        + exists (N.to_nat a1), (n - N.to_nat a1). lia.
        + cbn [orb] in B. destruct (N.leb_spec (N.of_nat n) (b1 + a2)).
          * exists (n - N.to_nat a2), (N.to_nat a2). lia.
          * exists (N.to_nat b1), (n - N.to_nat b1). lia. }
    destruct S as (n1 & n2 & -> & S1 & S2 & S3 & S4). apply iter_add in I as (m & I1 & I2). exists m. split; [exists n1|exists n2]; auto.
  - intros (m & (n1 & A1 & B1 & I1) & (n2 & A2 & B2 & I2)). exists (n1 + n2). split; [lia|]. split.
    + destruct (N.eqb_spec b1 0); [left; reflexivity|]. destruct (N.eqb_spec b2 0); [left; reflexivity|]. right. cbn [orb]. lia.
    + apply iter_add. eauto.
Qed.
Lemma combined : forall k a1 b1 a2 b2 l, k <> Possessive -> (a1 + b1 + (a2 + b2) < size_mod)%N ->
  combine_repeat k a1 b1 a2 b2 l = RRep k (a1 + a2) (if (b1 =? 0)%N || (b2 =? 0)%N then 0 else b1 + b2) l.
Proof.
  intros k a1 b1 a2 b2 l Hk Hw. assert (W : forall n, (n < size_mod)%N -> wrap n = n) by (intros n; apply N.mod_small).
  assert (M : combine_max b1 b2 = if (b1 =? 0)%N || (b2 =? 0)%N then 0%N else (b1 + b2)%N).
  { unfold combine_max. destruct (b1 =? 0)%N; [reflexivity|]. destruct (b2 =? 0)%N; [reflexivity|]. cbn [negb andb orb]. apply W. lia. }
  destruct k; [| |contradiction]; cbn [combine_repeat]; rewrite M, W by lia; reflexivity.
Qed.
(** * Meaning *)
Section Meaning.
Variable s : list Z.
Variables ml ci : bool.
Variable names : list Z -> option nat.
Notation sem := (sem s ml ci names).
Notation sems := (sems s ml ci names).

Lemma sem_seq : forall l st st', sem (RSeq l) st st' <-> sems l st st'.
Proof. intros. reflexivity. Qed.
Lemma sems_app : forall l l' st st', sems (l ++ l') st st' <-> exists m, sems l st m /\ sems l' m st'.
Proof.
  induction l as [|x l IH]; intros l' st st'; cbn [app Spec.sems].
  - split; [eauto|]. intros (m & -> & H). assumption.
  - split.
    + intros (m & H1 & H2). apply IH in H2 as (m' & H2 & H3). eauto.
    + intros (m & (m' & H1 & H2) & H3). exists m'. split; [assumption|]. apply IH. eauto.
Qed.
Lemma sems_one : forall x st st', sems [x] st st' <-> sem x st st'.
Proof. intros. cbn [Spec.sems]. split; [intros (m & H & ->); assumption|eauto]. Qed.
Lemma sems_two : forall x y st st', sems [x; y] st st' <-> exists m, sem x st m /\ sem y m st'.
Proof. intros. change [x; y] with ([x] ++ [y]). rewrite sems_app. split; intros (m & H & K); exists m; split; apply sems_one; assumption. Qed.
Lemma sems_unwrap : forall x st st', sems (unwrap x) st st' <-> sem x st st'.
Proof. intros x st st'. destruct x; try (apply sems_one). reflexivity. Qed.
Lemma sem_select : forall l st st', sem (RSelect l) st st' <-> exists x, In x l /\ sem x st st'.
Proof.
  intros l st st'. induction l as [|x l IH]; [split; [intros []|intros (x & [] & _)]|].
  change (sem (RSelect (x :: l)) st st') with (sem x st st' \/ sem (RSelect l) st st'). rewrite IH. split.
  - intros [H|(y & I & H)]; [exists x; split; [left; reflexivity|assumption]|exists y; split; [right|]; assumption].
  - intros (y & [<-|I] & H); [left; assumption|right; eauto].
Qed.
Lemma sem_rep : forall k a b l st st', sem (RRep k a b l) st st' <->
  exists n : nat, (a <= N.of_nat n)%N /\ (b = 0%N \/ (N.of_nat n <= b)%N) /\ iter (sems l) n st st'.
Proof. intros. reflexivity. Qed.
Lemma reps_join : forall k a1 b1 a2 b2 l st st', k <> Possessive -> in_bounds a1 b1 -> in_bounds a2 b2 ->
  (a1 + b1 + (a2 + b2) < size_mod)%N ->
  (sem (combine_repeat k a1 b1 a2 b2 l) st st' <-> exists m, sem (RRep k a1 b1 l) st m /\ sem (RRep k a2 b2 l) m st').
Proof. intros k a1 b1 a2 b2 l st st' Hk H1 H2 Hw. rewrite combined, sem_rep by assumption. apply iters_join; assumption. Qed.
Lemma sem_str_cons : forall x ys st st', sem (RStr (x :: ys)) st st' <-> exists m, sem (RCls (CChar x)) st m /\ sem (RStr ys) m st'.
Proof.
  intros x ys [p lg] st'. cbn [Spec.sem cls_has fst snd]. split.
  - intros [-> H]. exists (S p, lg). split.
    + destruct (H 0 x eq_refl) as (v & V1 & V2). rewrite Nat.add_0_r in V1. exists v. auto.
    + cbn [fst snd]. split; [cbn [length]; f_equal; lia|]. intros i c I. destruct (H (S i) c I) as (v & V1 & V2). exists v.
      rewrite Nat.add_succ_r in V1. auto.
  - intros (m & (v & V1 & V2 & ->) & -> & H). cbn [fst snd] in *. split; [cbn [length]; f_equal; lia|].
    intros [|i] c I; cbn [nth_error] in I.
    + injection I as ->. rewrite Nat.add_0_r. eauto.
    + rewrite Nat.add_succ_r. apply (H i c I).
Qed.
Lemma sem_str_nil : forall st st', sem (RStr []) st st' <-> st' = st.
Proof.
  intros [p lg] st'. cbn [Spec.sem fst snd length]. rewrite Nat.add_0_r. split; [tauto|]. intros ->. split; [reflexivity|].
  intros [|i] c I; discriminate.
Qed.
End Meaning.

(** The same with mode switches. *)
Section Modes.
Variable s : list Z.
Variable names : list Z -> option nat.
Notation msem := (msem s names).
Notation msems := (msems s names).
Lemma msems_app : forall l l' x y, msems (l ++ l') x y <-> exists z, msems l x z /\ msems l' z y.
Proof.
  induction l as [|r l IH]; intros l' x y; cbn [app ModeSem.msems].
  - split; [eauto|]. intros (m & -> & H). assumption.
  - split.
    + intros (m & H1 & H2). apply IH in H2 as (m' & H2 & H3). eauto.
    + intros (m & (m' & H1 & H2) & H3). exists m'. split; [assumption|]. apply IH. eauto.
Qed.
Lemma msems_one : forall r x y, msems [r] x y <-> msem r x y.
Proof. intros. cbn [ModeSem.msems]. split; [intros (m & H & ->); assumption|eauto]. Qed.
Lemma msems_two : forall r r' x y, msems [r; r'] x y <-> exists z, msem r x z /\ msem r' z y.
Proof. intros. change [r; r'] with ([r] ++ [r']). rewrite msems_app. split; intros (m & H & K); exists m; split; apply msems_one; assumption. Qed.
Lemma msems_unwrap : forall r x y, msems (unwrap r) x y <-> msem r x y.
Proof. intros r x y. destruct r; try (apply msems_one). reflexivity. Qed.
Lemma msem_str_cons : forall c ys x y, msem (RStr (c :: ys)) x y <-> exists z, msem (RCls (CChar c)) x z /\ msem (RStr ys) z y.
Proof.
  intros c ys [m st] [m' st']. cbn [ModeSem.msem fst snd]. rewrite sem_str_cons. split.
  - intros (-> & st1 & H1 & H2). exists (m, st1). auto.
  - intros ([m1 st1] & [H1 H2] & [H3 H4]). cbn [fst snd] in *. subst m1. split; [assumption|]. exists st1. auto.
Qed.
Lemma msem_str_nil : forall x y, msem (RStr []) x y <-> y = x.
Proof.
  intros [m st] [m' st']. cbn [ModeSem.msem fst snd]. rewrite sem_str_nil. split; [intros [-> ->]; reflexivity|].
  intros H. injection H as -> ->. auto.
Qed.
Lemma mreps_join : forall k a1 b1 a2 b2 l x y, k <> Possessive -> in_bounds a1 b1 -> in_bounds a2 b2 ->
  (a1 + b1 + (a2 + b2) < size_mod)%N ->
  (msem (combine_repeat k a1 b1 a2 b2 l) x y <-> exists z, msem (RRep k a1 b1 l) x z /\ msem (RRep k a2 b2 l) z y).
Proof.
  intros k a1 b1 a2 b2 l [m st] [m' st'] Hk H1 H2 Hw. rewrite combined by assumption. rewrite msem_rep. cbn [fst snd].
  pose proof (iters_join (mround s names l m) a1 b1 a2 b2 st st' H1 H2) as J. split.
  - intros (n & A & B & -> & I). destruct (proj1 J) as (st1 & (n1 & A1 & B1 & I1) & (n2 & A2 & B2 & I2)); [exists n; auto|].
    exists (m, st1). rewrite !msem_rep. cbn [fst snd]. split; [exists n1 | exists n2]; auto.
  - intros ([m1 st1] & Z1 & Z2). rewrite msem_rep in Z1, Z2. cbn [fst snd] in *.
    destruct Z1 as (n1 & A1 & B1 & E1 & I1), Z2 as (n2 & A2 & B2 & E2 & I2). subst m1.
    destruct (proj2 J) as (n & A & B & I); [exists st1; split; [exists n1|exists n2]; auto|]. exists n. auto.
Qed.
End Modes.

Definition rep_ok (r : re) (n : N) : Prop :=
  forall k a b l, r = RRep k a b l \/ (exists sq, r = RSeq (RRep k a b l :: sq)) -> in_bounds a b /\ (a + b <= n)%N.
(** [make_sequence] is composition. *)
Section Composition.
Variable X : Type.
Variable M : re -> X -> X -> Prop.
Hypothesis M_nil : forall x y, M (RSeq []) x y <-> y = x.
Hypothesis M_seq : forall r l x y, M (RSeq (r :: l)) x y <-> exists z, M r x z /\ M (RSeq l) z y.
Hypothesis M_str0 : forall x y, M (RStr []) x y <-> y = x.
Hypothesis M_str : forall c ys x y, M (RStr (c :: ys)) x y <-> exists z, M (RCls (CChar c)) x z /\ M (RStr ys) z y.
Hypothesis M_reps : forall k a1 b1 a2 b2 l x y, k <> Possessive -> in_bounds a1 b1 -> in_bounds a2 b2 ->
  (a1 + b1 + (a2 + b2) < size_mod)%N ->
  (M (combine_repeat k a1 b1 a2 b2 l) x y <-> exists z, M (RRep k a1 b1 l) x z /\ M (RRep k a2 b2 l) z y).
Lemma M_two : forall r r' x y, M (RSeq [r; r']) x y <-> exists z, M r x z /\ M r' z y.
Proof.
  intros r r' x y. rewrite M_seq. split; intros (z & H1 & H2); exists z; (split; [assumption|]).
  - apply M_seq in H2 as (z' & H2 & H3). apply M_nil in H3. subst. assumption.
  - apply M_seq. exists y. split; [assumption|]. apply M_nil. reflexivity.
Qed.
Lemma M_str_two : forall c d x y, M (RStr [c; d]) x y <-> exists z, M (RCls (CChar c)) x z /\ M (RCls (CChar d)) z y.
Proof.
  intros c d x y. rewrite M_str. split; intros (m & H & K); exists m; (split; [assumption|]).
  - apply M_str in K as (m' & K1 & K2). apply M_str0 in K2. subst. assumption.
  - apply M_str. exists y. split; [assumption|]. apply M_str0. reflexivity.
Qed.
Lemma composed : forall b a st st' na nb, rep_ok a na -> rep_ok b nb -> (na + nb < size_mod)%N ->
  (forall a1 b1 l, a = RRep Possessive a1 b1 l -> forall a2 b2 l', b <> RRep Possessive a2 b2 l' /\ forall sq, b <> RSeq (RRep Possessive a2 b2 l' :: sq)) ->
  (M (make_sequence b a) st st' <-> exists m, M a st m /\ M b m st').
Proof.
  intros b a st st' na nb Ha Hb Hn Hp. pose proof (make_sequence_case b a) as C. revert C. generalize (make_sequence b a). intros r C.
  destruct C.
  - apply M_two.
  - apply M_seq.
  - apply M_str_two.
  - apply M_str.
  - rewrite M_seq. split.
    + intros (m & H & K). apply M_str_two in H as (m' & H1 & H2). exists m'. split; [assumption|]. apply M_seq. exists m. auto.
    + intros (m & H & K). apply M_seq in K as (m' & K1 & K2). exists m'. split; [|assumption]. apply M_str_two. eauto.
  - rewrite M_seq. split.
    + intros (m & H & K). apply M_str in H as (m' & H1 & H2). exists m'. split; [assumption|]. apply M_seq. exists m. auto.
    + intros (m & H & K). apply M_seq in K as (m' & K1 & K2). exists m'. split; [|assumption]. apply M_str. eauto.
  - destruct (Ha k a1 b1 l (or_introl eq_refl)) as [A1 A2]. destruct (Hb k a2 b2 l (or_introl eq_refl)) as [B1 B2].
    apply M_reps; auto; [|lia]. intros ->. destruct (Hp _ _ _ eq_refl a2 b2 l) as [Y _]. apply Y. reflexivity.
  - destruct (Ha k a1 b1 l (or_introl eq_refl)) as [A1 A2]. destruct (Hb k a2 b2 l (or_intror (ex_intro _ sq eq_refl))) as [B1 B2].
    assert (J : forall m, M (combine_repeat k a2 b2 a1 b1 l) st m <-> exists m', M (RRep k a1 b1 l) st m' /\ M (RRep k a2 b2 l) m' m).
    { intros m. assert (Hk : k <> Possessive).
      { intros ->. destruct (Hp _ _ _ eq_refl a2 b2 l) as [_ Y]. apply (Y sq). reflexivity. }
      assert (E : combine_repeat k a2 b2 a1 b1 l = combine_repeat k a1 b1 a2 b2 l).
      { assert (Q : combine_max b2 b1 = combine_max b1 b2) by (unfold combine_max; rewrite andb_comm, N.add_comm; reflexivity).
        destruct k; [| |contradiction]; cbn [combine_repeat]; rewrite Q, N.add_comm; reflexivity. }
      rewrite E. apply M_reps; auto. lia. }
    rewrite M_seq. split.
    + intros (m & H & K). apply J in H as (m' & H1 & H2). exists m'. split; [assumption|]. apply M_seq. exists m. auto.
    + intros (m & H & K). apply M_seq in K as (m' & K1 & K2). exists m'. split; [|assumption]. apply J. eauto.
Qed.
End Composition.
Definition sequence_sem s ml ci names := composed state (sem s ml ci names) (fun x y => iff_refl _) (fun r l x y => iff_refl _)
  (sem_str_nil s ml ci names) (sem_str_cons s ml ci names) (reps_join s ml ci names).
Definition sequence_msem s names := composed mstate (msem s names) (fun x y => iff_refl _) (fun r l x y => iff_refl _)
  (msem_str_nil s names) (msem_str_cons s names) (mreps_join s names).

(** * Lookbehind contents *)
Section Backwards.
Variable s : list Z.
Variables ml ci : bool.
Notation benum := (benum s ml ci).
Notation bseq := (bseq s ml ci).
Lemma benum_seq : forall l p, benum (RSeq l) p = bseq l p.
Proof. intros. reflexivity. Qed.
Lemma bseq_app : forall l l' p q, In q (bseq (l ++ l') p) <-> exists m, In m (bseq l p) /\ In q (bseq l' m).
Proof.
  induction l as [|x l IH]; intros l' p q; cbn [app Spec.bseq].
  - split; [intros H; exists p; split; [left; reflexivity|assumption]|]. intros (m & [<-|[]] & H). assumption.
  - rewrite in_flat_map. split.
    + intros (m & H1 & H2). apply IH in H2 as (m' & H2 & H3). exists m'. split; [|assumption]. apply in_flat_map. eauto.
    + intros (m & H & H3). apply in_flat_map in H as (m' & H1 & H2). exists m'. split; [assumption|]. apply IH. eauto.
Qed.
Lemma bseq_one : forall x p q, In q (bseq [x] p) <-> In q (benum x p).
Proof. intros. cbn [Spec.bseq]. rewrite in_flat_map. split; [intros (m & H & [<-|[]]); assumption|]. intros H. exists q. split; [assumption|left; reflexivity]. Qed.
Lemma bseq_two : forall x y p q, In q (bseq [x; y] p) <-> exists m, In m (benum x p) /\ In q (benum y m).
Proof. intros. change [x; y] with ([x] ++ [y]). rewrite bseq_app. split; intros (m & H & K); exists m; split; apply bseq_one; assumption. Qed.
Lemma bseq_last : forall l x p q, In q (bseq (l ++ [x]) p) <-> exists m, In m (benum (RSeq l) p) /\ In q (benum x m).
Proof. intros. rewrite bseq_app. split; intros (m & H & K); exists m; (split; [assumption|]); apply bseq_one; assumption. Qed.
Lemma bwalk_app : forall t t' p q, In q (bwalk s ci (t ++ t') p) <-> exists m, In m (bwalk s ci t p) /\ In q (bwalk s ci t' m).
Proof.
  induction t as [|x t IH]; intros t' p q; cbn [app bwalk].
  - split; [intros H; exists p; split; [left; reflexivity|assumption]|]. intros (m & [<-|[]] & H). assumption.
  - rewrite in_flat_map. split.
    + intros (m & H1 & H2). apply IH in H2 as (m' & H2 & H3). exists m'. split; [|assumption]. apply in_flat_map. eauto.
    + intros (m & H & H3). apply in_flat_map in H as (m' & H1 & H2). exists m'. split; [assumption|]. apply IH. eauto.
Qed.
Lemma bstr_last : forall t x p q, In q (benum (RStr (t ++ [x])) p) <-> exists m, In m (benum (RStr t) p) /\ In q (benum (RCls (CChar x)) m).
Proof.
  intros. cbn [Spec.benum]. rewrite bwalk_app. split; intros (m & H & K); exists m; (split; [assumption|]); cbn [bwalk cls_has] in *.
  - apply in_flat_map in K as (m' & K & [<-|[]]). assumption.
  - apply in_flat_map. exists q. split; [assumption|left; reflexivity].
Qed.
Lemma benum_select : forall l p q, In q (benum (RSelect l) p) <-> exists x, In x l /\ In q (benum x p).
Proof.
  intros l p q. induction l as [|x l IH]; [split; [intros []|intros (x & [] & _)]|].
  change (benum (RSelect (x :: l)) p) with (benum x p ++ benum (RSelect l) p). rewrite in_app_iff, IH. split.
  - intros [H|(y & I & H)]; [exists x; split; [left; reflexivity|assumption]|exists y; split; [right|]; assumption].
  - intros (y & [<-|I] & H); [left; assumption|right; eauto].
Qed.
End Backwards.

Definition bequal (x y : re) : Prop := forall s ml ci p q, In q (benum s ml ci x p) <-> In q (benum s ml ci y p).
Definition equal (x y : re) : Prop := forall s ml ci names st st', sem s ml ci names x st st' <-> sem s ml ci names y st st'.
Definition mequal (x y : re) : Prop := forall s names st st', msem s names x st st' <-> msem s names y st st'.

Lemma opt_map_cons : forall (f : re -> option re) x l y, opt_map f (x :: l) = Some y ->
  exists x' l', f x = Some x' /\ opt_map f l = Some l' /\ y = x' :: l'.
Proof.
  intros f x l y H. cbn [opt_map] in H. destruct (f x) as [x'|]; [|discriminate]. destruct (opt_map f l) as [l'|]; [|discriminate].
  injection H as <-. eauto.
Qed.
Lemma rotate_seq : forall l x, rotate (RSeq l) = Some x -> exists l', opt_map rotate l = Some l' /\ x = RSeq (rev l').
Proof. intros l x H. cbn [rotate] in H. destruct (opt_map rotate l) as [l'|]; [|discriminate]. injection H as <-. eauto. Qed.
Lemma rotate_rep : forall k a b l x, rotate (RRep k a b l) = Some x -> exists l', opt_map rotate l = Some l' /\ x = RRep k a b (rev l').
Proof. intros k a b l x H. cbn [rotate] in H. destruct (opt_map rotate l) as [l'|]; [|discriminate]. injection H as <-. eauto. Qed.

(** [make_sequence] is composition in a lookbehind too. *)
Lemma sequence_rotate : forall b a x, rotate (make_sequence b a) = Some x ->
  exists a' b', rotate a = Some a' /\ rotate b = Some b' /\ bequal (RSeq [b'; a']) x.
Proof.
  intros b a x H. pose proof (make_sequence_case b a) as C. revert H C. generalize (make_sequence b a). intros r H C.
  assert (Z : forall l, (forall s ml ci m q, ~ In q (benum s ml ci l m)) -> forall t u, bequal (RSeq [t; l]) (RSeq (u ++ [l]))).
  { intros l Hl t u s ml ci p q. rewrite !benum_seq, bseq_two, bseq_last. split; intros (m & _ & K); exfalso; exact (Hl _ _ _ _ _ K). }
  assert (W : forall k a1 b1 a2 b2 l x, rotate (combine_repeat k a1 b1 a2 b2 l) = Some x ->
    (exists l', opt_map rotate l = Some l') /\ forall s ml ci p q, ~ In q (benum s ml ci x p)).
  { intros k a1 b1 a2 b2 l y E.
    assert (F : rotate (combine_repeat k a1 b1 a2 b2 l) = Some y -> (exists c d e, combine_repeat k a1 b1 a2 b2 l = RRep c d e l) \/
      combine_repeat k a1 b1 a2 b2 l = RSeq (RReject :: l)).
    { intros _. destruct k; cbn [combine_repeat]; repeat match goal with |- context [if ?c then _ else _] => destruct c end; eauto. }
    destruct (F E) as [(c & d & e & F1)|F1]; rewrite F1 in E.
    - apply rotate_rep in E as (l' & E & ->). split; [eauto|]. intros s ml ci p q [].
    - apply rotate_seq in E as (l' & E & ->). apply opt_map_cons in E as (x' & l2 & E1 & E2 & ->). injection E1 as <-.
      split; [eauto|]. intros s ml ci p q I. cbn [rev] in I. rewrite benum_seq in I. apply bseq_last in I as (m & _ & []). }
  destruct C.
  - apply rotate_seq in H as (l' & H & ->). apply opt_map_cons in H as (a' & l2 & H1 & H & ->). apply opt_map_cons in H as (b' & l3 & H2 & H & ->).
    injection H as <-. exists a', b'. split; [assumption|]. split; [assumption|]. intros s ml ci p q. reflexivity.
  - apply rotate_seq in H as (l' & H & ->). apply opt_map_cons in H as (a' & l2 & H1 & H & ->).
    exists a', (RSeq (rev l2)). split; [assumption|]. cbn [rotate]. rewrite H. split; [reflexivity|]. intros s ml ci p q.
    cbn [rev]. rewrite !benum_seq, bseq_two, bseq_last. reflexivity.
  - injection H as <-. do 2 eexists. split; [reflexivity|]. split; [reflexivity|]. intros s ml ci p q. rewrite benum_seq, bseq_two.
    cbn [rev app]. change [y; x0] with ([y] ++ [x0]). rewrite bstr_last. split; intros (m & M1 & M2); exists m; (split; [|assumption]); cbn [benum bwalk cls_has] in *.
    + apply in_flat_map. exists m. split; [assumption|left; reflexivity].
    + apply in_flat_map in M1 as (m' & M1 & [<-|[]]). assumption.
  - injection H as <-. do 2 eexists. split; [reflexivity|]. split; [reflexivity|]. intros s ml ci p q. rewrite benum_seq, bseq_two.
    cbn [rev]. rewrite bstr_last. reflexivity.
  - apply rotate_seq in H as (l' & H & ->). apply opt_map_cons in H as (a' & l2 & H1 & H & ->). injection H1 as <-.
    exists (RCls (CChar x0)), (RSeq (rev l2 ++ [RCls (CChar y)])). split; [reflexivity|]. split; [cbn [rotate opt_map]; rewrite H; reflexivity|].
    intros s ml ci p q. cbn [rev]. rewrite !benum_seq, bseq_two, bseq_last. split.
    + intros (m & M1 & M2). rewrite benum_seq in M1. apply bseq_last in M1 as (m' & M1 & M3). exists m'. split; [assumption|].
      cbn [app]. change [y; x0] with ([y] ++ [x0]). apply bstr_last. exists m. split; [|assumption]. cbn [benum bwalk cls_has] in *.
      apply in_flat_map. exists m. split; [assumption|left; reflexivity].
    + intros (m & M1 & M2). cbn [app] in M2. change [y; x0] with ([y] ++ [x0]) in M2. apply bstr_last in M2 as (m' & M2 & M3).
      exists m'. split; [|assumption]. rewrite benum_seq. apply bseq_last. exists m. split; [assumption|]. cbn [benum bwalk cls_has] in *.
      apply in_flat_map in M2 as (m2 & M2 & [<-|[]]). assumption.
  - apply rotate_seq in H as (l' & H & ->). apply opt_map_cons in H as (a' & l2 & H1 & H & ->). injection H1 as <-.
    exists (RCls (CChar x0)), (RSeq (rev l2 ++ [RStr (rev ys)])). split; [reflexivity|]. split; [cbn [rotate opt_map]; rewrite H; reflexivity|].
    intros s ml ci p q. cbn [rev]. rewrite !benum_seq, bseq_two, bseq_last. split.
    + intros (m & M1 & M2). rewrite benum_seq in M1. apply bseq_last in M1 as (m' & M1 & M3). exists m'. split; [assumption|].
      apply bstr_last. eauto.
    + intros (m & M1 & M2). apply bstr_last in M2 as (m' & M2 & M3).
      exists m'. split; [|assumption]. rewrite benum_seq. apply bseq_last. eauto.
  - apply W in H as [(l' & H) H']. cbn [rotate]. rewrite H. do 2 eexists. split; [reflexivity|]. split; [reflexivity|].
    intros s ml ci p q. rewrite benum_seq, bseq_two. split; [intros (m & [] & _)|]. intros I. exfalso. exact (H' _ _ _ _ _ I).
  - apply rotate_seq in H as (l' & H & ->). apply opt_map_cons in H as (a' & l2 & H1 & H & ->). apply W in H1 as [(l3 & H1) H2].
    cbn [rotate opt_map]. rewrite H1, H. cbn [map_some]. do 2 eexists. split; [reflexivity|]. split; [reflexivity|].
    intros s ml ci p q. cbn [rev]. rewrite !benum_seq, bseq_two, bseq_last. split; [intros (m & _ & [])|].
    intros (m & _ & I). exfalso. exact (H2 _ _ _ _ _ I).
Qed.

(** * The relation between the unrewritten and the rewritten AST *)
Definition rep_head (r : re) (k : rkind) (a b : N) (l : list re) : Prop := r = RRep k a b l \/ exists sq, r = RSeq (RRep k a b l :: sq).
Record rel (r0 r : re) : Prop := {
  rel_cls : forall c, r = RCls c -> r0 = RCls c;
  rel_caps : find_captures r0 = find_captures r;
  rel_rot : forall x, rotate r = Some x -> exists x0, rotate r0 = Some x0 /\ bequal x0 x;
  rel_sem : fusible r0 = true -> equal r0 r;
  rel_msem : fusible r0 = true -> mequal r0 r;
  rel_rep : fusible r0 = true -> forall k a b l, rep_head r k a b l -> in_bounds a b /\ (a + b <= weight r0)%N /\ (k = Possessive -> head_poss r0 = true);
  rel_poss : fusible r0 = true -> forall a b l, r = RRep Possessive a b l -> is_poss r0 = true }.
Lemma equal_refl : forall r, equal r r. Proof. intros r s ml ci names st st'. reflexivity. Qed.
Lemma bequal_refl : forall r, bequal r r. Proof. intros r s ml ci p q. reflexivity. Qed.
Lemma rel_atom : forall r, match r with RRep _ _ _ _ | RSeq _ => false | _ => true end = true -> rel r r.
Proof.
  intros r H. split; auto.
  - intros x E. exists x. split; [assumption|apply bequal_refl].
  - intros _. apply equal_refl.
  - intros _ s names st st'. reflexivity.
  - intros _ k a b l [-> | (sq & ->)]; discriminate.
  - intros _ a b l ->. discriminate.
Qed.
Lemma captures_one : forall x, listed [x] = find_captures x.
Proof. intros x. unfold listed. cbn [map concat]. apply app_nil_r. Qed.
Lemma captures_unwrap : forall x, listed (unwrap x) = find_captures x.
Proof. intros x. destruct x; try (apply captures_one). cbn [unwrap find_captures]. rewrite captures_list. reflexivity. Qed.
Lemma rotate_unwrap : forall x l, opt_map rotate (unwrap x) = Some l -> exists y, rotate x = Some y.
Proof.
  intros x l H. destruct x; try (cbn [unwrap opt_map] in H; match type of H with context [rotate ?r] => destruct (rotate r) end; [eauto|discriminate]).
  cbn [unwrap] in H. cbn [rotate]. rewrite H. cbn [map_some]. eauto.
Qed.

(** Constructs with one content. *)
Definition silent (y : re) : Prop := forall s ml ci p q, ~ In q (benum s ml ci y p).
Lemma silent_equal : forall x y, silent x -> silent y -> bequal x y.
Proof. intros x y X Y s ml ci p q. split; intros I; [destruct (X _ _ _ _ _ I)|destruct (Y _ _ _ _ _ I)]. Qed.
Lemma rel_wrap : forall (F : list re -> re) x0 x, rel x0 x ->
  (forall l l', listed l = listed l' -> find_captures (F l) = find_captures (F l')) ->
  (forall y, rotate (F (unwrap x)) = Some y -> exists y0, rotate (F [x0]) = Some y0 /\ bequal y0 y) ->
  (forall c, F (unwrap x) <> RCls c) -> (forall k a b l, ~ rep_head (F (unwrap x)) k a b l) ->
  (fusible (F [x0]) = true -> fusible x0 = true) ->
  (forall s ml ci names l l', (forall st st', sems s ml ci names l st st' <-> sems s ml ci names l' st st') ->
    forall st st', sem s ml ci names (F l) st st' <-> sem s ml ci names (F l') st st') ->
  (forall s names l l', (forall st st', msems s names l st st' <-> msems s names l' st st') ->
    forall st st', msem s names (F l) st st' <-> msem s names (F l') st st') ->
  rel (F [x0]) (F (unwrap x)).
Proof.
  intros F x0 x R HC HR HK HH HF HS HM. split.
  - intros c E. destruct (HK c E).
  - apply HC. rewrite captures_one, captures_unwrap. apply R.
  - exact HR.
  - intros G s ml ci names st st'. apply HS. intros u u'. rewrite sems_one, sems_unwrap. apply (rel_sem _ _ R (HF G)).
  - intros G s names st st'. apply HM. intros u u'. rewrite msems_one, msems_unwrap. apply (rel_msem _ _ R (HF G)).
  - intros _ k a b l H. destruct (HH _ _ _ _ H).
  - intros _ a b l E. destruct (HH Possessive a b l (or_introl E)).
Qed.
Lemma rotate_wrap : forall (F G : list re -> re) x0 x y, rel x0 x -> (forall l, rotate (F l) = map_some G (opt_map rotate l)) -> (forall l, silent (G l)) ->
  rotate (F (unwrap x)) = Some y -> exists y0, rotate (F [x0]) = Some y0 /\ bequal y0 y.
Proof.
  intros F G x0 x y R H Z E. rewrite H in E. destruct (opt_map rotate (unwrap x)) as [l|] eqn:E1; [|discriminate]. injection E as <-.
  apply rotate_unwrap in E1 as (x' & E1). destruct (rel_rot _ _ R x' E1) as (x0' & E0 & _). rewrite H. cbn [opt_map]. rewrite E0.
  eexists. split; [reflexivity|]. apply silent_equal; apply Z.
Qed.

Lemma rel_capture : forall i x0 x, rel x0 x -> rel (RCap i [x0]) (RCap i (unwrap x)).
Proof.
  intros i x0 x R. apply (rel_wrap (RCap i)); auto; try discriminate.
  - intros l l' E. cbn [find_captures]. rewrite !captures_list, E. reflexivity.
  - intros y. apply (rotate_wrap (RCap i) (fun x => RCap i (rev x))); auto. intros l s ml ci p q [].
  - intros k a b l [E|(sq & E)]; discriminate.
  - cbn [fusible forallb]. rewrite andb_true_r. auto.
  - intros s ml ci names l l' H st st'. change (sem s ml ci names (RCap i l) st st') with (exists m, sems s ml ci names l st m /\ st' = (fst m, (i, (fst st, fst m)) :: snd m)).
    change (sem s ml ci names (RCap i l') st st') with (exists m, sems s ml ci names l' st m /\ st' = (fst m, (i, (fst st, fst m)) :: snd m)).
    split; intros (m & M & ->); exists m; split; try reflexivity; apply H; assumption.
  - intros s names l l' H st st'. rewrite !msem_cap. split; intros (m & p & lg & M & ->); exists m, p, lg; split; try reflexivity; apply H; assumption.
Qed.
Lemma rel_ncapture : forall i nm x0 x, rel x0 x -> rel (RNCap i nm [x0]) (RNCap i nm (unwrap x)).
Proof.
  intros i nm x0 x R. apply (rel_wrap (RNCap i nm)); auto; try discriminate.
  - intros l l' E. cbn [find_captures]. rewrite !captures_list, E. reflexivity.
  - intros y. apply (rotate_wrap (RNCap i nm) (fun x => RNCap i nm (rev x))); auto. intros l s ml ci p q [].
  - intros k a b l [E|(sq & E)]; discriminate.
  - cbn [fusible forallb]. rewrite andb_true_r. auto.
  - intros s ml ci names l l' H st st'. change (sem s ml ci names (RNCap i nm l) st st') with (exists m, sems s ml ci names l st m /\ st' = (fst m, (i, (fst st, fst m)) :: snd m)).
    change (sem s ml ci names (RNCap i nm l') st st') with (exists m, sems s ml ci names l' st m /\ st' = (fst m, (i, (fst st, fst m)) :: snd m)).
    split; intros (m & M & ->); exists m; split; try reflexivity; apply H; assumption.
  - intros s names l l' H st st'. rewrite !msem_ncap. split; intros (m & p & lg & M & ->); exists m, p, lg; split; try reflexivity; apply H; assumption.
Qed.
Lemma rel_atomic : forall x0 x, rel x0 x -> rel (RAtomic [x0]) (RAtomic (unwrap x)).
Proof.
  intros x0 x R. apply (rel_wrap RAtomic); auto; try discriminate.
  - intros y. apply (rotate_wrap RAtomic (fun x => RAtomic (rev x))); auto. intros l s ml ci p q [].
  - intros k a b l [E|(sq & E)]; discriminate.
  - cbn [fusible forallb]. rewrite andb_true_r. auto.
  - intros s names l l' H st st'. rewrite !msem_atomic. unfold mround. split; intros (E & m & M); (split; [exact E|]); exists m; apply H; assumption.
Qed.
Lemma rel_ahead : forall n x0 x, rel x0 x -> rel (RAhead n [x0]) (RAhead n (unwrap x)).
Proof.
  intros n x0 x R. apply (rel_wrap (RAhead n)); auto; try discriminate.
  - intros l l' E. cbn [find_captures]. rewrite !captures_list, E. reflexivity.
  - intros y E. injection E as <-. eexists. split; [reflexivity|]. apply silent_equal; intros s ml ci p q [].
  - intros k a b l [E|(sq & E)]; discriminate.
  - cbn [fusible forallb]. rewrite andb_true_r. auto.
  - intros s ml ci names l l' H st st'. destruct n.
    + change (sem s ml ci names (RAhead true l) st st') with (st' = st /\ forall m, ~ sems s ml ci names l st m).
      change (sem s ml ci names (RAhead true l') st st') with (st' = st /\ forall m, ~ sems s ml ci names l' st m).
      split; intros [-> M]; (split; [reflexivity|]); intros m K; apply (M m); apply H; assumption.
    + change (sem s ml ci names (RAhead false l) st st') with (exists m, sems s ml ci names l st m /\ st' = (fst st, snd m)).
      change (sem s ml ci names (RAhead false l') st st') with (exists m, sems s ml ci names l' st m /\ st' = (fst st, snd m)).
      split; intros (m & M & ->); exists m; split; try reflexivity; apply H; assumption.
  - intros s names l l' H st st'. rewrite !msem_ahead. destruct n.
    + split; intros [-> M]; (split; [reflexivity|]); intros m K; apply (M m); apply H; assumption.
    + split; intros (m & p & lg & M & ->); exists m, p, lg; split; try reflexivity; apply H; assumption.
Qed.
Lemma rel_repeat : forall k a b x0 x, rel x0 x -> rel (RRep k a b [x0]) (RRep k a b (unwrap x)).
Proof.
  intros k a b x0 x R. split; try discriminate.
  - cbn [find_captures]. rewrite captures_list, captures_unwrap, app_nil_r. apply R.
  - intros y. apply (rotate_wrap (RRep k a b) (fun x => RRep k a b (rev x))); auto. intros l s ml ci p q [].
  - intros G s ml ci names st st'. rewrite !sem_rep. cbn [fusible forallb] in G. rewrite andb_true_r in G. apply andb_true_iff in G as [_ G].
    split; intros (n & N1 & N2 & I); exists n; (split; [assumption|]); (split; [assumption|]); revert I; apply iter_ext; intros u u';
      rewrite sems_one, sems_unwrap; [symmetry|]; apply (rel_sem _ _ R G).
  - intros G s names st st'. rewrite !msem_rep. cbn [fusible forallb] in G. rewrite andb_true_r in G. apply andb_true_iff in G as [_ G].
    split; intros (n & N1 & N2 & N3 & I); exists n; (split; [assumption|]); (split; [assumption|]); (split; [assumption|]); revert I;
      apply iter_ext; intros u u'; unfold mround; split; intros (m & I); exists m; revert I;
      rewrite msems_one, msems_unwrap; apply (rel_msem _ _ R G).
  - intros G k' a' b' l [E|(sq & E)]; [|discriminate]. injection E as <- <- <- _. cbn [fusible] in G. apply andb_true_iff in G as [G _].
    split; [unfold in_bounds; lia|]. cbn [weight]. split; [lia|]. intros ->. reflexivity.
  - intros _ a' b' l E. injection E as -> _ _ _. reflexivity.
Qed.
(** Change of the kind. *)
Lemma rel_kind : forall k0 k0' k k' a0 b0 l0 a b l, rel (RRep k0 a0 b0 l0) (RRep k a b l) -> (k' = Possessive -> k0' = Possessive) ->
  rel (RRep k0' a0 b0 l0) (RRep k' a b l).
Proof.
  intros k0 k0' k k' a0 b0 l0 a b l R K. split; try discriminate.
  - exact (rel_caps _ _ R).
  - intros y E. apply rotate_rep in E as (l' & E & ->). destruct (rel_rot _ _ R (RRep k a b (rev l'))) as (x0 & E0 & _).
    + cbn [rotate]. rewrite E. reflexivity.
    + apply rotate_rep in E0 as (l0' & E0 & ->). exists (RRep k0' a0 b0 (rev l0')). cbn [rotate]. rewrite E0. split; [reflexivity|].
      apply silent_equal; intros s ml ci p q [].
  - intros G s ml ci names st st'. exact (rel_sem _ _ R G s ml ci names st st').
  - intros G s names st st'. exact (rel_msem _ _ R G s names st st').
  - intros G k2 a2 b2 l2 [E|(sq & E)]; [|discriminate]. injection E as <- <- <- <-.
    destruct (rel_rep _ _ R G k a b l (or_introl eq_refl)) as (H1 & H2 & _). split; [assumption|]. split; [exact H2|]. intros E. rewrite (K E). reflexivity.
  - intros _ a2 b2 l2 E. injection E as -> _ _ _. rewrite (K eq_refl). reflexivity.
Qed.
Lemma rel_option : forall x0 x, rel x0 x -> rel (RRep Greedy 0 1 [x0]) (make_optional x).
Proof.
  intros x0 x R.
  assert (P : rel (RRep Greedy 0 1 [x0]) (RRep Greedy 0 1 (unwrap x))) by (apply rel_repeat; assumption).
  assert (O : forall k y, k <> Possessive -> x = RRep k 0 1 [y] -> rel (RRep Greedy 0 1 [x0]) (RRep k 0 1 [y])).
  { intros k y Hk ->. split; try discriminate.
    - rewrite <- (rel_caps _ _ R). cbn [find_captures]. apply app_nil_r.
    - intros z E. destruct (rel_rot _ _ R z E) as (x0' & E0 & _). cbn [rotate opt_map]. rewrite E0. cbn [map_some].
      eexists. split; [reflexivity|]. apply rotate_rep in E as (l' & _ & ->). apply silent_equal; intros s ml ci p q [].
    - intros G s ml ci names st st'. cbn [fusible forallb] in G. rewrite andb_true_r in G. apply andb_true_iff in G as [_ G].
      rewrite <- (rel_sem _ _ R G s ml ci names st st'). rewrite sem_rep. split.
      + intros (n & _ & [N1|N1] & I); [discriminate|]. assert (N2 : n = 0 \/ n = 1) by lia. destruct N2 as [-> | ->]; cbn [iter] in I.
        * subst. apply (rel_sem _ _ R G s ml ci names st st). exists 0. split; [apply N.le_0_l|]. split; [right; discriminate|reflexivity].
        * destruct I as (m & I & ->). apply sems_one in I. assumption.
      + intros I. exists 1. split; [discriminate|]. split; [right; discriminate|]. exists st'. split; [apply sems_one; assumption|reflexivity].
    - intros G s names st st'. cbn [fusible forallb] in G. rewrite andb_true_r in G. apply andb_true_iff in G as [_ G].
      rewrite <- (rel_msem _ _ R G s names st st'). rewrite msem_rep. split.
      + intros (n & _ & [N1|N1] & E & I); [discriminate|]. assert (N2 : n = 0 \/ n = 1) by lia. destruct N2 as [-> | ->]; cbn [iter] in I.
        * apply (rel_msem _ _ R G s names st st'). rewrite msem_rep. exists 0. split; [apply N.le_0_l|]. split; [right; discriminate|]. split; [assumption|exact I].
        * destruct I as (m & (m1 & I) & I'). apply (rel_msem _ _ R G s names st st'). apply msems_one in I.
          apply (rel_msem _ _ R G) in I. rewrite msem_rep in I |- *. cbn [fst snd] in I. destruct I as (n & A1 & A2 & A3 & A4).
          exists n. subst m. split; [assumption|]. split; [assumption|]. split; [assumption|]. exact A4.
      + intros I. exists 1. split; [discriminate|]. split; [right; discriminate|].
        assert (E : fst st' = fst st) by (apply (rel_msem _ _ R G) in I; rewrite msem_rep in I; destruct I as (n & _ & _ & E & _); exact E).
        split; [exact E|]. exists (snd st'). split; [|reflexivity]. exists (fst st'). rewrite <- !surjective_pairing. apply msems_one. exact I.
    - intros G k' a' b' l [E|(sq & E)]; [|discriminate]. injection E as <- <- <- _. cbn [weight].
      split; [right; discriminate|]. split; [discriminate|]. intros E. contradiction.
    - intros _ a' b' l E. injection E as -> _ _ _. contradiction. }
  destruct x as [ | | | | | | |k a b l| | | | | | | | | | | ]; try exact P.
  cbn [make_optional]. destruct k; try exact P; destruct a as [|pa]; try exact P; destruct b as [|[pb|pb|]]; try exact P;
    destruct l as [|y [|z l]]; try exact P; apply O; try discriminate; reflexivity.
Qed.
Lemma rel_alternate : forall a0 a b0 b, rel a0 a -> rel b0 b -> rel (RSelect [a0; b0]) (make_alternate b a).
Proof.
  intros a0 a b0 b Ra Rb.
  assert (C : make_alternate b a = RSelect [a; b] \/ exists l, b = RSelect l /\ make_alternate b a = RSelect (a :: l)) by (destruct b; cbn; eauto).
  assert (X : exists l, make_alternate b a = RSelect l /\ listed l = find_captures a ++ find_captures b /\
    (forall s ml ci names st st', sem s ml ci names (RSelect l) st st' <-> sem s ml ci names a st st' \/ sem s ml ci names b st st') /\
    (forall s names st st', msem s names (RSelect l) st st' <-> msem s names a st st' \/ msem s names b st st') /\
    forall l', opt_map rotate l = Some l' -> exists a' b', rotate a = Some a' /\ rotate b = Some b' /\
      forall s ml ci p q, In q (benum s ml ci (RSelect l') p) <-> In q (benum s ml ci a' p) \/ In q (benum s ml ci b' p)).
  { destruct C as [-> | (l & -> & ->)].
    - exists [a; b]. split; [reflexivity|]. split; [unfold listed; cbn; rewrite app_nil_r; reflexivity|]. split.
      { intros. rewrite sem_select. split; [intros (x & [<-|[<-|[]]] & H); auto|]. intros [H|H]; eexists; (split; [|exact H]); cbn; auto. } split.
      { intros. rewrite msem_select. split; [intros (x & [<-|[<-|[]]] & H); auto|]. intros [H|H]; eexists; (split; [|exact H]); cbn; auto. }
      { intros l' E. apply opt_map_cons in E as (a' & l2 & E1 & E & ->). apply opt_map_cons in E as (b' & l3 & E2 & E & ->). injection E as <-.
        exists a', b'. split; [assumption|]. split; [assumption|]. intros. rewrite benum_select.
        split; [intros (x & [<-|[<-|[]]] & H); auto|]. intros [H|H]; eexists; (split; [|exact H]); cbn; auto. }
    - exists (a :: l). split; [reflexivity|]. split; [unfold listed; cbn; rewrite captures_list; reflexivity|]. split; [reflexivity|]. split; [reflexivity|].
      intros l' E. apply opt_map_cons in E as (a' & l2 & E1 & E & ->). exists a', (RSelect l2). split; [assumption|].
      cbn [rotate]. rewrite E. split; [reflexivity|]. intros s ml ci p q.
      change (benum s ml ci (RSelect (a' :: l2)) p) with (benum s ml ci a' p ++ benum s ml ci (RSelect l2) p). apply in_app_iff. }
  destruct X as (l & -> & XC & XS & XM & XR). split; try discriminate.
  - cbn [find_captures]. rewrite captures_list, XC, app_nil_r, (rel_caps _ _ Ra), (rel_caps _ _ Rb). reflexivity.
  - intros y E. cbn [rotate] in E. destruct (opt_map rotate l) as [l'|]; [|discriminate]. injection E as <-.
    destruct (XR l' eq_refl) as (a' & b' & E1 & E2 & XB). destruct (rel_rot _ _ Ra a' E1) as (a0' & F1 & Q1). destruct (rel_rot _ _ Rb b' E2) as (b0' & F2 & Q2).
    exists (RSelect [a0'; b0']). cbn [rotate opt_map]. rewrite F1, F2. split; [reflexivity|]. intros s ml ci p q. rewrite XB, benum_select.
    rewrite <- (Q1 s ml ci p q), <- (Q2 s ml ci p q).
    split; [intros (x & [<-|[<-|[]]] & H); auto|]. intros [H|H]; eexists; (split; [|exact H]); cbn; auto.
  - intros G s ml ci names st st'. cbn [fusible forallb] in G. rewrite andb_true_r in G. apply andb_true_iff in G as [G1 G2]. rewrite XS, sem_select.
    rewrite <- (rel_sem _ _ Ra G1 s ml ci names st st'), <- (rel_sem _ _ Rb G2 s ml ci names st st').
    split; [intros (x & [<-|[<-|[]]] & H); auto|]. intros [H|H]; eexists; (split; [|exact H]); cbn; auto.
  - intros G s names st st'. cbn [fusible forallb] in G. rewrite andb_true_r in G. apply andb_true_iff in G as [G1 G2]. rewrite XM, msem_select.
    rewrite <- (rel_msem _ _ Ra G1 s names st st'), <- (rel_msem _ _ Rb G2 s names st st').
    split; [intros (x & [<-|[<-|[]]] & H); auto|]. intros [H|H]; eexists; (split; [|exact H]); cbn; auto.
  - intros G k' a' b' l' [E|(sq & E)]; discriminate.
Qed.
Lemma rel_behind : forall n x0 x l, rel x0 x -> behind_content x = Some l -> exists y0, rotate x0 = Some y0 /\ rel (RBehind n [y0]) (RBehind n l).
Proof.
  intros n x0 x l R H.
  assert (X : exists y, rotate x = Some y /\ forall s ml ci p q, In q (bseq s ml ci l p) <-> In q (benum s ml ci y p)).
  { destruct x; try (cbn [behind_content] in H; match type of H with context [rotate ?r] => destruct (rotate r) as [y|] end; [|discriminate];
      injection H as <-; exists y; split; [reflexivity|]; intros; apply bseq_one).
    cbn [behind_content] in H. cbn [rotate]. destruct (opt_map rotate l0) as [l'|]; [|discriminate]. injection H as <-. eexists.
    split; [reflexivity|]. intros. reflexivity. }
  destruct X as (y & E & X). destruct (rel_rot _ _ R y E) as (y0 & E0 & Q). exists y0. split; [assumption|].
  assert (Y : forall s ml ci p, bseq s ml ci [y0] p = [] <-> bseq s ml ci l p = []).
  { intros s ml ci p. assert (Z : forall (u v : list nat), (forall q, In q u -> In q v) -> v = [] -> u = []).
    { intros u v K ->. destruct u as [|q u]; [reflexivity|]. destruct (K q (or_introl eq_refl)). }
    split; apply Z; intros q I.
    - apply bseq_one. apply Q. apply X. assumption.
    - apply X. apply Q. apply bseq_one. assumption. }
  split; try discriminate.
  - reflexivity.
  - intros z F. injection F as <-. eexists. split; [reflexivity|]. apply silent_equal; intros s ml ci p q [].
  - intros _ s ml ci names st st'. cbn [sem]. specialize (Y s ml ci (fst st)). destruct n; split; intros [-> K]; (split; [reflexivity|]); tauto.
  - intros _ s names u u'. cbn [msem sem]. specialize (Y s (fst (fst u)) (snd (fst u)) (fst (snd u))).
    destruct n; split; intros (E1 & E2 & K); (split; [exact E1|]); (split; [exact E2|]); tauto.
  - intros _ k' a' b' l' [F|(sq & F)]; discriminate.
Qed.
Lemma rel_sequence : forall a0 a b0 b, rel a0 a -> rel b0 b -> NoDup (numbers a ++ numbers b) -> rel (RSeq [a0; b0]) (make_sequence b a).
Proof.
  intros a0 a b0 b Ra Rb N. split.
  - intros c E. pose proof (make_sequence_case b a) as C. rewrite E in C. inversion C. destruct k; cbn [combine_repeat] in *; try discriminate.
    repeat match goal with H : context [if ?x then _ else _] |- _ => destruct x end; discriminate.
  - cbn [find_captures]. rewrite app_nil_r, (rel_caps _ _ Ra), (rel_caps _ _ Rb). pose proof (make_sequence_case b a) as C. revert C.
    generalize (make_sequence b a). intros r C.
    assert (Z : forall l, NoDup (concat (map (ord false) l) ++ concat (map (ord false) l)) -> listed l = []).
    { intros l M. assert (M0 : concat (map (ord false) l) = []).
      { destruct (concat (map (ord false) l)) as [|x t]; [reflexivity|]. inversion M; subst. exfalso. apply H1. apply in_or_app. right. left. reflexivity. }
      pose proof (captures_counted (RSeq l)) as K. cbn [find_captures] in K. rewrite captures_list in K. unfold numbers in K. cbn [ord] in K. unfold pick in K.
      rewrite M0 in K. destruct (listed l) as [|[i nm] t]; [reflexivity|]. specialize (K i). cbn [map fst count_occ] in K.
      destruct (Nat.eq_dec i i); [lia|contradiction]. }
    assert (W : forall k a1 b1 a2 b2 l, listed l = [] -> find_captures (combine_repeat k a1 b1 a2 b2 l) = []).
    { intros k a1 b1 a2 b2 l E. destruct k; cbn [combine_repeat]; repeat match goal with |- context [if ?x then _ else _] => destruct x end;
        cbn [find_captures app]; rewrite captures_list; assumption. }
    destruct C; try reflexivity.
    + cbn [find_captures]. rewrite app_nil_r. reflexivity.
    + unfold numbers in N. cbn [ord] in N. unfold pick in N. specialize (Z l N). rewrite W by assumption. cbn [find_captures]. rewrite !captures_list, Z. reflexivity.
    + unfold numbers in N. cbn [ord map concat] in N. unfold pick in N. assert (N' : NoDup (concat (map (ord false) l) ++ concat (map (ord false) l))).
      { cbn [map concat ord] in N. unfold pick in N. rewrite app_assoc in N. clear - N. induction (concat (map (ord false) l) ++ concat (map (ord false) l)) as [|x t IH]; [constructor|].
        inversion N; subst. constructor; [|auto]. intros I. apply H1. apply in_or_app. auto. }
      specialize (Z l N'). cbn [find_captures]. rewrite !captures_list, W, Z by assumption. reflexivity.
  - intros x E. apply sequence_rotate in E as (a' & b' & E1 & E2 & Q). destruct (rel_rot _ _ Ra a' E1) as (a0' & F1 & Q1). destruct (rel_rot _ _ Rb b' E2) as (b0' & F2 & Q2).
    exists (RSeq [b0'; a0']). cbn [rotate opt_map]. rewrite F1, F2. split; [reflexivity|]. intros s ml ci p q. rewrite <- (Q s ml ci p q), !benum_seq, !bseq_two.
    split; intros (m & M1 & M2); exists m; (split; [apply Q2|apply Q1]); assumption.
  - intros G s ml ci names st st'. cbn [fusible forallb weight fold_right adjacent] in G. rewrite andb_true_r, N.add_0_r, orb_false_r in G.
    apply andb_true_iff in G as [G G3]. apply andb_true_iff in G as [G G4]. apply andb_true_iff in G as [G1 G2].
    rewrite sem_seq, sems_two. rewrite (sequence_sem s ml ci names b a st st' (weight a0) (weight b0)).
    + split; intros (m & M1 & M2); exists m; (split; [apply (rel_sem _ _ Ra G1)|apply (rel_sem _ _ Rb G2)]); assumption.
    + intros k a1 b1 l H. destruct (rel_rep _ _ Ra G1 k a1 b1 l H) as (H1 & H2 & _). auto.
    + intros k a1 b1 l H. destruct (rel_rep _ _ Rb G2 k a1 b1 l H) as (H1 & H2 & _). auto.
    + apply N.ltb_lt. assumption.
    + intros a1 b1 l E a2 b2 l'. pose proof (rel_poss _ _ Ra G1 a1 b1 l E) as P1. rewrite P1 in G4. cbn [andb negb] in G4.
      assert (P2 : head_poss b0 = false) by (destruct (head_poss b0); [discriminate|reflexivity]). split.
      * intros Eb. destruct (rel_rep _ _ Rb G2 Possessive a2 b2 l' (or_introl Eb)) as (_ & _ & H). rewrite (H eq_refl) in P2. discriminate.
      * intros sq Eb. destruct (rel_rep _ _ Rb G2 Possessive a2 b2 l' (or_intror (ex_intro _ sq Eb))) as (_ & _ & H). rewrite (H eq_refl) in P2. discriminate.
  - intros G s names st st'. cbn [fusible forallb weight fold_right adjacent] in G. rewrite andb_true_r, N.add_0_r, orb_false_r in G.
    apply andb_true_iff in G as [G G3]. apply andb_true_iff in G as [G G4]. apply andb_true_iff in G as [G1 G2].
    rewrite msem_seq, msems_two. rewrite (sequence_msem s names b a st st' (weight a0) (weight b0)).
    + split; intros (m & M1 & M2); exists m; (split; [apply (rel_msem _ _ Ra G1)|apply (rel_msem _ _ Rb G2)]); assumption.
    + intros k a1 b1 l H. destruct (rel_rep _ _ Ra G1 k a1 b1 l H) as (H1 & H2 & _). auto.
    + intros k a1 b1 l H. destruct (rel_rep _ _ Rb G2 k a1 b1 l H) as (H1 & H2 & _). auto.
    + apply N.ltb_lt. assumption.
    + intros a1 b1 l E a2 b2 l'. pose proof (rel_poss _ _ Ra G1 a1 b1 l E) as P1. rewrite P1 in G4. cbn [andb negb] in G4.
      assert (P2 : head_poss b0 = false) by (destruct (head_poss b0); [discriminate|reflexivity]). split.
      * intros Eb. destruct (rel_rep _ _ Rb G2 Possessive a2 b2 l' (or_introl Eb)) as (_ & _ & H). rewrite (H eq_refl) in P2. discriminate.
      * intros sq Eb. destruct (rel_rep _ _ Rb G2 Possessive a2 b2 l' (or_intror (ex_intro _ sq Eb))) as (_ & _ & H). rewrite (H eq_refl) in P2. discriminate.
  - intros G k' a' b' l' H. cbn [fusible forallb weight fold_right adjacent] in G. rewrite andb_true_r, N.add_0_r, orb_false_r in G.
    apply andb_true_iff in G as [G G3]. apply andb_true_iff in G as [G G4]. apply andb_true_iff in G as [G1 G2]. apply N.ltb_lt in G3.
    cbn [weight fold_right]. rewrite N.add_0_r.
    assert (A : forall k a1 b1 l, a = RRep k a1 b1 l -> in_bounds a1 b1 /\ (a1 + b1 <= weight a0 + weight b0)%N /\ (k = Possessive -> head_poss (RSeq [a0; b0]) = true)).
    { intros k a1 b1 l E. destruct (rel_rep _ _ Ra G1 k a1 b1 l (or_introl E)) as (H1 & H2 & _). split; [assumption|]. split; [lia|].
      intros ->. exact (rel_poss _ _ Ra G1 a1 b1 l E). }
    assert (B : forall k a1 b1 a2 b2 l, rep_head a k a1 b1 l -> rep_head b k a2 b2 l -> (k = Possessive -> a = RRep k a1 b1 l) ->
      exists a3 b3, combine_repeat k a1 b1 a2 b2 l = RRep k a3 b3 l /\ combine_repeat k a2 b2 a1 b1 l = RRep k a3 b3 l /\
      in_bounds a3 b3 /\ (a3 + b3 <= weight a0 + weight b0)%N /\ k <> Possessive).
    { intros k a1 b1 a2 b2 l Ea Eb Ek. destruct (rel_rep _ _ Ra G1 k a1 b1 l Ea) as (A1 & A2 & _). destruct (rel_rep _ _ Rb G2 k a2 b2 l Eb) as (B1 & B2 & B3).
      assert (K : k <> Possessive).
      { intros E. specialize (Ek E). subst k. rewrite (rel_poss _ _ Ra G1 a1 b1 l Ek), (B3 eq_refl) in G4. discriminate. }
      assert (W : forall n, (n < size_mod)%N -> wrap n = n) by (intros n; apply N.mod_small).
      exists (a1 + a2)%N, (if (b1 =? 0)%N || (b2 =? 0)%N then 0%N else (b1 + b2)%N).
      assert (M : combine_max b1 b2 = if (b1 =? 0)%N || (b2 =? 0)%N then 0%N else (b1 + b2)%N).
      { unfold combine_max. destruct (b1 =? 0)%N; [reflexivity|]. destruct (b2 =? 0)%N; [reflexivity|]. cbn [negb andb orb]. apply W. lia. }
      assert (M' : combine_max b2 b1 = combine_max b1 b2) by (unfold combine_max; rewrite andb_comm, N.add_comm; reflexivity).
      split; [destruct k; [| |contradiction]; cbn [combine_repeat]; rewrite M, W by lia; reflexivity|].
      split; [destruct k; [| |contradiction]; cbn [combine_repeat]; rewrite M', M, (N.add_comm a2), W by lia; reflexivity|].
      unfold in_bounds in *. destruct (N.eqb_spec b1 0), (N.eqb_spec b2 0); cbn [orb]; repeat split; auto; lia. }
    pose proof (make_sequence_case b a) as C. revert C H. generalize (make_sequence b a). intros r C H.
    destruct C; try (destruct H as [E|(sq' & E)]; try discriminate; injection E as -> ->; apply (A _ _ _ _ eq_refl));
      try (destruct H as [E|(sq' & E)]; discriminate).
    + destruct H as [E|(sq' & E)]; [discriminate|]. injection E as E _. apply (A _ _ _ _ E).
    + destruct (B k a1 b1 a2 b2 l (or_introl eq_refl) (or_introl eq_refl) (fun _ => eq_refl)) as (a3 & b3 & E1 & E2 & E3 & E4 & E5).
      rewrite E1 in H. destruct H as [E|(sq' & E)]; [|discriminate]. injection E as <- <- <- <-. split; [assumption|]. split; [assumption|]. intros Ek. contradiction.
    + destruct (B k a1 b1 a2 b2 l (or_introl eq_refl) (or_intror (ex_intro _ sq eq_refl)) (fun _ => eq_refl)) as (a3 & b3 & E1 & E2 & E3 & E4 & E5).
      rewrite E2 in H. destruct H as [E|(sq' & E)]; [discriminate|]. injection E as <- <- <- <- <-. split; [assumption|]. split; [assumption|]. intros Ek. contradiction.
  - intros G a' b' l' E. exfalso. cbn [fusible forallb weight fold_right adjacent] in G. rewrite andb_true_r, N.add_0_r, orb_false_r in G.
    apply andb_true_iff in G as [G G3]. apply andb_true_iff in G as [G G4]. apply andb_true_iff in G as [G1 G2].
    pose proof (make_sequence_case b a) as C. rewrite E in C. inversion C; subst. destruct k; cbn [combine_repeat] in *; try discriminate.
    rewrite (rel_poss _ _ Ra G1 _ _ _ eq_refl) in G4. destruct (rel_rep _ _ Rb G2 Possessive _ _ _ (or_introl eq_refl)) as (_ & _ & K).
    rewrite (K eq_refl) in G4. discriminate.
Qed.

(** * Simulation of the two parsers *)
Inductive irel : item -> item -> Prop :=
| ir_re : forall r0 r, rel r0 r -> irel (IRe r0) (IRe r)
| ir_same : forall i, match i with IRe _ => false | _ => true end = true -> irel i i.
Definition crel (c0 c : ctx) : Prop := Forall2 irel (stk c0) (stk c) /\ counter c0 = counter c.
(** The top of the unrewritten stack is a fresh greedy repetition. *)
Definition fresh_rep (c0 : ctx) : Prop := exists a b l ts, stk c0 = IRe (RRep Greedy a b l) :: ts.
Definition makes_rep (a : action) : bool :=
  match a with A_make_optional | A_repeat_plus | A_repeat_star | A_repeat_ab | A_repeat_exactly | A_repeat_at_least => true | _ => false end.
Definition changes_rep (a : action) : bool := match a with A_make_lazy | A_make_possessive => true | _ => false end.

Lemma irel_re : forall i r, irel i (IRe r) -> exists r0, i = IRe r0 /\ rel r0 r.
Proof. intros i r H. inversion H; subst; [eauto|discriminate]. Qed.
Lemma irel_same : forall i j, irel i j -> match j with IRe _ => false | _ => true end = true -> i = j.
Proof. intros i j H E. inversion H; subst; [discriminate|reflexivity]. Qed.
Lemma crel_top : forall s0 s n0 n i, crel (mkCtx s0 n0) (mkCtx (i :: s) n) -> exists i0 s0', s0 = i0 :: s0' /\ irel i0 i /\ crel (mkCtx s0' n0) (mkCtx s n).
Proof. intros s0 s n0 n i [H1 H2]. cbn [stk counter] in *. destruct s0 as [|i0 s0]; inversion H1 as [|? ? ? ? A B]. do 2 eexists. split; [reflexivity|]. split; [exact A|]. split; [exact B|exact H2]. Qed.
Lemma crel_push : forall s0 s n0 n i0 i, irel i0 i -> crel (mkCtx s0 n0) (mkCtx s n) -> crel (mkCtx (i0 :: s0) n0) (mkCtx (i :: s) n).
Proof. intros s0 s n0 n i0 i H [H1 H2]. cbn [stk counter] in *. split; [constructor; assumption|assumption]. Qed.
Lemma crel_count : forall s0 s n0 n n', crel (mkCtx s0 n0) (mkCtx s n) -> crel (mkCtx s0 n') (mkCtx s n').
Proof. intros s0 s n0 n n' [H1 H2]. split; [assumption|reflexivity]. Qed.

Ltac peel := repeat match goal with
  | H : crel (mkCtx ?s0 _) (mkCtx (?i :: _) _) |- _ =>
      let i0 := fresh "i" in let t := fresh "t" in let E := fresh "E" in let I := fresh "I" in
      apply crel_top in H as (i0 & t & E & I & H); try subst s0
  | H : irel ?i0 (IRe ?r) |- _ =>
      let r0 := fresh "r" in let R := fresh "R" in apply irel_re in H as (r0 & -> & R)
  | H : irel ?i0 ?i |- _ => apply irel_same in H; [subst i0|reflexivity]
  | H : rel ?r0 (RCls ?c) |- _ => pose proof (rel_cls _ _ H c eq_refl); clear H; subst r0
  end.

Lemma plain_step : forall props a p c0 c c', apply props a p c = Done c' -> crel c0 c -> in_order c ->
  (changes_rep a = true -> fresh_rep c0) ->
  exists c0', plain_apply props a p c0 = Done c0' /\ crel c0' c' /\ (makes_rep a = true -> fresh_rep c0').
Proof.
  intros props a p [s0 n0] [s n] c' H C O F. assert (n0 = n) by (destruct C; assumption). subst n0.
  destruct p as [v|].
  2: { destruct a; cbn [apply stk] in H; try discriminate; destruct s; try discriminate. injection H as <-. destruct C as [C1 C2].
       cbn [stk] in C1. inversion C1; subst. eexists. split; [reflexivity|]. split; [|discriminate]. split; [|reflexivity].
       constructor; [|constructor]. constructor. apply rel_atom. reflexivity. }
  assert (PA : forall r, match r with RRep _ _ _ _ | RSeq _ => false | _ => true end = true -> irel (IRe r) (IRe r)) by (intros; constructor; apply rel_atom; assumption).
  assert (PS : forall i, match i with IRe _ => false | _ => true end = true -> irel i i) by (intros; constructor; assumption).
  assert (PM : forall m, apply_mode m (mkCtx s n) = Done c' -> exists c0', apply_mode m (mkCtx s0 n) = Done c0' /\ crel c0' c').
  { intros m E. unfold apply_mode in *. cbn [stk counter] in *. destruct s as [|i s].
    - destruct C as [C1 C2]. cbn [stk] in C1. inversion C1; subst. injection E as <-. eexists. split; [reflexivity|]. apply crel_push; [apply PA; reflexivity|].
      split; [constructor|reflexivity].
    - destruct i; injection E as <-; pose proof C as C3; peel; eexists; (split; [reflexivity|]); apply crel_push; try (apply PA; reflexivity);
        try (eapply crel_count; eassumption); apply crel_push; try assumption; try (apply PS; reflexivity); constructor; assumption. }
  destruct a; cbn [apply plain_apply push push_cls stk counter] in *;
    try (destruct (PM _ H) as (c0' & E1 & E2); exists c0'; split; [exact E1|split; [exact E2|discriminate]]); clear PM;
    try (injection H as <-; eexists; split; [reflexivity|]; split; [|discriminate]; apply crel_push; [auto|assumption]).
  all: match goal with
  | |- context [makes_rep A_look_finish] => destruct s as [|[] [|[] s]]; try discriminate H
  | |- context [makes_rep A_make_lazy] => destruct s as [|[] s]; try discriminate H
  | |- context [makes_rep A_make_possessive] => destruct s as [|[] s]; try discriminate H
  | |- context [makes_rep A_make_optional] => destruct s as [|[] s]; try discriminate H
  | |- _ => repeat match type of H with context [match ?x with _ => _ end] => is_var x; destruct x; try discriminate H end
  end.
  all: try (match goal with |- context [makes_rep A_push_name] => idtac | |- context [makes_rep A_push_property_name] => idtac
                          | |- context [makes_rep A_push_property_value] => idtac end; (destruct C as [C1 C2]; cbn [stk] in C1; inversion C1; subst; injection H as <-;
      eexists; (split; [reflexivity|]); (split; [|discriminate]); apply crel_push; [apply PS; reflexivity|split; [constructor|reflexivity]])).
  all: peel.
  all: repeat match type of H with context [if ?x then _ else _] => destruct x; try discriminate H end.
  all: repeat match type of H with context [match ?g ?x ?y with _ => _ end] => is_var g; destruct (g x y); try discriminate H end.
  all: try (injection H as <-; eexists; (split; [reflexivity|]); (split; [|discriminate]); first [eapply crel_count; eassumption | apply crel_push; [|assumption]]; first [apply PA; reflexivity | apply PS; reflexivity]).
  all: try (injection H as <-; eexists; (split; [reflexivity|]); split;
      [apply crel_push; [|assumption]; constructor; apply rel_repeat; assumption|intros _; do 4 eexists; reflexivity]).
  all: try (injection H as <-; eexists; (split; [reflexivity|]); (split; [|discriminate]); repeat (apply crel_push; [|assumption]); constructor;
     first [apply rel_alternate | apply rel_atomic | apply rel_capture | apply rel_ncapture]; assumption).
  all: try (injection H as <-; eexists; (split; [reflexivity|]); (split; [|discriminate]); apply crel_push; [apply PS; reflexivity|];
     apply crel_push; [first [apply PS; reflexivity | constructor; assumption]|assumption]).
  - destruct (behind_content r) as [l|] eqn:B; [|discriminate]. injection H as <-. destruct (rel_behind neg _ _ _ R B) as (y & -> & R').
    eexists. split; [reflexivity|]. split; [|discriminate]. apply crel_push; [constructor|]; assumption.
  - injection H as <-. eexists. split; [reflexivity|]. split; [|discriminate]. apply crel_push; [constructor; apply rel_ahead|]; assumption.
  - destruct (F eq_refl) as (a0 & b0 & l0 & ts & E). cbn [stk] in E. injection E as -> <-. eexists. split; [reflexivity|]. split; [|discriminate].
    destruct r as [ | | | | | | |k a b l| | | | | | | | | | |]; try discriminate H. destruct k; try discriminate H.
    + injection H as <-. apply crel_push; [constructor|assumption]. eapply rel_kind; [eassumption|discriminate].
    + destruct a; try discriminate H. destruct b as [|[]]; try discriminate H. injection H as <-. apply crel_push; [constructor|assumption]. eapply rel_kind; [eassumption|discriminate].
  - injection H as <-. eexists. split; [reflexivity|]. split; [|intros _; do 4 eexists; reflexivity].
    apply crel_push; [constructor; apply rel_option|]; assumption.
  - destruct (F eq_refl) as (a0 & b0 & l0 & ts & E). cbn [stk] in E. injection E as -> <-. eexists. split; [reflexivity|]. split; [|discriminate].
    destruct r as [ | | | | | | |k a b l| | | | | | | | | | |]; try discriminate H. destruct k; try discriminate H.
    injection H as <-. apply crel_push; [constructor|assumption]. eapply rel_kind; [eassumption|reflexivity].
  - injection H as <-. eexists. split; [reflexivity|]. split; [|discriminate]. apply crel_push; [constructor; apply rel_sequence|]; try assumption.
    unfold in_order in O. cbn [stk counter] in O. rewrite !stack_cons in O. cbn [item_numbers] in O. rewrite <- app_assoc in O.
    pose proof (seq_NoDup n 1) as N. rewrite <- O in N. clear - N. induction (stack_numbers s) as [|z t IH]; [assumption|]. inversion N; auto.
  - injection H as <-. eexists. split; [reflexivity|]. split; [|discriminate]. apply crel_push; [apply PS; reflexivity|]. eapply crel_count. eassumption.
Qed.

(** Where the action of a modifier can stand. *)
Definition is_mod (n : nt) : bool := match n with N_mod => true | _ => false end.
Fixpoint fok (l : list sym) (b : bool) : bool :=
  match l with
  | [] => true
  | Act a :: t => if makes_rep a then fok t true else (if changes_rep a then b else true) && fok t false
  | NT n :: t => (if is_mod n then b else true) && fok t false
  | _ :: t => fok t b
  end.
Lemma rules_fok : forall n m l, In (m, Push l) (rules n) -> fok l (is_mod n) = true.
Proof.
  intros n m l. assert (H : forallb (fun e => match snd e with Push l => fok l (is_mod n) | Rej => true end) (rules n) = true).
  { revert n. apply (by_nt (fun n => forallb (fun e => match snd e with Push l => fok l (is_mod n) | Rej => true end) (rules n))). vm_compute. reflexivity. }
  intros I. rewrite forallb_forall in H. exact (H _ I).
Qed.
Lemma fok_mono : forall l, fok l false = true -> fok l true = true.
Proof.
  induction l as [|[n|a|d| |t] l IH]; intros H; cbn [fok] in *; auto.
  - destruct (is_mod n); [discriminate|assumption].
  - destruct (makes_rep a); [assumption|]. destruct (changes_rep a); [discriminate|assumption].
Qed.
Lemma fok_any : forall l b, fok l false = true -> fok l b = true.
Proof. intros l [] H; [apply fok_mono|]; assumption. Qed.
Lemma fok_app : forall l st b, fok l b = true -> fok st false = true -> fok (l ++ st) b = true.
Proof.
  induction l as [|[n|a|d| |t] l IH]; intros st b H K; cbn [app fok] in *; auto using fok_any.
  - apply andb_true_iff in H as [H1 H2]. rewrite H1. apply IH; assumption.
  - destruct (makes_rep a); [auto|]. apply andb_true_iff in H as [H1 H2]. rewrite H1. apply IH; assumption.
Qed.
Lemma plain_simulates : forall props fuel p input st c0 c c' b, run props fuel p input st c = PAccept c' -> crel c0 c -> in_order c ->
  fok st b = true -> (b = true -> fresh_rep c0) -> exists c0', plain_run props fuel p input st c0 = PAccept c0' /\ crel c0' c'.
Proof.
  intros props. induction fuel as [|fuel IH]; intros p input st c0 c c' b H C O K F; [discriminate|]. cbn [run plain_run] in *.
  destruct st as [|[n|a|d| |t] st].
  - destruct input; [|discriminate]. injection H as <-. eauto.
  - destruct (rule n (hd_error input)) as [l|] eqn:E; [|discriminate]. destruct (rule_in _ _ _ E) as (m & I & _).
    cbn [fok] in K. apply andb_true_iff in K as [K1 K2]. apply (IH _ _ _ _ _ _ b H C O); [|assumption]. apply fok_app; [|assumption].
    pose proof (rules_fok _ _ _ I) as R. destruct (is_mod n); [subst b; assumption|]. apply fok_any. assumption.
  - destruct (apply props a p c) as [c1| |] eqn:E; try discriminate. cbn [fok] in K.
    destruct (plain_step _ _ _ _ _ _ E C O) as (c01 & E0 & C1 & F1).
    { intros X. destruct a; try discriminate X; cbn [makes_rep changes_rep] in K; apply andb_true_iff in K as [K1 K2]; auto. }
    rewrite E0. apply (IH _ _ _ _ _ _ (makes_rep a) H C1 (apply_order _ _ _ _ _ E O)); [|assumption].
    destruct (makes_rep a); [assumption|]. apply andb_true_iff in K as [_ K]. assumption.
  - destruct input as [|ch rest]; [discriminate|]. destruct (term_matches (TTerm d) ch); [|discriminate]. apply (IH _ _ _ _ _ _ b H C O K F).
  - destruct input as [|ch rest]; [discriminate|]. destruct (term_matches TAny ch); [|discriminate]. apply (IH _ _ _ _ _ _ b H C O K F).
  - destruct input as [|ch rest]; [discriminate|]. destruct (term_matches (TSet t) ch); [|discriminate]. apply (IH _ _ _ _ _ _ b H C O K F).
Qed.

(** * The rewriting preserves the language *)
Theorem compile_plain : forall props input r, compile props input = CRegex r -> exists r0, plain_compile props input = CRegex r0 /\ rel r0 r.
Proof.
  intros props input r H. unfold compile, parse_ctx in H.
  destruct (run props (parse_fuel input) None input [NT N_s] (mkCtx [] 0)) as [c| | |] eqn:E; try discriminate.
  destruct (plain_simulates _ _ _ _ _ (mkCtx [] 0) _ _ false E) as (c0 & E0 & C).
  - split; [constructor|reflexivity].
  - reflexivity.
  - reflexivity.
  - discriminate.
  - unfold plain_compile. rewrite E0. destruct (stk c) as [|[] ts] eqn:S; try discriminate. injection H as ->.
    destruct C as [C _]. rewrite S in C. inversion C as [|i0 i ts0 ts1 I T Q]. subst. apply irel_re in I as (r0 & -> & R). eauto.
Qed.
