(** One lemma per construct of the pattern language: what the evaluator does at a position of an array
    subject before any continuation. *)
From Coq Require Import List ZArith NArith Bool Lia Arith ZifyBool ZifyNat ZifyN.
From Verif Require Import Chars Syntax First View Eval Api Spec CharProofs EvalMono EvalInv EvalSem SpecProps SpecCut
  EvalTop Checks EvalSound ApiProofs Match Tail Actions.
Import ListNotations.

(** * Assertions *)
Section Zero.
Variables (opt : bool) (s : list Z).
Notation v := (arr_view s).

Lemma assert_step : forall n p f c a tl, p <= length s ->
  eval opt (S n) v v p f c (AR (RAssert a) :: tl) =
  if holds s (f_ml f) a p then eval opt n v v p f c tl else No.
Proof.
  intros n p f c a tl Hp. cbn [eval]. rewrite assert_holds by assumption.
  destruct (holds s (f_ml f) a p); reflexivity.
Qed.

(** The neighbours of a position. *)
Definition before (P : Z -> Prop) (p : nat) : Prop := exists q x, p = S q /\ nth_error s q = Some x /\ P x.
Definition after (P : Z -> Prop) (p : nat) : Prop := exists x, nth_error s p = Some x /\ P x.

Definition anchor_holds (ml : bool) (a : assertion) (p : nat) : Prop :=
  match a with
  | ASubjectBegin => p = 0
  | ASubjectEnd => p = length s
  | ASubjectEndLine => p = length s \/ (ml = true /\ after (fun x => x = 10%Z) p /\ S p = length s)
  | ALineBegin => p = 0 \/ (ml = true /\ before (fun x => x = 10%Z) p)
  | ALineEnd => p = length s \/ (ml = true /\ after (fun x => x = 10%Z) p)
  end.

Lemma char_before_iff : forall P p, char_before s P p = true <-> before (fun x => P x = true) p.
Proof.
  intros P p. unfold char_before, before. destruct p as [|q].
  - split; [discriminate|]. intros (q & x & H & _). discriminate.
  - split.
    + destruct (nth_error s q) as [x|] eqn:E; [|discriminate]. intros H. exists q, x. auto.
    + intros (q' & x & H & H1 & H2). injection H as ->. rewrite H1. assumption.
Qed.
Lemma char_after_iff : forall P p, char_after s P p = true <-> after (fun x => P x = true) p.
Proof.
  intros P p. unfold char_after, after. split.
  - destruct (nth_error s p) as [x|] eqn:E; [|discriminate]. intros H. exists x. auto.
  - intros (x & H1 & H2). rewrite H1. assumption.
Qed.
Lemma before_ext : forall (P Q : Z -> Prop) p, (forall x, P x <-> Q x) -> before P p <-> before Q p.
Proof. intros P Q p H. unfold before. split; intros (q & x & H1 & H2 & H3); exists q, x; firstorder. Qed.
Lemma after_ext : forall (P Q : Z -> Prop) p, (forall x, P x <-> Q x) -> after P p <-> after Q p.
Proof. intros P Q p H. unfold after. split; intros (x & H1 & H2); exists x; firstorder. Qed.
Lemma nl_iff : forall x, Z.eqb 10 x = true <-> x = 10%Z.
Proof. intros x. rewrite Z.eqb_eq. split; congruence. Qed.

Lemma holds_iff : forall ml a p, holds s ml a p = true <-> anchor_holds ml a p.
Proof.
  intros ml a p. destruct a; cbn [holds anchor_holds]; unfold at_begin, at_end;
    rewrite ?orb_true_iff, ?andb_true_iff, ?Nat.eqb_eq, ?char_before_iff, ?char_after_iff,
      ?(before_ext _ _ _ nl_iff), ?(after_ext _ _ _ nl_iff); tauto.
Qed.

Lemma anchor_step : forall n p f c a tl, p <= length s ->
  (anchor_holds (f_ml f) a p -> eval opt (S n) v v p f c (AR (RAssert a) :: tl) = eval opt n v v p f c tl) /\
  (~ anchor_holds (f_ml f) a p -> eval opt (S n) v v p f c (AR (RAssert a) :: tl) = No).
Proof.
  intros n p f c a tl Hp. rewrite assert_step by assumption. pose proof (holds_iff (f_ml f) a p) as H.
  destruct (holds s (f_ml f) a p); split; intros H1; try reflexivity.
  - exfalso. apply H1, H. reflexivity.
  - exfalso. apply H in H1. discriminate.
Qed.

(** * Boundaries *)
(** Exactly one of two things. *)
Definition exactly_one (P Q : Prop) : Prop := (P /\ ~ Q) \/ (Q /\ ~ P).

Lemma around_step : forall n p f c k tl, p <= length s -> (forall x, In x s -> val_ok x = true) -> cls_ok (f_ci f) k = true ->
  eval opt (S n) v v p f c (AR (RBound k) :: tl) =
  if boundary s (f_ci f) k p then eval opt n v v p f c tl else No.
Proof.
  intros n p f c k tl Hp Hs Hk. cbn [eval]. rewrite (around_boundary s (f_ci f)); auto.
  - unfold boundary. destruct (char_before s (cls_has (f_ci f) k) p), (char_after s (cls_has (f_ci f) k) p); reflexivity.
  - apply forallb_forall. assumption.
Qed.

Lemma bound_step : forall n p f c k (W : Z -> Prop) tl, p <= length s -> (forall x, In x s -> val_ok x = true) -> cls_ok (f_ci f) k = true ->
  (forall x, cls_has (f_ci f) k x = true <-> W x) ->
  (exactly_one (before W p) (after W p) -> eval opt (S n) v v p f c (AR (RBound k) :: tl) = eval opt n v v p f c tl) /\
  (~ exactly_one (before W p) (after W p) -> eval opt (S n) v v p f c (AR (RBound k) :: tl) = No).
Proof.
  intros n p f c k W tl Hp Hs Hk HW. rewrite around_step by assumption. unfold boundary, exactly_one.
  pose proof (char_before_iff (cls_has (f_ci f) k) p) as H1. pose proof (char_after_iff (cls_has (f_ci f) k) p) as H2.
  rewrite (before_ext _ _ p HW) in H1. rewrite (after_ext _ _ p HW) in H2.
  destruct (char_before s (cls_has (f_ci f) k) p), (char_after s (cls_has (f_ci f) k) p); cbn [xorb];
    split; intros H; try reflexivity; exfalso; intuition congruence.
Qed.
End Zero.

(** * One character *)
Lemma one_char : forall opt n f k x, exists c, ctre_match opt (S (S (S (S (S (S n)))))) [x] f (RCls k) = Ok c /\
  matched c = match_cls (f_ci f) k x.
Proof.
  intros opt n f k x. unfold ctre_match, exec_match.
  cbn [eval arr_view vend vget vnext vconv length Nat.eqb nth_error or_ub Nat.ltb Nat.leb].
  destruct (match_cls (f_ci f) k x); eexists; split; reflexivity.
Qed.
Lemma one_char_only : forall opt n s f k c, ctre_match opt n s f (RCls k) = Ok c -> matched c = true -> length s = 1.
Proof.
  intros opt n s f k c H Hm. unfold ctre_match, exec_match in H. apply returned_cases in H as [H | [_ H]]; [|subst c; discriminate Hm].
  destruct n as [|[|n]]; try discriminate H. cbn [eval arr_view vend vget vnext vconv or_ub] in H.
  destruct (Nat.eqb 0 (length s)) eqn:E; [discriminate|].
  destruct (nth_error s 0) as [x|]; [|discriminate]. cbn [or_ub] in H.
  destruct (match_cls (f_ci f) k x); [|discriminate]. destruct (Nat.ltb 0 (length s)); [|discriminate].
  destruct n as [|n]; [discriminate H|]. cbn [or_ub eval eval_assert arr_view vend] in H.
  destruct (Nat.eqb_spec 1 (length s)); [auto|discriminate].
Qed.

(** * Lookahead *)
Lemma well_ahead : forall neg r, well_numbered r -> well_numbered (RAhead neg [r]).
Proof.
  intros neg r [H1 H2]. split; [cbn; rewrite H1; reflexivity|]. cbn [find_captures]. rewrite app_nil_r. assumption.
Qed.
Lemma group_cl : forall c c' id, cl c = cl c' -> id <> 0 -> group c id = group c' id.
Proof. intros c c' id H Hid. unfold group, get_id. destruct (Nat.eqb_spec id 0); [contradiction|]. rewrite H. reflexivity. Qed.

Lemma ahead_whole : forall opt n n' s f r p neg, well_numbered r -> p <= length s ->
  attempt opt n s f r p <> Fuel -> attempt opt n' s f (RAhead neg [r]) p <> Fuel ->
  match attempt opt n s f r p with
  | Ok c => if neg then attempt opt n' s f (RAhead neg [r]) p = No
            else exists c', attempt opt n' s f (RAhead neg [r]) p = Ok c' /\ group c' 0 = Some (p, p) /\
                            forall id, id <> 0 -> group c' id = group c id
  | No => if neg then exists c', attempt opt n' s f (RAhead neg [r]) p = Ok c' /\ group c' 0 = Some (p, p) /\
                                 forall id, id <> 0 -> group c' id = None
          else attempt opt n' s f (RAhead neg [r]) p = No
  | y => attempt opt n' s f (RAhead neg [r]) p = y
  end.
Proof.
  intros opt n n' s f r p neg Hw Hp N1 N2.
  pose proof (ahead_attempt opt n n' s f r p _ neg _ (ids_pos _ _ (proj1 Hw)) eq_refl eq_refl N2 N1) as H.
  pose proof (attempt_ok opt n' s f (RAhead neg [r]) p _ (well_ahead neg r Hw) Hp eq_refl) as A.
  destruct (attempt opt n s f r p) as [c| | | |]; auto; destruct neg; auto.
  - destruct H as (c' & H1 & H2 & H3). exists c'. rewrite H1 in A. destruct A as (A1 & A2 & _).
    split; [assumption|]. split; [apply c0_group; assumption|]. intros id Hid. apply group_cl; assumption.
  - destruct H as (c' & H1 & H2 & H3). exists c'. rewrite H1 in A. destruct A as (A1 & A2 & _).
    split; [assumption|]. split; [apply c0_group; assumption|]. intros id Hid. rewrite (group_cl c' (fresh r)); auto using fresh_group.
  - contradiction.
  - contradiction.
Qed.

(** * Backreferences *)
Lemma range_total : forall s n p b e, p <= length s -> b <= e <= length s -> e - b < n ->
  match_range_loop n (arr_view s) p b e <> Fuel /\ match_range_loop n (arr_view s) p b e <> UB /\ match_range_loop n (arr_view s) p b e <> Ill.
Proof.
  intros s. induction n as [|n IH]; intros p b e Hp Hb Hn; [lia|]. cbn [match_range_loop arr_view vend vget vnext or_ub].
  destruct (Nat.eqb_spec p (length s)) as [Ep|Ep]; cbn [negb andb]; [split; [|split]; discriminate|].
  destruct (Nat.eqb_spec e b); cbn [negb]; [split; [|split]; discriminate|].
  destruct (nth_error s p) as [x|] eqn:Ex; [|exfalso; apply nth_error_None in Ex; lia].
  destruct (nth_error s b) as [y|] eqn:Ey; [|exfalso; apply nth_error_None in Ey; lia]. cbn [or_ub].
  destruct (Z.eqb x y); [|split; [|split]; discriminate].
  destruct (Nat.ltb_spec p (length s)); [|lia]. destruct (Nat.ltb_spec b (length s)); [|lia]. cbn [or_ub].
  apply IH; lia.
Qed.

(** The text [s[p..]] starts with the text of the span [b, e). *)
Definition repeats (s : list Z) (b e p : nat) : Prop := firstn (e - b) (skipn p s) = firstn (e - b) (skipn b s).

Lemma back_span : forall opt n s p f c b e tl, p <= length s -> b <= e <= length s -> e - b < n ->
  match match_range_loop n (arr_view s) p b e with
  | Ok (cur', true) => eval opt n (arr_view s) (arr_view s) cur' (consumed_something f (negb (Nat.eqb b e))) c tl
  | Ok (_, false) => No | No => No | Fuel => Fuel | UB => UB | Ill => Ill
  end = (if prefix_at s (text s b e) p then eval opt n (arr_view s) (arr_view s) (p + (e - b)) (consumed_something f (negb (Nat.eqb b e))) c tl else No).
Proof.
  intros opt n s p f c b e tl Hp Hb Hn. pose proof (match_range_prefix s n p b e Hp Hb) as H.
  destruct (range_total s n p b e Hp Hb Hn) as (H1 & H2 & H3).
  destruct (match_range_loop n (arr_view s) p b e) as [[p' []]| | | |]; try congruence; try contradiction.
  - destruct H as (-> & -> & _). reflexivity.
  - rewrite H. reflexivity.
Qed.

Lemma prefix_repeats : forall s b e p, p <= length s -> b <= e <= length s ->
  prefix_at s (text s b e) p = true <-> repeats s b e p.
Proof.
  intros s b e p Hp Hb. rewrite (prefix_at_iff s (fun _ => None)) by assumption. rewrite (text_length s (fun _ => None)) by lia.
  unfold repeats, text. split.
  - intros [_ H2]. replace (p + (e - b) - p) with (e - b) in H2 by lia. exact H2.
  - intros H. assert (L : p + (e - b) <= length s).
    { apply (f_equal (@length Z)) in H. rewrite !firstn_length, !skipn_length in H. lia. }
    replace (p + (e - b) - p) with (e - b) by lia. auto.
Qed.

Lemma back_step : forall opt n s p f c id b e tl, p <= length s -> b <= e <= length s -> e - b < n ->
  group c id = Some (b, e) ->
  (repeats s b e p -> eval opt (S n) (arr_view s) (arr_view s) p f c (AR (RBack id) :: tl) =
     eval opt n (arr_view s) (arr_view s) (p + (e - b)) (consumed_something f (negb (Nat.eqb b e))) c tl) /\
  (~ repeats s b e p -> eval opt (S n) (arr_view s) (arr_view s) p f c (AR (RBack id) :: tl) = No).
Proof.
  intros opt n s p f c id b e tl Hp Hb Hn Hg. cbn [eval arr_view vsame negb]. fold (arr_view s).
  unfold group in Hg. destruct (get_id id c) as [[[b'|] [e'|] []]|]; try discriminate. injection Hg as -> ->.
  cbn [or_ill s_m s_beg s_end or_ub]. rewrite back_span by assumption.
  pose proof (prefix_repeats s b e p Hp Hb) as H.
  destruct (prefix_at s (text s b e) p); split; intros H1; try reflexivity; exfalso; intuition congruence.
Qed.
Lemma back_unset : forall opt n s p f c id sl tl, get_id id c = Some sl -> s_m sl = false ->
  eval opt (S n) (arr_view s) (arr_view s) p f c (AR (RBack id) :: tl) = No.
Proof. intros opt n s p f c id sl tl H1 H2. cbn [eval arr_view vsame negb]. rewrite H1. cbn [or_ill]. rewrite H2. reflexivity. Qed.
Lemma nback_same : forall opt n s p f c nm id sl tl, get_name nm (cl c) = Some sl -> get_id id c = Some sl ->
  eval opt (S n) (arr_view s) (arr_view s) p f c (AR (RNBack nm) :: tl) =
  eval opt (S n) (arr_view s) (arr_view s) p f c (AR (RBack id) :: tl).
Proof. intros opt n s p f c nm id sl tl H1 H2. cbn [eval arr_view vsame negb]. rewrite H1, H2. reflexivity. Qed.
