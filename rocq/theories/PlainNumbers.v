(** The groups of the unrewritten tree ([Fusion.plain_compile]) are numbered as those of the compiled one. *)
From Coq Require Import List ZArith NArith Bool Lia Arith.
From Verif Require Import Chars Syntax View Eval Api EvalInv ApiProofs Grammar Actions Parser Numbering Fusion.
Import ListNotations.

Lemma pick_one : forall rv l, pick rv [l] = l.
Proof. intros [] l; cbn; apply app_nil_r. Qed.
Lemma plain_apply_order : forall props a p c c', plain_apply props a p c = Done c' -> in_order c -> in_order c'.
Proof.
  intros props a p [s n] c' H O. destruct p as [v|]; [|exact (apply_order props a None _ c' H O)].
  destruct a; cbn [plain_apply] in H; try exact (apply_order props _ (Some v) _ c' H O); cbn [stk counter] in H;
  repeat match type of H with
  | context [match ?x with _ => _ end] => is_var x; destruct x; try discriminate H
  | context [match rotate ?x with _ => _ end] => destruct (rotate x) eqn:?; try discriminate H
  end; injection H as <-; unfold in_order in *; cbn [stk counter] in *; rewrite ?stack_cons in *; cbn [item_numbers] in *; unfold numbers in *; cbn [ord map] in *;
  rewrite ?pick_one, ?app_nil_r in *; cbn [concat] in *; rewrite ?app_nil_r, <- ?app_assoc in *; try assumption.
  all: try (rewrite (rotate_ord _ _ ltac:(eassumption)); assumption).
  unfold pick. cbn [concat]. rewrite app_nil_r. assumption.
Qed.
Lemma plain_run_order : forall props n p input st c c', plain_run props n p input st c = PAccept c' -> in_order c -> in_order c'.
Proof.
  intros props n. induction n as [|n IH]; intros p input st c c' E O; cbn [plain_run] in E; [discriminate E|].
  destruct st as [|s st]; [destruct input; [injection E as <-; exact O|discriminate E]|]. destruct s.
  all: try (destruct input as [|ch rest]; [discriminate E|]; destruct (term_matches _ ch); [exact (IH _ _ _ _ _ E O)|discriminate E]).
  - destruct (rule _ _); [exact (IH _ _ _ _ _ E O)|discriminate E].
  - destruct (plain_apply props a p c) as [c1| |] eqn:A; try discriminate E. exact (IH _ _ _ _ _ E (plain_apply_order _ _ _ _ _ A O)).
Qed.
Theorem plain_well_numbered : forall props input r, plain_compile props input = CRegex r -> well_numbered r.
Proof.
  intros props input r H. unfold plain_compile in H. destruct (plain_run _ _ _ _ _ _) as [c| | |] eqn:E; try discriminate H.
  assert (O : in_order c) by (eapply plain_run_order; [exact E|reflexivity]). destruct (stk c) as [|[] ts] eqn:S; try discriminate H. injection H as <-.
  unfold in_order in O. rewrite S, stack_cons in O. cbn [item_numbers] in O.
  assert (Q : forall i, In i (numbers r0) -> i <> 0).
  { intros i I. assert (J : In i (seq 1 (counter c))) by (rewrite <- O; apply in_or_app; right; exact I). apply in_seq in J. lia. }
  assert (N : NoDup (numbers r0)).
  { assert (D : NoDup (stack_numbers ts ++ numbers r0)) by (rewrite O; apply seq_NoDup). clear - D. induction (stack_numbers ts); [exact D|]. inversion D; auto. }
  split.
  - apply (numbers_ok r0 false); [exact N|]. intros i [<-|[]] I. exact (Q 0 I eq_refl).
  - apply (NoDup_count_occ Nat.eq_dec). intros x. pose proof (captures_counted r0 x).
    pose proof (proj1 (NoDup_count_occ Nat.eq_dec (numbers r0)) N x). lia.
Qed.
