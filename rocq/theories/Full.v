(** The shape of compiled regular expressions: no list of a compiled tree is empty, and for trees without references, lookbehinds and atomic groups the conditions of
    [CommittedTop.meant_check] reduce to conditions on the characters. *)
From Coq Require Import List ZArith NArith Bool Lia Arith.
From Verif Require Import Chars Syntax View Eval Api EvalInv ApiProofs EvalSem EvalTop Mode ModeSem ModeSound ModeCalls CharProofs Match CommittedRefine CommittedTop Term Numbering Grammar Actions Parser.
From Verif Require HardError.
Import ListNotations.

(** Every [sequence], [select], repetition, group, lookaround and atomic group has content. *)
Definition some {A} (l : list A) : bool := match l with [] => false | _ => true end.
Fixpoint full (r : re) : bool :=
  match r with
  | RSelect l | RSeq l | RRep _ _ _ l | RCap _ l | RNCap _ _ l | RAhead _ l | RBehind _ l | RAtomic l => some l && forallb full l
  | _ => true
  end.

(** ** The actions preserve it *)
Definition full_item (i : item) : Prop := match i with IRe r => full r = true | _ => True end.
Lemma some_rev : forall A (l : list A), some (rev l) = some l.
Proof. intros A [|x l]; [reflexivity|]. cbn [rev]. destruct (rev l); reflexivity. Qed.
Lemma forallb_rev : forall A (f : A -> bool) l, forallb f (rev l) = forallb f l.
Proof. intros A f l. induction l as [|x l IH]; [reflexivity|]. cbn [rev forallb]. rewrite forallb_app, IH. cbn [forallb]. rewrite andb_true_r. apply andb_comm. Qed.
Lemma full_unwrap : forall x, full x = true -> some (unwrap x) && forallb full (unwrap x) = true.
Proof. intros x H. destruct x; cbn [unwrap some forallb]; rewrite ?andb_true_r; exact H. Qed.
Lemma full_combine : forall k a b a' b' l, some l && forallb full l = true -> full (combine_repeat k a b a' b' l) = true.
Proof.
  intros k a b a' b' l H. unfold combine_repeat. destruct k; try exact H. destruct (N.eqb b 0); [destruct (N.ltb 0 a')|destruct (N.eqb a' 0)]; try exact H.
  cbn [full some forallb]. apply andb_true_iff in H as [_ H]. exact H.
Qed.
Lemma full_pair : forall a b, full a = true -> full b = true -> full (RSeq [a; b]) = true.
Proof. intros a b A B. cbn [full some forallb]. rewrite A, B. reflexivity. Qed.
Lemma full_front : forall a l, full a = true -> full (RSeq l) = true -> full (RSeq (a :: l)) = true.
Proof. intros a l A B. cbn [full some forallb] in *. apply andb_true_iff in B as [_ B]. rewrite A, B. reflexivity. Qed.
Lemma full_behind_front : forall a b l, full a = true -> full (RSeq (b :: l)) = true -> full (RSeq (a :: l)) = true.
Proof. intros a b l A B. cbn [full some forallb andb] in *. apply andb_true_iff in B as [_ B]. rewrite A, B. reflexivity. Qed.
Lemma full_first : forall b l, full (RSeq (b :: l)) = true -> full b = true.
Proof. intros b l B. cbn [full some forallb andb] in B. apply andb_true_iff in B as [B _]. exact B. Qed.
Lemma full_sequence : forall b a, full b = true -> full a = true -> full (make_sequence b a) = true.
Proof.
  intros b a B A. unfold make_sequence.
  repeat match goal with
  | |- context [match ?x with _ => _ end] => is_var x; destruct x
  | |- context [if ?x then _ else _] => destruct x
  end; try reflexivity; try (apply full_pair; assumption); try (apply full_front; assumption); try (eapply full_behind_front; [|exact B]; reflexivity);
  try (apply full_combine; exact B); try (eapply full_behind_front; [|exact B]; apply full_combine; exact (full_first _ _ B)).
Qed.
Lemma full_alternate : forall b a, full b = true -> full a = true -> full (make_alternate b a) = true.
Proof.
  intros b a B A. unfold make_alternate. destruct b; cbn [full some forallb] in *; rewrite A; try rewrite B; try reflexivity. apply andb_true_iff in B as [_ B]. rewrite B. reflexivity.
Qed.
Lemma full_optional : forall x, full x = true -> full (make_optional x) = true.
Proof.
  intros x H. unfold make_optional.
  repeat match goal with |- context [match ?y with _ => _ end] => is_var y; destruct y end; try exact H; cbn [full some forallb] in *; rewrite ?H; try reflexivity.
Qed.
Lemma opt_map_full : forall l y, opt_map rotate l = Some y -> Forall (fun x => forall z, full x = true -> rotate x = Some z -> full z = true) l ->
  some l && forallb full l = true -> some y && forallb full y = true.
Proof.
  intros l y E F H. destruct l as [|x l]; [discriminate H|]. cbn [some] in *. rewrite andb_true_l in H.
  assert (G : forall l y, opt_map rotate l = Some y -> Forall (fun x => forall z, full x = true -> rotate x = Some z -> full z = true) l -> forallb full l = true -> forallb full y = true).
  { clear. induction l as [|x l IH]; intros y E F H; cbn [opt_map] in E; [injection E as <-; reflexivity|]. inversion F; subst.
    destruct (rotate x) as [z|] eqn:Ex; [|discriminate E]. destruct (opt_map rotate l) as [zs|] eqn:El; [|discriminate E]. injection E as <-.
    cbn [forallb] in *. apply andb_true_iff in H as [Ha Hb]. erewrite IH by (eassumption || reflexivity). rewrite (H2 z Ha eq_refl). reflexivity. }
  rewrite (G (x :: l) y E F H). cbn [opt_map] in E. destruct (rotate x); [|discriminate E]. destruct (opt_map rotate l); [|discriminate E]. injection E as <-. reflexivity.
Qed.
Lemma opt_map_full2 : forall l y, opt_map rotate l = Some y -> (forall x z, In x l -> full x = true -> rotate x = Some z -> full z = true) ->
  some l && forallb full l = true -> some y && forallb full y = true.
Proof. intros l y E F. apply (opt_map_full l y E). apply Forall_forall. intros x I z. exact (F x z I). Qed.
Lemma full_rotate : forall r z, full r = true -> rotate r = Some z -> full z = true.
Proof.
  intros r.
  apply (re_ind2 (fun r => forall z, full r = true -> rotate r = Some z -> full z = true)
    (fun l => forall r z, In r l -> full r = true -> rotate r = Some z -> full z = true));
  intros; cbn [rotate] in *; try discriminate;
  try match goal with H : Some _ = Some _ |- _ => injection H as <-; assumption || reflexivity end;
  try match goal with H : context [opt_map rotate ?l] |- _ =>
    destruct (opt_map rotate l) as [y|] eqn:E; cbn [map_some] in H; [|discriminate H]; injection H as <-; cbn [full]; rewrite ?some_rev, ?forallb_rev; eapply opt_map_full2; eassumption end.
  - destruct H.
  - destruct H1 as [<-|I]; eauto.
Qed.
Lemma full_behind : forall x l, full x = true -> behind_content x = Some l -> some l && forallb full l = true.
Proof.
  intros x l H E. unfold behind_content in E.
  assert (G : forall o, map_some (fun y => [y]) o = Some l -> (forall y, o = Some y -> full y = true) -> some l && forallb full l = true).
  { intros [y|] Ho K; cbn [map_some] in Ho; [|discriminate Ho]. injection Ho as <-. cbn [some forallb]. rewrite (K y eq_refl). reflexivity. }
  destruct x; try (apply (G _ E); intros y Ey; exact (full_rotate _ _ H Ey)).
  destruct (opt_map rotate l0) as [y|] eqn:Ey; cbn [map_some] in E; [|discriminate E]. injection E as <-. rewrite some_rev, forallb_rev.
  apply (opt_map_full2 _ _ Ey); [|exact H]. intros z w _. apply full_rotate.
Qed.

Section Act.
Variable props : list Z -> option (list Z) -> option (list (Z * Z)).
Lemma full_act : forall a p c, Forall full_item (stk c) -> match apply props a p c with Done c' => Forall full_item (stk c') | _ => True end.
Proof.
  intros a p [items cnt] T. cbn [stk] in T.
  assert (P : forall i, full_item i -> Forall full_item (i :: items)) by (intros; constructor; assumption).
  destruct p as [v|]; [|destruct a; cbn [apply stk]; try exact I; destruct items; try exact I; cbn [stk]; apply P; exact eq_refl].
  destruct a; cbn [apply]; unfold push_cls, push, apply_mode; cbn [stk counter]; try (apply P; exact eq_refl || exact I).
  all: repeat match goal with |- context [match ?x with _ => _ end] => is_var x; destruct x; try exact I end; cbn [stk].
  all: repeat match goal with |- context [if ?b then _ else _] => destruct b; try exact I | |- context [props ?x ?y] => destruct (props x y); try exact I
    | |- context [behind_content ?x] => destruct (behind_content x) eqn:?; try exact I end; cbn [stk].
  all: repeat match goal with T : Forall _ (_ :: _) |- _ => inversion T; clear T; subst end.
  all: repeat constructor; try assumption; cbn [full_item] in *; try reflexivity.
  all: try (apply full_sequence; assumption); try (apply full_alternate; assumption); try (apply full_optional; assumption); try (apply full_unwrap; assumption); try assumption.
  all: try (eapply full_behind; eassumption).
Qed.

End Act.

Theorem run_full : forall props n prev input st c c', Forall full_item (stk c) -> run props n prev input st c = PAccept c' -> Forall full_item (stk c').
Proof.
  intros props n. induction n as [|n IH]; intros prev input st c c' F E; cbn [run] in E; [discriminate E|].
  destruct st as [|s st]; [destruct input; [injection E as <-; exact F|discriminate E]|]. destruct s.
  all: try (destruct input as [|ch rest]; [discriminate E|]; destruct (term_matches _ ch); [exact (IH _ _ _ _ _ F E)|discriminate E]).
  - destruct (rule _ _); [exact (IH _ _ _ _ _ F E)|discriminate E].
  - pose proof (full_act props a prev c F) as G. destruct (apply props a prev c) as [c1| |]; [exact (IH _ _ _ _ _ G E)|discriminate E|discriminate E].
Qed.
Theorem compiled_full : forall props u r, compile props u = CRegex r -> full r = true.
Proof.
  intros props u r E. unfold compile, parse_ctx in E. destruct (run _ _ _ _ _ _) as [c| | |] eqn:R; try discriminate E.
  assert (F : Forall full_item (stk c)) by (eapply run_full; [|exact R]; constructor). destruct (stk c) as [|[] ts]; try discriminate E. injection E as <-. inversion F; assumption.
Qed.

(** ** What is left of the conditions of [meant_check] *)
(** Every character below 2^31, every range in order, in each of the modes [M]. *)
Fixpoint chars_ok (M : list modes) (r : re) : bool :=
  match r with
  | RCls c | RBound c | RNotBound c => forallb (fun m => cls_ok (snd m) c) M
  | RStr t => forallb lit_ok t
  | RSelect l | RSeq l | RRep _ _ _ l | RCap _ l | RNCap _ _ l | RAhead _ l | RAtomic l => forallb (chars_ok M) l
  | _ => true
  end.
Lemma plain_xwf : forall M names r O, HardError.plain r = true -> full r = true -> terminating r = true -> ids_ok O r = true -> chars_ok M r = true ->
  (forall k m, In k (switches r) -> In m M -> In (switch k m) M) -> xwf M names O r = true.
Proof.
  intros M names r.
  apply (re_ind2 (fun r => forall O, HardError.plain r = true -> full r = true -> terminating r = true -> ids_ok O r = true -> chars_ok M r = true ->
      (forall k m, In k (switches r) -> In m M -> In (switch k m) M) -> xwf M names O r = true)
    (fun l => forall O, forallb HardError.plain l = true -> forallb full l = true -> forallb terminating l = true -> forallb (ids_ok O) l = true -> forallb (chars_ok M) l = true ->
      (forall k m, In k (flat_map switches l) -> In m M -> In (switch k m) M) -> forallb (xwf M names O) l = true));
  intros; cbn [HardError.plain full terminating ids_ok chars_ok switches xwf forallb flat_map] in *; try discriminate; try reflexivity; try assumption;
  repeat match goal with H : _ && _ = true |- _ => apply andb_true_iff in H as [? ?] end.
  all: repeat match goal with |- _ && _ = true => apply andb_true_iff; split end; try assumption; eauto.
  - apply H; try assumption. intros k m K. apply H6. apply in_or_app. left. exact K.
  - apply H0; try assumption. intros k m K. apply H6. apply in_or_app. right. exact K.
  - apply forallb_forall. intros x X. apply in_modes_spec. apply H4; [left; reflexivity|exact X].
Qed.
Lemma nodup_nat_complete : forall l, NoDup l -> nodup_nat l = true.
Proof.
  intros l H. induction H as [|x l H _ IH]; [reflexivity|]. cbn [nodup_nat]. rewrite IH, andb_true_r. apply negb_true_iff. apply not_true_iff_false. intros E.
  apply existsb_exists in E as (y & Y & E). apply Nat.eqb_eq in E as <-. exact (H Y).
Qed.
Theorem plain_meant : forall props u r f, compile props u = CRegex r -> HardError.plain r = true -> terminating r = true -> chars_ok (modes_in f r) r = true -> meant_check f r = true.
Proof.
  intros props u r f E P T C. destruct (compiled_well_numbered _ _ _ E) as [I N]. unfold meant_check. apply andb_true_iff. split.
  - apply plain_xwf; try assumption; [exact (compiled_full _ _ _ E)|]. intros k m. apply modes_in_switch.
  - unfold ids_distinct. apply nodup_nat_complete. exact N.
Qed.

(** Without switches the mode is that of the call. *)
Lemma simple_switches : forall r, HardError.simple r = true -> switches r = [].
Proof.
  intros r.
  apply (re_ind2 (fun r => HardError.simple r = true -> switches r = []) (fun l => forallb HardError.simple l = true -> flat_map switches l = []));
  intros; cbn [HardError.simple switches forallb flat_map] in *; try reflexivity; try discriminate; auto.
  - apply andb_true_iff in H1 as [H1 H2]. rewrite H, H0 by assumption. reflexivity.
  - destruct k; try discriminate; auto.
Qed.
Lemma modes_single : forall f r, HardError.simple r = true -> forall m, In m (modes_in f r) -> snd m = f_ci f.
Proof.
  intros f r S m I. apply filter_In in I as [_ I]. rewrite (simple_switches r S) in I. unfold reaches in I. cbn [existsb] in I. rewrite !orb_false_r in I.
  apply andb_true_iff in I as [_ I]. apply eqb_prop in I. exact I.
Qed.
