(** Texts all of whose calls are programs (C75): what the parser can build without lookbehinds, atomic groups and backreferences has every overload the
    evaluation needs; with the greedy optimisation besides, if the analysis of first characters has an overload for every node. *)
From Coq Require Import List ZArith NArith Bool Lia Arith String.
From Verif Require Import Chars Syntax First Utf8 View Eval Api EvalInv ApiProofs Views Compiles Total Term Grammar Actions Parser HardError.
Import ListNotations.
Local Open Scope string_scope.
Local Open Scope list_scope.

(** * Without the optimisation *)
Section Structure.
Variable G : list (nat * option (list Z)).
Variable same : bool.
Lemma known_in : forall id nm, In (id, nm) G -> known_id G id = true.
Proof. intros id nm H. unfold known_id. apply orb_true_iff. right. apply existsb_exists. exists (id, nm). split; [exact H|apply Nat.eqb_refl]. Qed.
Lemma plain_structure : forall r, plain r = true -> (forall g, In g (find_captures r) -> In g G) -> structure G true same r = true.
Proof.
  apply (re_ind2 (fun r => plain r = true -> (forall g, In g (find_captures r) -> In g G) -> structure G true same r = true)
    (fun l => forallb plain l = true -> (forall g, In g (find_captures (RSeq l)) -> In g G) -> forallb (structure G true same) l = true)); try reflexivity; try discriminate.
  - intros r l Hr Hl H J. cbn [forallb] in *. apply andb_true_iff in H as [H1 H2].
    change (find_captures (RSeq (r :: l))) with (find_captures r ++ find_captures (RSeq l)) in J.
    rewrite Hr, Hl; [reflexivity|exact H2| |exact H1|]; intros g I; apply J, in_or_app; auto.
  - intros l IH H J. exact (IH H J).
  - intros l IH H J. exact (IH H J).
  - intros k a b l IH H J. exact (IH H J).
  - intros id l IH H J. cbn [structure]. rewrite (known_in id None) by (apply J; left; reflexivity). apply IH; [exact H|]. intros g I. apply J. right. exact I.
  - intros id nm l IH H J. cbn [structure]. rewrite (known_in id (Some nm)) by (apply J; left; reflexivity). apply IH; [exact H|]. intros g I. apply J. right. exact I.
  - intros n l IH H J. exact (IH H J).
Qed.
End Structure.

(** * The analysis of first characters *)
(** Classes it has overloads for: below a complement ([under], HardError.v), as an element of what was found ([found]), as a node ([node]). *)
Fixpoint found (c : cls) : bool := match c with CSet l => forallb found l | CNeg l => forallb under l | CNegate _ => false | _ => true end.
Definition node (c : cls) : bool := match c with CSet l => forallb found l | CNeg l | CNegate l => forallb under l | _ => true end.
Fixpoint analysable (r : re) : bool :=
  match r with
  | RCls c => node c
  | RSelect l | RSeq l | RRep _ _ _ l | RAhead _ l | RCap _ l | RNCap _ _ l => forallb analysable l
  | RReject | RMode _ | RNotBound _ | RBehind _ _ | RAtomic _ => false
  | _ => true
  end.
Definition found_item (i : fitem) : bool := match i with FCls c => found c | FAny => true end.
Definition goes (k : list fitem -> option (list fitem)) : Prop := forall acc, forallb found_item acc = true -> exists acc', k acc = Some acc' /\ forallb found_item acc' = true.

Lemma neg_total : forall c, under c = true -> forall st, neg_helper c st <> None.
Proof.
  induction c as [v|a b|l IH|l IH|vs|l IH|t] using cls_ind2; intros U st; cbn [neg_helper]; try discriminate.
  cbn [under] in U. revert st. induction IH as [|x l Hx Hl IHl]; intros st; [discriminate|]. cbn [forallb] in U. apply andb_true_iff in U as [U1 U2].
  specialize (Hx U1 st). destruct (neg_helper x st) as [[o1 s1]|]; [|congruence]. specialize (IHl U2 s1). destruct ((fix go (l : list cls) (start : Z) := _) l s1) as [[o2 s2]|]; congruence.
Qed.
Lemma neg_list_total : forall l, forallb under l = true -> forall st, neg_helper_l l st <> None.
Proof.
  induction l as [|x l IH]; intros U st; cbn [neg_helper_l]; [discriminate|]. cbn [forallb] in U. apply andb_true_iff in U as [U1 U2].
  pose proof (neg_total x U1 st) as X. destruct (neg_helper x st) as [[o1 s1]|]; [|congruence]. specialize (IH U2 s1). destruct (neg_helper_l l s1) as [[o2 s2]|]; congruence.
Qed.
Lemma intervals_total : forall l, forallb under l = true -> exists o, neg_intervals l = Some o.
Proof. intros l U. unfold neg_intervals. pose proof (neg_list_total l U int64_min) as X. destruct (neg_helper_l l int64_min) as [[o s]|]; [eauto|congruence]. Qed.
Lemma populate_total : forall c, found c = true -> forall pts, exists p, populate_cls pts c = Some p.
Proof.
  induction c as [v|a b|l IH|l IH|vs|l IH|t] using cls_ind2; intros U pts; cbn [populate_cls]; eauto.
  - cbn [found] in U. revert pts. induction IH as [|x l Hx Hl IHl]; intros pts; [eauto|]. cbn [forallb] in U. apply andb_true_iff in U as [U1 U2].
    destruct (Hx U1 pts) as [p ->]. apply (IHl U2).
  - destruct (intervals_total l U) as [o ->]. eauto.
Qed.
Lemma check_total : forall pts c, found c = true -> exists b, check_cls pts c = Some b.
Proof.
  intros pts. induction c as [v|a b|l IH|l IH|vs|l IH|t] using cls_ind2; intros U; cbn [check_cls]; eauto; try discriminate U.
  - cbn [found] in U. induction IH as [|x l Hx Hl IHl]; [eauto|]. cbn [forallb] in U. apply andb_true_iff in U as [U1 U2].
    destruct (Hx U1) as [b1 ->]. destruct (IHl U2) as [b2 ->]. eauto.
  - destruct (intervals_total l U) as [o ->]. eauto.
Qed.
Lemma collides_total : forall F H, forallb found_item F = true -> forallb found_item H = true -> exists b, collides F H = Some b.
Proof.
  intros F H HF HH. unfold collides.
  assert (A : forall l pts, forallb found_item l = true -> exists p, populate pts l = Some p).
  { induction l as [|[c|] l IH]; intros pts J; cbn [populate]; [eauto| |]; cbn [forallb found_item] in J; apply andb_true_iff in J as [J1 J2].
    - destruct (populate_total c J1 pts) as [p ->]. apply IH, J2.
    - apply IH, J2. }
  destruct (A F [] HF) as [p ->]. clear A HF. induction H as [|[c|] l IH]; cbn [check]; [eauto| |]; cbn [forallb found_item] in HH; apply andb_true_iff in HH as [J1 J2]; destruct (IH J2) as [b2 ->].
  - destruct (check_total p c J1) as [b1 ->]. eauto.
  - eauto.
Qed.
Lemma found_under : forall c, under c = true -> found c = true.
Proof.
  induction c as [v|a b|l IH|l IH|vs|l IH|t] using cls_ind2; intros U; try reflexivity; try discriminate U. cbn [found under] in *. rewrite forallb_forall in *. rewrite Forall_forall in IH. auto.
Qed.
Lemma node_found : forall c acc, node c = true -> forallb found_item acc = true -> forallb found_item (first_cls c acc) = true.
Proof.
  intros c acc H A. destruct c as [v|a b|l|l|vs|l|t]; cbn [first_cls node] in *; rewrite ?forallb_app, ?A; cbn [forallb found_item found andb]; rewrite ?H; try reflexivity.
  - clear A. induction l as [|x l IH]; [reflexivity|]. cbn [map forallb found_item] in *. apply andb_true_iff in H as [-> H]. apply IH, H.
  - clear. induction vs; [reflexivity|exact IHvs].
Qed.
Lemma first_goes : forall r, analysable r = true -> forall k, goes k -> goes (first_re r k).
Proof.
  apply (re_ind2 (fun r => analysable r = true -> forall k, goes k -> goes (first_re r k))
    (fun l => forallb analysable l = true -> forall k, goes k -> goes (first_l l k) /\ goes (first_re (RSelect l) k))); try discriminate.
  - intros _ k Hk. split; [exact Hk|]. intros acc A. exists acc. split; [reflexivity|exact A].
  - intros r l Hr Hl H k Hk. cbn [forallb] in H. apply andb_true_iff in H as [H1 H2]. destruct (Hl H2 k Hk) as [L1 L2]. split.
    + intros acc A. exact (Hr H1 _ L1 acc A).
    + intros acc A. destruct (Hr H1 k Hk acc A) as (acc' & E & A'). destruct (L2 acc' A') as (x & E2 & A2). exists x. split; [|exact A2].
      cbn [first_re] in *. rewrite E. exact E2.
  - intros c H k Hk acc A. eexists. split; [reflexivity|]. apply node_found; assumption.
  - intros _ k Hk acc A. eexists. split; reflexivity.
  - intros [|x l] _ k Hk acc A; [apply Hk, A|]. eexists. split; [reflexivity|]. rewrite forallb_app, A. reflexivity.
  - intros l IH H k Hk. exact (proj2 (IH H k Hk)).
  - intros l IH H k Hk. exact (proj1 (IH H k Hk)).
  - intros _ k Hk. exact Hk.
  - intros kd a b l IH H k Hk acc A. change (first_re (RRep kd a b l) k acc) with
      (if is_optional kd a b then match first_l l k acc with Some acc' => k acc' | None => None end
       else if N.eqb a 0 then match k acc with Some acc' => first_l l k acc' | None => None end else first_l l k acc).
    pose proof (proj1 (IH H k Hk)) as L. destruct (is_optional kd a b); [|destruct (N.eqb a 0)].
    + destruct (L acc A) as (x & -> & X). apply Hk, X.
    + destruct (Hk acc A) as (x & -> & X). apply L, X.
    + apply L, A.
  - intros id l IH H k Hk. exact (proj1 (IH H k Hk)).
  - intros id nm l IH H k Hk. exact (proj1 (IH H k Hk)).
  - intros id _ k Hk acc A. eexists. split; reflexivity.
  - intros nm _ k Hk acc A. eexists. split; reflexivity.
  - intros n l IH H k Hk acc A. eexists. split; reflexivity.
  - intros c _ k Hk. exact Hk.
  - intros [] _ k Hk acc A; try (apply Hk, A); eexists; (split; [reflexivity|exact A]).
Qed.
Definition plain_atom (a : atom) : bool := match a with AR r => analysable r | AStart | AEndBehind => false | _ => true end.
Lemma stack_goes : forall l, forallb plain_atom l = true -> goes (first_stack l).
Proof.
  induction l as [|a l IH]; intros H; [intros acc A; exists acc; split; [reflexivity|exact A]|]. cbn [forallb] in H. apply andb_true_iff in H as [H1 H2].
  destruct a; try discriminate H1; cbn [first_stack first_atom]; try (intros acc A; exists acc; split; [reflexivity|exact A]).
  - apply first_goes; [exact H1|apply IH, H2].
  - apply IH, H2.
Qed.
Lemma choice_total : forall opt k l tl, forallb analysable l = true -> forallb plain_atom tl = true -> choice_ok opt k l tl = true.
Proof.
  intros opt k l tl Hl Ht. destruct k; try reflexivity. cbn [choice_ok]. unfold becomes_possessive, calculate_first. destruct opt; [|reflexivity].
  destruct (stack_goes (map AR l)) with (acc := @nil fitem) as (F & -> & HF); [|reflexivity|].
  - clear Ht. induction l as [|x l IH]; [reflexivity|]. cbn [map forallb plain_atom] in *. apply andb_true_iff in Hl as [-> Hl]. apply IH, Hl.
  - destruct (stack_goes tl Ht [] eq_refl) as (H & -> & HH). destruct (collides_total F H HF HH) as [b ->]. reflexivity.
Qed.

(** * With the optimisation *)
Section Optimised.
Variable G : list (nat * option (list Z)).
Variable same : bool.
Lemma analysable_list : forall l, forallb analysable l = true -> forallb plain_atom (map AR l ++ [AEndCycle]) = true.
Proof. induction l as [|x l IH]; intros H; [reflexivity|]. cbn [map app forallb plain_atom] in *. apply andb_true_iff in H as [-> H]. apply IH, H. Qed.
Lemma plain_checked : forall r, analysable r = true -> structure G true same r = true -> forall tl, forallb plain_atom tl = true -> cw true G true same r tl = true.
Proof.
  apply (re_ind2 (fun r => analysable r = true -> structure G true same r = true -> forall tl, forallb plain_atom tl = true -> cw true G true same r tl = true)
    (fun l => forallb analysable l = true -> forallb (structure G true same) l = true ->
       (forall tl, forallb plain_atom tl = true -> cseq true G true same l tl = true) /\ ccyc true G true same l = true /\
       (forall tl, forallb plain_atom tl = true -> cw true G true same (RSelect l) tl = true))); try reflexivity; try discriminate.
  - intros _ _. repeat split.
  - intros r l Hr Hl H J. cbn [forallb] in H, J. apply andb_true_iff in H as [H1 H2]. apply andb_true_iff in J as [J1 J2]. destruct (Hl H2 J2) as (L1 & L2 & L3). repeat split.
    + intros tl T. cbn [cseq]. destruct l as [|y ys]; [apply Hr; assumption|]. rewrite Hr, L1; try assumption; [reflexivity|].
      cbn [forallb plain_atom]. rewrite T, andb_true_r. exact H2.
    + cbn [ccyc]. rewrite L2, Hr; try assumption; [reflexivity|]. apply analysable_list, H2.
    + intros tl T. specialize (L3 tl T). cbn [cw] in *. rewrite Hr; assumption.
  - intros l IH H J tl T. exact (proj2 (proj2 (IH H J)) tl T).
  - intros l IH H J tl T. exact (proj1 (IH H J) tl T).
  - intros k a b l IH H J tl T. change (true && ccyc true G true same l && choice_ok true k l tl = true). rewrite (proj1 (proj2 (IH H J))). apply choice_total; assumption.
  - intros id l IH H J tl T. cbn [structure] in J. apply andb_true_iff in J as [J1 J2].
    change (true && known_id G id && cseq true G true same l (ANum id :: tl) = true). rewrite J1. apply (proj1 (IH H J2)). exact T.
  - intros id nm l IH H J tl T. cbn [structure] in J. apply andb_true_iff in J as [J1 J2].
    change (true && known_id G id && cseq true G true same l (ANum id :: tl) = true). rewrite J1. apply (proj1 (IH H J2)). exact T.
  - intros id _ J tl T. exact J.
  - intros nm _ J tl T. exact J.
  - intros n l IH H J tl T. exact (proj1 (IH H J) [AEndAhead] eq_refl).
Qed.
End Optimised.

(** * The calls *)
Theorem plain_compiles : forall opt same r a, plain r = true -> (opt = true -> analysable r = true) -> compiles opt same r (tail_of a) = true.
Proof.
  intros opt same r a P A. pose proof (plain_structure (find_captures r) same r P (fun g I => I)) as St. destruct opt.
  - unfold compiles. cbn [cws]. rewrite plain_checked; [destruct a; reflexivity|apply A; reflexivity|exact St|destruct a; reflexivity].
  - rewrite compiles_structure. exact St.
Qed.
Theorem plain_text : forall props u, (forall w, In w (lookbehind :: atomic_start :: reference :: hazards) -> ~ occurs w u) ->
  (exists r, compile props u = CRegex r /\ plain r = true) \/ compile props u = CReject.
Proof.
  intros props u H. destruct (no_hard_error props false true false false u H) as [(r & E & P & _)|E]; [left; exists r; auto|right; exact E].
Qed.

(** * Without switches, possessive repetitions and other complements *)
Lemma simple_analysable : forall r, simple r = true -> analysable r = true.
Proof.
  apply (re_ind2 (fun r => simple r = true -> analysable r = true) (fun l => forallb simple l = true -> forallb analysable l = true)); try reflexivity; try discriminate; try (intros; cbn [analysable] in *; auto; fail).
  - intros r l Hr Hl H. cbn [forallb] in *. apply andb_true_iff in H as [H1 H2]. rewrite Hr, Hl; auto.
  - intros c H. cbn [simple analysable] in *. destruct c; try exact H; try reflexivity; try discriminate H.
    cbn [once under node] in *. rewrite forallb_forall in *. intros x J. apply found_under, H, J.
  - intros k a b l IH H. cbn [analysable]. apply IH. destruct k; [exact H|exact H|discriminate H].
Qed.
Theorem simple_text : forall props u, (forall w, In w (switch :: possessive :: complement :: other_named :: lookbehind :: atomic_start :: reference :: hazards) -> ~ occurs w u) ->
  (exists r, compile props u = CRegex r /\ plain r = true /\ analysable r = true) \/ compile props u = CReject.
Proof.
  intros props u H. destruct (no_hard_error props false true true false u) as [(r & E & P & S & _)|E]; [|left; exists r|right; exact E].
  - intros w J. apply H. cbn [excluded app In] in *. intuition.
  - split; [exact E|]. split; [auto|]. apply simple_analysable. auto.
Qed.

(** * Without repetitions of groups *)
Theorem quick_text : forall props u r, (forall w, In w (group_repeat :: hazards) -> ~ occurs w u) -> ~ occurs lookbehind u \/ ~ occurs switch u -> (N.of_nat (List.length u) < 2 ^ 58)%N ->
  compile props u = CRegex r -> terminating r = true.
Proof.
  intros props u r H H' L E.
  assert (B : (N.of_nat (parse_fuel u) < size_mod)%N) by (unfold parse_fuel, size_mod; change (2 ^ 58)%N with 288230376151711744%N in L; lia).
  assert (G : exists free, safe free false false true u).
  { destruct H' as [H'|H']; [exists false|exists true]; intros w J; cbn [excluded app In] in J; (destruct J as [<-|J]; [exact H'|apply H; exact J]). }
  destruct G as [free G]. destruct (no_hard_error props free false false true u G) as [(r' & E' & _ & _ & T)|E']; rewrite E in E'; [injection E' as <-; auto|discriminate E'].
Qed.
