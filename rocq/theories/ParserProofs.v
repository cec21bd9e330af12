(** The LL(1) machine: the table is unambiguous and parsing ends after at most 8 steps per character. *)
From Coq Require Import List ZArith NArith Bool Arith Lia.
From Verif Require Import Chars Syntax Grammar Actions Parser.
Import ListNotations.

(** * The table is unambiguous *)
(** [viable cur e]: entry [e] of the table applies to the current character ([None]: end of input). *)
Definition viable (cur : option Z) (e : tmatch * rhs) : Prop :=
  match fst e, cur with
  | MTerm d, Some c => c = d
  | MSet s, Some c => In c s
  | MOthers, Some c => ~ In c not_others
  | MEps, None => True
  | _, _ => False
  end.
Definition clash (a b : tmatch) : bool :=
  match a, b with
  | MTerm c, MTerm d => Z.eqb c d
  | MTerm c, MSet s | MSet s, MTerm c => mem c s
  | MTerm c, MOthers | MOthers, MTerm c => negb (mem c not_others)
  | MSet s, MSet t => existsb (fun c => mem c t) s
  | MSet s, MOthers | MOthers, MSet s => existsb (fun c => negb (mem c not_others)) s
  | MOthers, MOthers | MEps, MEps => true
  | _, _ => false
  end.
Fixpoint apart (l : list (tmatch * rhs)) : bool :=
  match l with [] => true | e :: t => forallb (fun e' => negb (clash (fst e) (fst e'))) t && apart t end.

Lemma mem_in : forall c l, mem c l = true <-> In c l.
Proof.
  intros c l. unfold mem. rewrite existsb_exists. split.
  - intros (x & H & E). apply Z.eqb_eq in E. subst. assumption.
  - intros H. exists c. split; [assumption|apply Z.eqb_refl].
Qed.
Lemma clash_viable : forall cur e e', viable cur e -> viable cur e' -> clash (fst e) (fst e') = true.
Proof.
  intros cur [a r] [b r'] H H'. unfold viable in *. cbn [fst] in *.
  destruct a, b, cur as [ch|]; cbn [clash]; try contradiction; subst; try reflexivity.
  - apply Z.eqb_refl.
  - apply mem_in. assumption.
  - apply negb_true_iff. destruct (mem _ not_others) eqn:E; [|reflexivity]. apply mem_in in E. contradiction.
  - apply mem_in. assumption.
  - apply existsb_exists. exists ch. split; [assumption|apply mem_in; assumption].
  - apply existsb_exists. exists ch. split; [assumption|]. apply negb_true_iff.
    destruct (mem _ not_others) eqn:E; [|reflexivity]. apply mem_in in E. contradiction.
  - apply negb_true_iff. destruct (mem _ not_others) eqn:E; [|reflexivity]. apply mem_in in E. contradiction.
  - apply existsb_exists. exists ch. split; [assumption|]. apply negb_true_iff.
    destruct (mem _ not_others) eqn:E; [|reflexivity]. apply mem_in in E. contradiction.
Qed.
Lemma clash_sym : forall a b, clash a b = clash b a.
Proof.
  intros [c|s| |] [d|t| |]; cbn [clash]; try reflexivity; [apply Z.eqb_sym|].
  apply eq_iff_eq_true. rewrite !existsb_exists. split; intros (x & H1 & H2); exists x; (split; [apply mem_in; assumption|apply mem_in; assumption]).
Qed.
Lemma apart_unique : forall l cur e e', apart l = true -> In e l -> In e' l -> viable cur e -> viable cur e' -> e = e'.
Proof.
  induction l as [|x l IH]; intros cur e e' H I I' V V'; [contradiction|].
  cbn [apart] in H. apply andb_true_iff in H as [H1 H2]. rewrite forallb_forall in H1.
  destruct I as [->|I], I' as [->|I']; auto.
  - specialize (H1 e' I'). rewrite (clash_viable cur e e' V V') in H1. discriminate.
  - specialize (H1 e I). rewrite clash_sym in H1. rewrite (clash_viable cur e e' V V') in H1. discriminate.
  - eapply IH; eassumption.
Qed.
Lemma nt_all : forall n, In n all_nt.
Proof. destruct n; vm_compute; tauto. Qed.
Lemma by_nt : forall (P : nt -> bool), forallb P all_nt = true -> forall n, P n = true.
Proof. intros P H n. rewrite forallb_forall in H. apply H. apply nt_all. Qed.

(** At most one entry per nonterminal and character applies, whatever the order of the overloads. *)
Theorem ll1_consistent : forall n cur e e', In e (rules n) -> In e' (rules n) -> viable cur e -> viable cur e' -> e = e'.
Proof.
  intros n cur e e'. apply apart_unique. revert n. apply by_nt. vm_compute. reflexivity.
Qed.

Lemma find_term_in : forall c l r, find_term c l = Some r -> In (MTerm c, r) l.
Proof.
  induction l as [|[m r0] l IH]; intros r H; [discriminate|]. cbn [find_term] in H.
  destruct m; try (right; apply IH; assumption). destruct (Z.eqb_spec c c0).
  - injection H as ->. subst. left. reflexivity.
  - right. apply IH. assumption.
Qed.
Lemma find_set_in : forall c l r, find_set c l = Some r -> exists m, In (m, r) l /\ viable (Some c) (m, r).
Proof.
  induction l as [|[m r0] l IH]; intros r H; [discriminate|]. cbn [find_set] in H.
  assert (K : find_set c l = Some r -> exists m', In (m', r) ((m, r0) :: l) /\ viable (Some c) (m', r)).
  { intros H0. destruct (IH r H0) as (m' & I & V). exists m'. split; [right; assumption|assumption]. }
  destruct m; auto.
  - destruct (mem c l0) eqn:E; auto. injection H as ->. exists (MSet l0). split; [left; reflexivity|apply mem_in; assumption].
  - destruct (mem c not_others) eqn:E; auto. injection H as ->. exists MOthers. split; [left; reflexivity|].
    intros I. apply mem_in in I. congruence.
Qed.
Lemma find_eps_in : forall l r, find_eps l = Some r -> In (MEps, r) l.
Proof.
  induction l as [|[m r0] l IH]; intros r H; [discriminate|]. cbn [find_eps] in H.
  destruct m; try (right; apply IH; assumption). injection H as ->. left. reflexivity.
Qed.
(** [rule] picks an applicable entry. *)
Lemma rule_in : forall n cur l, rule n cur = Push l -> exists m, In (m, Push l) (rules n) /\ viable cur (m, Push l).
Proof.
  intros n cur l H. unfold rule in H. destruct cur as [c|].
  - destruct (find_term c (rules n)) as [r|] eqn:E.
    + subst r. apply find_term_in in E. exists (MTerm c). split; [assumption|reflexivity].
    + destruct (find_set c (rules n)) as [r|] eqn:E2; [|discriminate]. subst r. apply find_set_in in E2. assumption.
  - destruct (find_eps (rules n)) as [r|] eqn:E; [|discriminate]. subst r. apply find_eps_in in E. exists MEps. split; [assumption|exact I].
Qed.
Lemma find_term_none : forall c l, find_term c l = None -> forall r, ~ In (MTerm c, r) l.
Proof.
  induction l as [|[m r0] l IH]; intros H r I; [contradiction|]. cbn [find_term] in H. destruct I as [E|I].
  - injection E as -> ->. rewrite Z.eqb_refl in H. discriminate.
  - destruct m; try (apply (IH H r I)). destruct (Z.eqb c c0); [discriminate|apply (IH H r I)].
Qed.
Lemma find_set_none : forall c l, find_set c l = None -> forall m r, In (m, r) l -> (forall d, m <> MTerm d) -> ~ viable (Some c) (m, r).
Proof.
  induction l as [|[m0 r0] l IH]; intros H m r I Hm V; [contradiction|]. cbn [find_set] in H. destruct I as [E|I].
  - injection E as -> ->. unfold viable in V. cbn [fst] in V. destruct m; try contradiction.
    + exact (Hm _ eq_refl).
    + apply mem_in in V. rewrite V in H. discriminate.
    + destruct (mem c not_others) eqn:E; [apply mem_in in E; contradiction|discriminate].
  - destruct m0; try (apply (IH H m r I Hm V)).
    + destruct (mem c l0); [discriminate|apply (IH H m r I Hm V)].
    + destruct (mem c not_others); [apply (IH H m r I Hm V)|discriminate].
Qed.
Lemma find_eps_none : forall l, find_eps l = None -> forall r, ~ In (MEps, r) l.
Proof.
  induction l as [|[m r0] l IH]; intros H r I; [contradiction|]. cbn [find_eps] in H. destruct I as [E|I].
  - injection E as -> ->. discriminate.
  - destruct m; try (apply (IH H r I)). discriminate.
Qed.
(** The table lookup is the only applicable entry: the order in which overloads are declared is immaterial. *)
Theorem rule_spec : forall n cur l, rule n cur = Push l <-> exists m, In (m, Push l) (rules n) /\ viable cur (m, Push l).
Proof.
  intros n cur l. split; [apply rule_in|]. intros (m & I & V).
  assert (U : forall r, (exists m', In (m', r) (rules n) /\ viable cur (m', r)) -> r = Push l).
  { intros r (m' & I' & V'). pose proof (ll1_consistent n cur _ _ I' I V' V) as E. congruence. }
  unfold rule. destruct cur as [c|].
  - destruct (find_term c (rules n)) as [r|] eqn:E.
    + apply U. exists (MTerm c). split; [apply find_term_in; assumption|reflexivity].
    + destruct (find_set c (rules n)) as [r|] eqn:E2; [apply U; apply find_set_in; assumption|].
      exfalso. destruct m as [d| | |].
      * unfold viable in V. cbn in V. subst. exact (find_term_none _ _ E _ I).
      * revert V. apply (find_set_none _ _ E2 _ _ I). discriminate.
      * revert V. apply (find_set_none _ _ E2 _ _ I). discriminate.
      * contradiction.
  - destruct (find_eps (rules n)) as [r|] eqn:E.
    + apply U. exists MEps. split; [apply find_eps_in; assumption|exact Logic.I].
    + exfalso. destruct m; try contradiction. exact (find_eps_none _ E _ I).
Qed.

(** * Termination *)
Definition rank (n : nt) : nat :=
  match n with
  | N_o => 7 | N_n => 5 | N_a | N_k => 3
  | N_c | N_content_in_capture | N_content_or_empty | N_i | N_opt_content | N_s | N_set2a => 2
  | _ => 1
  end.
Definition weight (s : sym) : nat := match s with NT n => rank n | _ => 1 end.
Definition weights (l : list sym) : nat := list_sum (map weight l).
(** The next symbol that is no action is a terminal. *)
Fixpoint reads (l : list sym) : bool :=
  match l with Act _ :: t => reads t | (TTerm _ | TAny | TSet _) :: _ => true | _ => false end.

(** Steps left, at most. *)
Definition left (len : nat) (st : list sym) : nat := S (weights st + 8 * (if reads st then pred len else len)).

Lemma weights_app : forall a b, weights (a ++ b) = weights a + weights b.
Proof. intros. unfold weights. rewrite map_app, list_sum_app. reflexivity. Qed.
Lemma reads_app : forall a b, reads a = true -> reads (a ++ b) = true.
Proof. induction a as [|[]]; cbn; intros b H; auto; discriminate. Qed.

Definition rule_ranked (n : nt) (e : tmatch * rhs) : bool :=
  match e with
  | (m, Push l) =>
      if reads l then (weights l <? rank n + 8) && match m with MEps => false | _ => true end
      else weights l <? rank n
  | _ => true
  end.
Lemma all_ranked : forall n e, In e (rules n) -> rule_ranked n e = true.
Proof.
  intros n e. assert (H : forallb (rule_ranked n) (rules n) = true).
  { revert n. apply (by_nt (fun n => forallb (rule_ranked n) (rules n))). vm_compute. reflexivity. }
  rewrite forallb_forall in H. apply H.
Qed.

Section Total.
Variable props : list Z -> option (list Z) -> option (list (Z * Z)).
Lemma run_total : forall fuel prev input st c, left (length input) st <= fuel -> run props fuel prev input st c <> PFuel.
Proof.
  induction fuel as [|fuel IH]; intros prev input st c H; [unfold left in H; lia|].
  cbn [run]. destruct st as [|s st]; [destruct input; discriminate|].
  assert (T : forall t, weight t = 1 -> reads (t :: st) = true -> left (length input) (t :: st) <= S fuel ->
    match input with ch :: rest => if term_matches t ch then run props fuel (Some ch) rest st c else PReject | [] => PReject end <> PFuel).
  { intros t Wt Rt Ht. destruct input as [|ch rest]; [discriminate|]. destruct (term_matches t ch); [|discriminate].
    apply IH. unfold left in *. rewrite Rt in Ht. unfold weights in *. cbn [map list_sum fold_right length pred] in Ht.
    change (fold_right Nat.add 0 (map weight st)) with (list_sum (map weight st)) in Ht. rewrite Wt in Ht.
    destruct (reads st); lia. }
  destruct s as [n|a|d| |l]; try (apply T; try reflexivity; assumption).
  - destruct (rule n (hd_error input)) as [l|] eqn:E; [|discriminate]. apply IH.
    destruct (rule_in _ _ _ E) as (m & I & V). apply all_ranked in I. unfold rule_ranked in I.
    unfold left in *. rewrite weights_app. cbn [reads] in H. unfold weights at 1 in H. cbn [map list_sum fold_right weight] in H.
    change (fold_right Nat.add 0 (map weight st)) with (weights st) in H.
    destruct (reads l) eqn:R.
    + rewrite (reads_app _ st R). apply andb_true_iff in I as [I M]. apply Nat.ltb_lt in I.
      destruct input as [|ch rest]; [unfold viable in V; cbn in V; destruct m; try contradiction; discriminate|].
      cbn [length pred] in *. lia.
    + apply Nat.ltb_lt in I. destruct (reads (l ++ st)); destruct (length input); cbn [pred]; lia.
  - destruct (apply props a prev c) as [c'| |]; try discriminate. apply IH.
    unfold left in *. cbn [reads] in H. unfold weights in *. cbn [map list_sum fold_right weight] in H.
    change (fold_right Nat.add 0 (map weight st)) with (list_sum (map weight st)) in H. lia.
Qed.

(** More fuel changes nothing. *)
Lemma run_mono : forall n m prev input st c x, n <= m -> run props n prev input st c = x -> x <> PFuel ->
  run props m prev input st c = x.
Proof.
  induction n as [|n IH]; intros m prev input st c x L H N; [cbn in H; congruence|].
  destruct m as [|m]; [lia|]. cbn [run] in *. destruct st as [|s st]; [assumption|].
  destruct s as [y|a|d| |l].
  - destruct (rule y (hd_error input)); [|assumption]. apply IH; auto. lia.
  - destruct (apply props a prev c); try assumption. apply IH; auto. lia.
  - destruct input as [|ch rest]; [assumption|]. destruct (term_matches _ ch); [|assumption]. apply IH; auto. lia.
  - destruct input as [|ch rest]; [assumption|]. destruct (term_matches _ ch); [|assumption]. apply IH; auto. lia.
  - destruct input as [|ch rest]; [assumption|]. destruct (term_matches _ ch); [|assumption]. apply IH; auto. lia.
Qed.

(** Parsing decides within 8 steps per character, and 3 more. *)
Theorem parse_total : forall input fuel, 8 * length input + 3 <= fuel ->
  exists x, x <> PFuel /\ run props fuel None input [NT N_s] (mkCtx [] 0) = x /\ parse_ctx props input = x.
Proof.
  intros input fuel H.
  assert (K : forall k, 8 * length input + 3 <= k -> run props k None input [NT N_s] (mkCtx [] 0) <> PFuel).
  { intros k Hk. apply run_total. unfold left. cbn. lia. }
  exists (run props (8 * length input + 3) None input [NT N_s] (mkCtx [] 0)). split; [apply K; lia|]. split.
  - apply (run_mono (8 * length input + 3)); auto.
  - unfold parse_ctx, parse_fuel. apply (run_mono (8 * length input + 3)); auto. lia.
Qed.
Theorem compile_total : forall input, compile props input <> CFuel.
Proof.
  intros input. unfold compile. destruct (parse_total input (parse_fuel input) ltac:(unfold parse_fuel; lia)) as (x & Hx & _ & ->).
  destruct x as [c| | |]; try congruence. destruct (stk c) as [|[]]; discriminate.
Qed.
End Total.
