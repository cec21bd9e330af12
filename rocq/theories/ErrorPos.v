(** Where a rejected pattern text is reported to be wrong. Source: /repo/include/ctll/parser.hpp lines 42-68
    (results::position), 104-181 (move, decide, trampoline_decide), /repo/include/ctre/wrapper.hpp lines 279-305
    (problem_at_position, regex_builder). *)
From Coq Require Import List ZArith NArith Bool Lia Arith.
From Verif Require Import Chars Syntax Grammar Actions Parser ParserProofs.
Import ListNotations.
Local Open Scope Z_scope.

(** [results<Pos, Stack, Subject, Decision>] at the end of the fold: a rejection with its [Pos]; [by_action]
    tells the rejection by a semantic action (parser.hpp lines 157-159) from the one by the grammar. *)
Inductive placed :=
| LAccept (c : ctx)
| LReject (pos : nat) (by_action : bool)
| LIll
| LFuel.

Section Run.
Variable props : list Z -> option (list Z) -> option (list (Z * Z)).

(** [run] (Parser.v) with the position. *)
Fixpoint run_at (fuel pos : nat) (prev : option Z) (input : list Z) (stack : list sym) (c : ctx) : placed :=
  match fuel with
  | O => LFuel
  | S n =>
      match stack with
      | [] => match input with [] => LAccept c | _ => LReject pos false end
      | Act a :: st =>
          match apply props a prev c with
          | Done c' => run_at n pos prev input st c'
          | Reject => LReject pos true
          | IllAct => LIll
          end
      | NT x :: st =>
          match rule x (hd_error input) with
          | Push l => run_at n pos prev input (l ++ st) c
          | Rej => LReject pos false
          end
      | t :: st =>
          match input with
          | ch :: rest => if term_matches t ch then run_at n (S pos) (Some ch) rest st c else LReject pos false
          | [] => LReject pos false
          end
      end
  end.
Definition placed_parse (u : list Z) : placed := run_at (parse_fuel u) 0 None u [NT N_s] (mkCtx [] 0).
(** wrapper.hpp line 300: the position shown in the error message. *)
Definition error_position (u : list Z) : option nat :=
  match placed_parse u with LReject p _ => Some p | _ => None end.

Definition erase (x : placed) : parsed :=
  match x with LAccept c => PAccept c | LReject _ _ => PReject | LIll => PIll | LFuel => PFuel end.
Lemma run_at_run : forall n pos prev input st c, erase (run_at n pos prev input st c) = run props n prev input st c.
Proof.
  induction n as [|n IH]; intros pos prev input st c; [reflexivity|]. cbn [run_at run].
  destruct st as [|[x|a|d| |l] st]; [destruct input; reflexivity|..].
  - destruct (rule x _); [apply IH|reflexivity].
  - destruct (apply props a prev c); [apply IH|reflexivity|reflexivity].
  - destruct input as [|ch rest]; [reflexivity|]. destruct (term_matches _ ch); [apply IH|reflexivity].
  - destruct input as [|ch rest]; [reflexivity|]. destruct (term_matches _ ch); [apply IH|reflexivity].
  - destruct input as [|ch rest]; [reflexivity|]. destruct (term_matches _ ch); [apply IH|reflexivity].
Qed.
Theorem rejected_placed : forall u, compile props u = CReject <-> exists p, error_position u = Some p.
Proof.
  intros u. unfold compile, parse_ctx, error_position, placed_parse. rewrite <- (run_at_run _ 0%nat).
  destruct (run_at _ _ _ _ _ _); cbn [erase]; split; intros H; try (destruct H as (p & H)); try discriminate; eauto.
  destruct (stk c) as [|[]]; discriminate.
Qed.

Lemma run_at_mono : forall n m pos prev input st c x, (n <= m)%nat -> run_at n pos prev input st c = x -> x <> LFuel ->
  run_at m pos prev input st c = x.
Proof.
  induction n as [|n IH]; intros m pos prev input st c x L H N; [cbn in H; congruence|].
  destruct m as [|m]; [lia|]. cbn [run_at] in *. destruct st as [|[y|a|d| |l] st]; [assumption|..].
  - destruct (rule y (hd_error input)); [|assumption]. apply IH; auto. lia.
  - destruct (apply props a prev c); try assumption. apply IH; auto. lia.
  - destruct input as [|ch rest]; [assumption|]. destruct (term_matches _ ch); [|assumption]. apply IH; auto. lia.
  - destruct input as [|ch rest]; [assumption|]. destruct (term_matches _ ch); [|assumption]. apply IH; auto. lia.
  - destruct input as [|ch rest]; [assumption|]. destruct (term_matches _ ch); [|assumption]. apply IH; auto. lia.
Qed.
Lemma run_at_fuel : forall u n x, run_at n 0 None u [NT N_s] (mkCtx [] 0) = x -> x <> LFuel -> placed_parse u = x.
Proof.
  intros u n x H N. unfold placed_parse.
  assert (T : run_at (parse_fuel u) 0 None u [NT N_s] (mkCtx [] 0) <> LFuel).
  { intros E. pose proof (run_at_run (parse_fuel u) 0%nat None u [NT N_s] (mkCtx [] 0)) as R. rewrite E in R. symmetry in R. revert R.
    apply run_total. unfold left, parse_fuel. cbn [weights map weight rank list_sum fold_right reads]. lia. }
  destruct (Nat.le_ge_cases n (parse_fuel u)) as [L|L].
  - exact (run_at_mono _ _ _ _ _ _ _ _ L H N).
  - pose proof (run_at_mono _ _ _ _ _ _ _ _ L eq_refl T) as E. congruence.
Qed.

(** * The position depends on what has been read, and the next character *)
Lemma run_at_bound : forall n pos prev input st c p k, run_at n pos prev input st c = LReject p k ->
  (pos <= p)%nat /\ (p <= pos + length input)%nat.
Proof.
  induction n as [|n IH]; intros pos prev input st c p k H; [discriminate|]. cbn [run_at] in H.
  destruct st as [|[x|a|d| |l] st].
  - destruct input; [discriminate|]. injection H as <- _. lia.
  - destruct (rule x _); [exact (IH _ _ _ _ _ _ _ H)|]. injection H as <- _. lia.
  - destruct (apply props a prev c); [exact (IH _ _ _ _ _ _ _ H)| |discriminate]. injection H as <- _. lia.
  - destruct input as [|ch rest]; [injection H as <- _; lia|]. destruct (term_matches _ ch); [|injection H as <- _; lia].
    apply IH in H. cbn [length]. lia.
  - destruct input as [|ch rest]; [injection H as <- _; lia|]. destruct (term_matches _ ch); [|injection H as <- _; lia].
    apply IH in H. cbn [length]. lia.
  - destruct input as [|ch rest]; [injection H as <- _; lia|]. destruct (term_matches _ ch); [|injection H as <- _; lia].
    apply IH in H. cbn [length]. lia.
Qed.
Lemma first_same : forall A (v u : list A) n, firstn (S n) v = firstn (S n) u -> hd_error v = hd_error u.
Proof. intros A [|x v] [|y u] n H; try reflexivity; try discriminate. cbn in *. congruence. Qed.
Lemma run_at_stable : forall n pos prev input st c p k, run_at n pos prev input st c = LReject p k ->
  forall input', firstn (S p - pos) input' = firstn (S p - pos) input -> run_at n pos prev input' st c = LReject p k.
Proof.
  induction n as [|n IH]; intros pos prev input st c p k H; [discriminate|]. intros input' E.
  destruct (run_at_bound _ _ _ _ _ _ _ _ H) as [B1 B2].
  assert (F : firstn (S (p - pos)) input' = firstn (S (p - pos)) input) by (rewrite <- Nat.sub_succ_l by exact B1; exact E).
  assert (D : hd_error input' = hd_error input) by exact (first_same _ _ _ _ F).
  cbn [run_at] in *. destruct st as [|[x|a|d| |l] st].
  - destruct input, input'; try discriminate. exact H.
  - rewrite D. destruct (rule x _); [exact (IH _ _ _ _ _ _ _ H _ E)|exact H].
  - destruct (apply props a prev c); [exact (IH _ _ _ _ _ _ _ H _ E)|exact H|exact H].
  - destruct input as [|ch rest], input' as [|ch' rest']; try discriminate; [exact H|]. injection D as ->.
    destruct (term_matches _ ch); [|exact H]. apply (IH _ _ _ _ _ _ _ H). destruct (run_at_bound _ _ _ _ _ _ _ _ H) as [B3 _].
    cbn [firstn] in F. injection F as F. replace (S p - S pos)%nat with (p - pos)%nat by lia. exact F.
  - destruct input as [|ch rest], input' as [|ch' rest']; try discriminate; [exact H|]. injection D as ->.
    destruct (term_matches _ ch); [|exact H]. apply (IH _ _ _ _ _ _ _ H). destruct (run_at_bound _ _ _ _ _ _ _ _ H) as [B3 _].
    cbn [firstn] in F. injection F as F. replace (S p - S pos)%nat with (p - pos)%nat by lia. exact F.
  - destruct input as [|ch rest], input' as [|ch' rest']; try discriminate; [exact H|]. injection D as ->.
    destruct (term_matches _ ch); [|exact H]. apply (IH _ _ _ _ _ _ _ H). destruct (run_at_bound _ _ _ _ _ _ _ _ H) as [B3 _].
    cbn [firstn] in F. injection F as F. replace (S p - S pos)%nat with (p - pos)%nat by lia. exact F.
Qed.
Theorem position_stable : forall u p k, placed_parse u = LReject p k ->
  forall v, firstn (S p) v = firstn (S p) u -> placed_parse v = LReject p k.
Proof.
  intros u p k H v E. apply (run_at_fuel v (parse_fuel u)); [|discriminate]. apply (run_at_stable _ _ _ _ _ _ _ _ H). rewrite Nat.sub_0_r. exact E.
Qed.
Theorem position_bound : forall u p, error_position u = Some p -> (p <= length u)%nat.
Proof.
  intros u p H. unfold error_position in H. destruct (placed_parse u) eqn:E; try discriminate. injection H as <-.
  destruct (run_at_bound _ _ _ _ _ _ _ _ E). lia.
Qed.
End Run.

(** * The texts of the grammar, whatever the actions say *)
Inductive shaped : list sym -> list Z -> Prop :=
| sh_end : shaped [] []
| sh_act : forall a st w, shaped st w -> shaped (Act a :: st) w
| sh_nt : forall x l st w, rule x (hd_error w) = Push l -> shaped (l ++ st) w -> shaped (NT x :: st) w
| sh_term : forall d st c w, term_matches (TTerm d) c = true -> shaped st w -> shaped (TTerm d :: st) (c :: w)
| sh_any : forall st c w, shaped st w -> shaped (TAny :: st) (c :: w)
| sh_set : forall l st c w, term_matches (TSet l) c = true -> shaped st w -> shaped (TSet l :: st) (c :: w).
Definition well_shaped (u : list Z) : Prop := shaped [NT N_s] u.

(** How to end what a nonterminal stands for, in front of a character (or the end). *)
Definition endings (x : nt) : list (option Z * list Z) :=
  match x with
  | N_a => [(None, []); (Some 41, [])]
  | N_b => [(None, [125]); (Some 41, [125])]
  | N_backslash => [(None, [97]); (Some 41, [97])]
  | N_backslash_range => [(Some 93, [97])]
  | N_block => [(None, [41]); (Some 41, [41])]
  | N_block_name => [(Some 62, [97])]
  | N_block_name2 => [(Some 62, []); (Some 125, [])]
  | N_c => [(None, [97; 93]); (Some 41, [97; 93])]
  | N_class_named_name => [(Some 58, [119; 111; 114; 100])]
  | N_content2 => [(None, []); (Some 41, [])]
  | N_content_in_capture => [(Some 41, [])]
  | N_content_or_empty => [(Some 41, [])]
  | N_d => [(None, [33; 41]); (Some 41, [33; 41])]
  | N_e => [(Some 93, [97])]
  | N_f => [(Some 93, [97])]
  | N_g => [(Some 58, [108; 110; 117; 109])]
  | N_h => [(Some 58, [114; 105; 110; 116])]
  | N_hexdec_repeat => [(Some 125, [])]
  | N_i => [(Some 93, [119; 111; 114; 100; 58; 93])]
  | N_j => [(Some 93, [97])]
  | N_k => [(None, [123; 97; 125]); (Some 41, [123; 97; 125]); (Some 93, [123; 97; 125])]
  | N_l => [(None, [97; 97]); (Some 41, [97; 97]); (Some 93, [97; 97])]
  | N_m => [(None, [97; 125]); (Some 41, [97; 125])]
  | N_mod => [(None, []); (Some 41, [])]
  | N_mode_switch2 => [(None, [41]); (Some 41, [41])]
  | N_n => [(None, [125]); (Some 41, [125])]
  | N_number => [(Some 125, [48])]
  | N_number2 => [(Some 125, [])]
  | N_o => [(None, [33; 41]); (Some 41, [33; 41])]
  | N_opt_content => [(None, [])]
  | N_p => [(Some 58, [110; 117; 109])]
  | N_property_name => [(Some 125, [97])]
  | N_property_name2 => [(Some 125, [])]
  | N_property_value => [(Some 125, [97])]
  | N_property_value2 => [(Some 125, [])]
  | N_range => [(Some 93, [])]
  | N_repeat => [(None, []); (Some 41, [])]
  | N_s => [(None, [])]
  | N_set2a => [(Some 93, [])]
  | N_set2b => [(Some 93, [])]
  | N_string2 => [(None, []); (Some 41, [])]
  end.
Definition same_look (a b : option Z) : bool :=
  match a, b with None, None => true | Some x, Some y => x =? y | _, _ => false end.
Definition ending (x : nt) (a : option Z) : option (list Z) := option_map snd (find (fun e => same_look (fst e) a) (endings x)).
Definition look (w : list Z) (la : option Z) : option Z := match w with c :: _ => Some c | [] => la end.
Fixpoint finish (st : list sym) (la : option Z) : option (list Z) :=
  match st with
  | [] => Some []
  | s :: st =>
      match finish st la with
      | None => None
      | Some w =>
          match s with
          | Act _ => Some w
          | NT x => option_map (fun v => v ++ w) (ending x (look w la))
          | TTerm d => Some (d :: w)
          | TAny => Some (97 :: w)
          | TSet (c :: _) => Some (c :: w)
          | TSet [] => None
          end
      end
  end.
(** [v] is read from the stack [st] and nothing more, if [la] comes next. *)
Fixpoint takes (fuel : nat) (st : list sym) (v : list Z) (la : option Z) : bool :=
  match fuel with
  | O => false
  | S n =>
      match st with
      | [] => match v with [] => true | _ => false end
      | Act _ :: st => takes n st v la
      | NT x :: st => match rule x (look v la) with Push l => takes n (l ++ st) v la | Rej => false end
      | t :: st => match v with c :: v => term_matches t c && takes n st v la | [] => false end
      end
  end.
Lemma takes_shaped : forall n st v la k w, takes n st v la = true -> hd_error w = la -> shaped k w -> shaped (st ++ k) (v ++ w).
Proof.
  induction n as [|n IH]; intros st v la k w H E K; [discriminate|]. cbn [takes] in H.
  destruct st as [|[x|a|d| |l] st]; cbn [app].
  - destruct v; [exact K|discriminate].
  - destruct (rule x (look v la)) as [l|] eqn:R; [|discriminate]. apply sh_nt with l.
    + rewrite <- R. f_equal. destruct v; [exact E|reflexivity].
    + rewrite app_assoc. exact (IH _ _ _ _ _ H E K).
  - apply sh_act. exact (IH _ _ _ _ _ H E K).
  - destruct v as [|c v]; [discriminate|]. apply andb_true_iff in H as [H1 H2]. apply sh_term; [exact H1|]. exact (IH _ _ _ _ _ H2 E K).
  - destruct v as [|c v]; [discriminate|]. apply andb_true_iff in H as [H1 H2]. apply sh_any. exact (IH _ _ _ _ _ H2 E K).
  - destruct v as [|c v]; [discriminate|]. apply andb_true_iff in H as [H1 H2]. apply sh_set; [exact H1|]. exact (IH _ _ _ _ _ H2 E K).
Qed.
Lemma endings_take : forall x e, In e (endings x) -> takes 60 [NT x] (snd e) (fst e) = true.
Proof.
  intros x e. assert (H : forallb (fun e => takes 60 [NT x] (snd e) (fst e)) (endings x) = true).
  { revert x. apply (by_nt (fun x => forallb (fun e => takes 60 [NT x] (snd e) (fst e)) (endings x))). vm_compute. reflexivity. }
  rewrite forallb_forall in H. apply H.
Qed.
Lemma same_look_eq : forall a b, same_look a b = true -> a = b.
Proof. intros [x|] [y|] H; try discriminate; [|reflexivity]. apply Z.eqb_eq in H. congruence. Qed.
Lemma ending_in : forall x a v, ending x a = Some v -> In (a, v) (endings x).
Proof.
  intros x a v H. unfold ending in H. destruct (find _ (endings x)) as [[b v']|] eqn:F; [|discriminate]. injection H as <-.
  apply find_some in F as [F1 F2]. apply same_look_eq in F2. cbn in *. subst. exact F1.
Qed.
Lemma finish_shaped : forall st w, finish st None = Some w -> shaped st w.
Proof.
  induction st as [|s st IH]; intros w H; cbn [finish] in H; [injection H as <-; constructor|].
  destruct (finish st None) as [w'|]; [|discriminate]. specialize (IH w' eq_refl).
  destruct s as [x|a|d| |[|c l]].
  - destruct (ending x (look w' None)) as [v|] eqn:E; [|discriminate]. injection H as <-. apply ending_in in E.
    change (NT x :: st) with ([NT x] ++ st). eapply takes_shaped; [exact (endings_take _ _ E)| |exact IH]. destruct w'; reflexivity.
  - injection H as <-. apply sh_act. exact IH.
  - injection H as <-. apply sh_term; [apply Z.eqb_refl|exact IH].
  - injection H as <-. apply sh_any. exact IH.
  - discriminate.
  - injection H as <-. apply sh_set; [cbn; rewrite Z.eqb_refl; reflexivity|exact IH].
Qed.
Lemma finish_app : forall l st la w, finish st la = Some w ->
  finish (l ++ st) la = option_map (fun v => v ++ w) (finish l (look w la)).
Proof.
  induction l as [|s l IH]; intros st la w H; cbn [app finish]; [rewrite H; reflexivity|]. rewrite (IH _ _ _ H).
  destruct (finish l (look w la)) as [v|]; [|reflexivity]. cbn [option_map].
  destruct s as [x|a|d| |[|c t]]; try reflexivity.
  replace (look (v ++ w) la) with (look v (look w la)) by (destruct v; reflexivity).
  destruct (ending x _) as [u|]; [|reflexivity]. cbn. rewrite app_assoc. reflexivity.
Qed.
(** Every rule keeps the ends that its nonterminal has. *)
Definition keeps (x : nt) : bool :=
  forallb (fun e => forallb (fun q => match snd q with Push l => match finish l (fst e) with Some _ => true | None => false end | Rej => true end)
    (rules x)) (endings x).
Lemma all_keep : forall x, keeps x = true.
Proof. apply by_nt. vm_compute. reflexivity. Qed.
Lemma finish_rule : forall x cur l st, rule x cur = Push l -> finish (NT x :: st) None <> None -> finish (l ++ st) None <> None.
Proof.
  intros x cur l st R H. cbn [finish] in H. destruct (finish st None) as [w|] eqn:F; [|contradiction].
  rewrite (finish_app _ _ _ _ F). destruct (ending x (look w None)) as [v|] eqn:E; [|contradiction]. apply ending_in in E.
  destruct (rule_in _ _ _ R) as (m & I & _). pose proof (all_keep x) as K. unfold keeps in K. rewrite forallb_forall in K.
  specialize (K _ E). rewrite forallb_forall in K. specialize (K _ I). cbn in K. destruct (finish l (look w None)); [discriminate|discriminate].
Qed.

Section Viable.
Variable props : list Z -> option (list Z) -> option (list (Z * Z)).

(** What has been read when a text is rejected can be completed. *)
Lemma run_at_viable : forall n pos prev input st c p k, run_at props n pos prev input st c = LReject p k -> finish st None <> None ->
  exists w, shaped st (firstn (p - pos) input ++ w).
Proof.
  induction n as [|n IH]; intros pos prev input st c p k H F; [discriminate|].
  destruct (run_at_bound _ _ _ _ _ _ _ _ _ H) as [B1 B2].
  destruct (Nat.eq_dec p pos) as [->|N].
  { rewrite Nat.sub_diag. cbn [firstn app]. destruct (finish st None) as [w|] eqn:E; [|contradiction]. exists w. apply finish_shaped. exact E. }
  cbn [run_at] in H. destruct st as [|[x|a|d| |l] st].
  - destruct input; [discriminate|]. injection H as <- _. lia.
  - destruct (rule x (hd_error input)) as [l|] eqn:R; [|injection H as <- _; lia].
    destruct (IH _ _ _ _ _ _ _ H (finish_rule _ _ _ _ R F)) as (w & W). exists w. apply sh_nt with l; [|exact W].
    destruct input as [|ch rest]; [cbn [length] in B2; lia|]. destruct (p - pos)%nat eqn:E; [lia|]. exact R.
  - destruct (apply props a prev c) as [c'| |]; [|injection H as <- _; lia|discriminate].
    cbn [finish] in F. destruct (IH _ _ _ _ _ _ _ H) as (w & W); [destruct (finish st None); [discriminate|contradiction]|].
    exists w. apply sh_act. exact W.
  - destruct input as [|ch rest]; [injection H as <- _; lia|]. destruct (term_matches _ ch) eqn:T; [|injection H as <- _; lia].
    cbn [finish] in F. destruct (run_at_bound _ _ _ _ _ _ _ _ _ H) as [B3 _].
    destruct (IH _ _ _ _ _ _ _ H) as (w & W); [destruct (finish st None); [discriminate|contradiction]|].
    exists w. replace (p - pos)%nat with (S (p - S pos)) by lia. cbn [firstn app]. apply sh_term; assumption.
  - destruct input as [|ch rest]; [injection H as <- _; lia|]. destruct (term_matches _ ch) eqn:T; [|injection H as <- _; lia].
    cbn [finish] in F. destruct (run_at_bound _ _ _ _ _ _ _ _ _ H) as [B3 _].
    destruct (IH _ _ _ _ _ _ _ H) as (w & W); [destruct (finish st None); [discriminate|contradiction]|].
    exists w. replace (p - pos)%nat with (S (p - S pos)) by lia. cbn [firstn app]. apply sh_any; assumption.
  - destruct input as [|ch rest]; [injection H as <- _; lia|]. destruct (term_matches _ ch) eqn:T; [|injection H as <- _; lia].
    cbn [finish] in F. destruct (run_at_bound _ _ _ _ _ _ _ _ _ H) as [B3 _].
    destruct (IH _ _ _ _ _ _ _ H) as (w & W); [destruct (finish st None); [discriminate|contradiction]|].
    exists w. replace (p - pos)%nat with (S (p - S pos)) by lia. cbn [firstn app]. apply sh_set; assumption.
Qed.
Theorem position_viable : forall u p, error_position props u = Some p -> exists w, well_shaped (firstn p u ++ w).
Proof.
  intros u p H. unfold error_position in H. destruct (placed_parse props u) eqn:E; try discriminate. injection H as <-.
  destruct (run_at_viable _ _ _ _ _ _ _ _ E ltac:(discriminate)) as (w & W). exists w. rewrite Nat.sub_0_r in W. exact W.
Qed.
(** With the next character it is not, if the grammar rejects. *)
Lemma run_at_stuck : forall n pos prev input st c p, run_at props n pos prev input st c = LReject p false ->
  ~ shaped st input.
Proof.
  induction n as [|n IH]; intros pos prev input st c p H S; [discriminate|]. cbn [run_at] in H.
  destruct st as [|[x|a|d| |l] st].
  - inversion S; subst. discriminate.
  - inversion S as [| |x' l' st' w' R X| | |]; subst. rewrite R in H. exact (IH _ _ _ _ _ _ H X).
  - inversion S as [|a' st' w' X| | | |]; subst. destruct (apply props a prev c) as [c'| |]; [exact (IH _ _ _ _ _ _ H X)|discriminate|discriminate].
  - inversion S as [| | |d' st' ch w' T X| |]; subst. rewrite T in H. exact (IH _ _ _ _ _ _ H X).
  - inversion S as [| | | |st' ch w' X|]; subst. cbn [term_matches] in H. exact (IH _ _ _ _ _ _ H X).
  - inversion S as [| | | | |l' st' ch w' T X]; subst. rewrite T in H. exact (IH _ _ _ _ _ _ H X).
Qed.
Theorem position_longest : forall u p, placed_parse props u = LReject p false ->
  forall v, firstn (S p) v = firstn (S p) u -> ~ well_shaped v.
Proof. intros u p H v E. exact (run_at_stuck _ _ _ _ _ _ _ (position_stable _ _ _ _ H v E)). Qed.
(** Accepted texts are of the grammar. *)
Lemma run_at_shaped : forall n pos prev input st c c', run_at props n pos prev input st c = LAccept c' -> shaped st input.
Proof.
  induction n as [|n IH]; intros pos prev input st c c' H; [discriminate|]. cbn [run_at] in H.
  destruct st as [|[x|a|d| |l] st].
  - destruct input; [constructor|discriminate].
  - destruct (rule x _) as [l|] eqn:R; [|discriminate]. exact (sh_nt _ _ _ _ R (IH _ _ _ _ _ _ H)).
  - destruct (apply props a prev c); try discriminate. exact (sh_act _ _ _ (IH _ _ _ _ _ _ H)).
  - destruct input as [|ch rest]; [discriminate|]. destruct (term_matches _ ch) eqn:T; [|discriminate]. exact (sh_term _ _ _ _ T (IH _ _ _ _ _ _ H)).
  - destruct input as [|ch rest]; [discriminate|]. destruct (term_matches _ ch) eqn:T; [|discriminate]. exact (sh_any _ _ _ (IH _ _ _ _ _ _ H)).
  - destruct input as [|ch rest]; [discriminate|]. destruct (term_matches _ ch) eqn:T; [|discriminate]. exact (sh_set _ _ _ _ T (IH _ _ _ _ _ _ H)).
Qed.
Theorem compiled_shaped : forall u r, compile props u = CRegex r -> well_shaped u.
Proof.
  intros u r H. unfold compile, parse_ctx in H. rewrite <- (run_at_run props _ 0%nat) in H.
  destruct (run_at props _ _ _ _ _ _) as [c| | |] eqn:E; try discriminate. exact (run_at_shaped _ _ _ _ _ _ _ E).
Qed.
(** A text of the grammar is rejected by an action only. *)
Theorem shaped_rejected : forall u p k, well_shaped u -> placed_parse props u = LReject p k -> k = true.
Proof. intros u p [|] S H; [reflexivity|]. destruct (run_at_stuck _ _ _ _ _ _ _ H S). Qed.
End Viable.
