(** The LL(1) machine of ctll for any grammar and any semantic actions.
    Source: /repo/include/ctll/grammars.hpp, parser.hpp, actions.hpp, list.hpp lines 26-48.

    The parser of patterns (Parser.v, Trampoline.v) is the instance for the grammar of pcre.hpp. *)
From Coq Require Import List ZArith NArith Bool Lia Arith.
Import ListNotations.

(** * Grammars *)
(** grammars.hpp lines 6-9, 48-88: [term<V>], [range<A,B>], [set<...>], [neg_set<...>], [anything]. *)
Inductive matcher := XTerm (c : Z) | XRange (a b : Z) | XSet (l : list Z) | XNeg (l : list Z) | XAny.
(** Which terminals the constructor of the matcher takes (lines 50-88); [term<A>] only itself (line 99). Characters are
    compared by value: a grammar with negative ones, or with the same one in two types, is not covered. *)
Definition fit (m : matcher) (c : Z) : bool :=
  match m with
  | XTerm d => Z.eqb d c
  | XRange a b => Z.leb a c && Z.leb c b
  | XSet l => existsb (Z.eqb c) l
  | XNeg l => negb (existsb (Z.eqb c) l)
  | XAny => true
  end.
(** What is on the stack: matchers, nonterminals (types of the grammar, here numbers), actions (lines 27-30). *)
Inductive symbol (A : Type) := SM (m : matcher) | SN (x : nat) | SA (a : A).
Arguments SM {A}. Arguments SN {A}. Arguments SA {A}.
(** The second parameter of a user's [rule]: a matcher, or [epsilon] for the end of the input. *)
Inductive lookahead := LM (m : matcher) | LEps.
(** The return type of a user's [rule]: [push<...>] ([epsilon] is the empty one), or [reject]. *)
Inductive body (A : Type) := BPush (l : list (symbol A)) | BReject.
Arguments BPush {A}. Arguments BReject {A}.
(** The overloads of [rule], by nonterminal; the nonterminal [_start] is number 0. *)
Definition grammar (A : Type) := list (list (lookahead * body A)).
Definition entries {A} (g : grammar A) (x : nat) : list (lookahead * body A) := nth x g [].

(** Overload resolution of [rule(nonterminal, current)] (parser.hpp line 165, grammars.hpp lines 91-108). A parameter
    [term<c>] needs no conversion and wins; the others need a user-defined conversion each, two of which are ambiguous;
    [rule(...)] comes last. *)
Inductive resolved (A : Type) := Chosen (b : body A) | Ambiguous.
Arguments Chosen {A}. Arguments Ambiguous {A}.
Definition pick {A} (l : list (lookahead * body A)) (none : resolved A) : resolved A :=
  match l with [] => none | [e] => Chosen (snd e) | _ => Ambiguous end.
Definition is_end {A} (e : lookahead * body A) : bool := match fst e with LEps => true | _ => false end.
Definition exact {A} (c : Z) (e : lookahead * body A) : bool := match fst e with LM (XTerm d) => Z.eqb d c | _ => false end.
Definition convertible {A} (c : Z) (e : lookahead * body A) : bool :=
  match fst e with LM (XTerm _) => false | LM m => fit m c | LEps => false end.
Definition resolve {A} (g : grammar A) (x : nat) (cur : option Z) : resolved A :=
  match cur with
  | None => pick (filter is_end (entries g x)) (Chosen BReject)
  | Some c => pick (filter (exact c) (entries g x)) (pick (filter (convertible c) (entries g x)) (Chosen BReject))
  end.

(** * The machine *)
(** What [Actions::apply] returns (parser.hpp lines 154-159): a subject, [ctll::reject], or no viable overload. *)
Inductive applied (T : Type) := Applied (s : T) | Refused | NoOverload.
Arguments Applied {T}. Arguments Refused {T}. Arguments NoOverload {T}.
(** parser.hpp lines 15-19 *)
Inductive decision := d_reject | d_accept | d_undecided.
(** actions.hpp lines 21-26: [ignore_unknown]. *)
Definition ignoring {A T} (act : A -> option Z -> T -> applied T) : A -> option Z -> T -> applied T :=
  fun a prev s => match act a prev s with NoOverload => Applied s | x => x end.

(** What [grammar::rule] returns, or that it is ambiguous (grammars.hpp lines 11-46, 91-108). *)
Inductive command (A : Type) := c_accept | c_reject | c_pop_input | c_epsilon | c_push (l : list (symbol A)) | c_ambiguous.
Arguments c_accept {A}. Arguments c_reject {A}. Arguments c_pop_input {A}. Arguments c_epsilon {A}. Arguments c_push {A}. Arguments c_ambiguous {A}.
Definition augmented {A} (g : grammar A) (top : option (symbol A)) (cur : option Z) : command A :=
  match top, cur with
  | None, None => c_accept
  | None, Some _ => c_reject
  | Some (SN x), _ =>
      match resolve g x cur with
      | Chosen (BPush []) => c_epsilon
      | Chosen (BPush l) => c_push l
      | Chosen BReject => c_reject
      | Ambiguous => c_ambiguous
      end
  | Some (SM m), Some c => if fit m c then c_pop_input else c_reject
  | Some _, _ => c_reject
  end.
(** parser.hpp lines 131-137: a pushed string that starts with the current character, without it. The overload for
    [push<anything, ...>] (lines 138-144) has a parameter [auto V] that no argument gives, so it is never chosen. *)
Definition quick {A} (l : list (symbol A)) (cur : option Z) : option (list (symbol A)) :=
  match l, cur with
  | SM (XTerm d) :: l', Some c => if Z.eqb d c then Some l' else None
  | _, _ => None
  end.

Section Machine.
Variables (A T : Type) (g : grammar A) (act : A -> option Z -> T -> applied T).

Section Code.
Variable input : list Z.
(** parser.hpp lines 45-75 *)
Record results := mkResults { r_pos : nat; r_stack : list (symbol A); r_subject : T; r_decision : decision }.
(** A result, no program, or the bound of the model on the symbols popped by one call. *)
Inductive outcome := Result (r : results) | HardError | Exhausted.
(** parser.hpp lines 77-90 and 91-106 *)
Definition current_term (pos : nat) : option Z := nth_error input pos.
Definition previous_term (pos : nat) : option Z := match pos with O => None | S p => nth_error input p end.
(** parser.hpp lines 107-168, [move] and [decide]. *)
Fixpoint decide (n : nat) (pos : nat) (stack : list (symbol A)) (s : T) : outcome :=
  match n with
  | O => Exhausted
  | S n =>
      match hd_error stack with
      | Some (SA a) =>
          match act a (previous_term pos) s with
          | Applied s' => decide n pos (tl stack) s'
          | Refused => Result (mkResults pos stack s d_reject)
          | NoOverload => HardError
          end
      | top =>
          match augmented g top (current_term pos) with
          | c_accept => Result (mkResults pos (tl stack) s d_accept)
          | c_reject => Result (mkResults pos (tl stack) s d_reject)
          | c_pop_input => Result (mkResults (S pos) (tl stack) s d_undecided)
          | c_epsilon => decide n pos (tl stack) s
          | c_push l =>
              match quick l (current_term pos) with
              | Some l' => Result (mkResults (S pos) (l' ++ tl stack) s d_undecided)
              | None => decide n pos (l ++ tl stack) s
              end
          | c_ambiguous => HardError
          end
      end
  end.
Variable bound : nat.
(** parser.hpp lines 66-74, [results + placeholder]. *)
Definition next (o : outcome) : outcome :=
  match o with
  | Result (mkResults pos stack s d_undecided) => decide bound pos stack s
  | _ => o
  end.
(** parser.hpp lines 170-181: [(x + ... + placeholder)] with as many placeholders as characters. *)
Fixpoint folded (k : nat) (o : outcome) : outcome := match k with O => o | S k => folded k (next o) end.
Definition parser (s : T) : outcome := folded (length input) (decide bound 0 [SN 0] s).
End Code.

(** * The same as one loop over the rest of the input *)
Inductive final := FAccept (s : T) | FReject | FIll | FFuel.
Fixpoint loop (fuel : nat) (prev : option Z) (rest : list Z) (stack : list (symbol A)) (s : T) : final :=
  match fuel with
  | O => FFuel
  | S n =>
      match stack with
      | [] => match rest with [] => FAccept s | _ => FReject end
      | SA a :: st =>
          match act a prev s with
          | Applied s' => loop n prev rest st s'
          | Refused => FReject
          | NoOverload => FIll
          end
      | SN x :: st =>
          match resolve g x (hd_error rest) with
          | Chosen (BPush l) => loop n prev rest (l ++ st) s
          | Chosen BReject => FReject
          | Ambiguous => FIll
          end
      | SM m :: st =>
          match rest with
          | ch :: rest => if fit m ch then loop n (Some ch) rest st s else FReject
          | [] => FReject
          end
      end
  end.
Definition shown (o : outcome) : final :=
  match o with
  | Result r => match r_decision r with d_accept => FAccept (r_subject r) | d_reject => FReject | d_undecided => FFuel end
  | HardError => FIll
  | Exhausted => FFuel
  end.

Lemma loop_more : forall n k prev rest st s, n <= k -> loop n prev rest st s <> FFuel -> loop k prev rest st s = loop n prev rest st s.
Proof.
  induction n as [|n IH]; intros k prev rest st s L H; [exfalso; apply H; reflexivity|]. destruct k as [|k]; [lia|]. cbn [loop] in *.
  destruct st as [|[m|x|a] st]; [reflexivity|..].
  - destruct rest as [|c rest]; [reflexivity|]. destruct (fit m c); [|reflexivity]. apply IH; [lia|exact H].
  - destruct (resolve g x (hd_error rest)) as [[l|]|]; try reflexivity. apply IH; [lia|exact H].
  - destruct (act a prev s); try reflexivity. apply IH; [lia|exact H].
Qed.
Lemma skipn_hd : forall (pos : nat) (l : list Z), hd_error (skipn pos l) = nth_error l pos.
Proof. induction pos as [|p IH]; intros [|x l]; try reflexivity. cbn. apply IH. Qed.
Lemma skipn_step : forall (pos : nat) (l : list Z) c t, skipn pos l = c :: t -> skipn (S pos) l = t.
Proof.
  induction pos as [|p IH]; intros [|x l] c t E; try discriminate.
  - cbn in *. congruence.
  - cbn [skipn] in E. change (skipn (S (S p)) (x :: l)) with (skipn (S p) l). eapply IH, E.
Qed.
Lemma skipn_len : forall (pos : nat) (l : list Z) c t, skipn pos l = c :: t -> length l = S (pos + length t).
Proof.
  intros pos l c t E. assert (L : length (skipn pos l) = S (length t)) by (rewrite E; reflexivity).
  rewrite skipn_length in L. lia.
Qed.
Lemma folded_decided : forall input b k o, shown o <> FFuel -> folded input b k o = o.
Proof.
  intros input b. induction k as [|k IH]; intros o H; [reflexivity|]. cbn [folded].
  assert (E : next input b o = o) by (destruct o as [[p st s []]| |]; cbn in *; congruence). rewrite E. apply IH. exact H.
Qed.
(** The fold does what the loop does, if the loop ends within the bound. *)
Lemma folded_loop : forall input b n m pos st s k, n <= m -> n <= b -> length input <= pos + k ->
  loop n (previous_term input pos) (skipn pos input) st s <> FFuel ->
  shown (folded input b k (decide input m pos st s)) = loop n (previous_term input pos) (skipn pos input) st s.
Proof.
  intros input b. induction n as [|n IH]; intros m pos st s k L B K F; [exfalso; apply F; reflexivity|].
  destruct m as [|m]; [lia|].
  (* A consumed character. *)
  assert (C : forall st' ch rest, skipn pos input = ch :: rest -> loop n (Some ch) rest st' s <> FFuel ->
    shown (folded input b k (Result (mkResults (S pos) st' s d_undecided))) = loop n (Some ch) rest st' s).
  { intros st' ch rest E F'. pose proof (skipn_len _ _ _ _ E) as Len. destruct k as [|k]; [lia|]. cbn [folded next].
    assert (P : previous_term input (S pos) = Some ch) by (cbn [previous_term]; rewrite <- skipn_hd, E; reflexivity).
    pose proof (skipn_step _ _ _ _ E) as St. rewrite <- St, <- P in *. apply IH; lia || assumption. }
  cbn [decide loop] in *. unfold current_term in *. rewrite <- skipn_hd in *.
  destruct st as [|[y|x|a] st]; cbn [hd_error tl augmented] in *.
  - destruct (skipn pos input) as [|ch rest]; rewrite folded_decided by discriminate; reflexivity.
  - destruct (skipn pos input) as [|ch rest] eqn:E; cbn [hd_error] in *; [rewrite folded_decided by discriminate; reflexivity|].
    destruct (fit y ch); [apply C; auto|rewrite folded_decided by discriminate; reflexivity].
  - destruct (resolve g x (hd_error (skipn pos input))) as [[l|]|] eqn:Ru; [|rewrite folded_decided by discriminate; reflexivity..].
    destruct l as [|y l]; [apply IH; lia || assumption|].
    destruct (quick (y :: l) (hd_error (skipn pos input))) as [l'|] eqn:Q; [|apply IH; lia || assumption].
    destruct (skipn pos input) as [|ch rest] eqn:E; [destruct y as [[]| |]; discriminate|]. cbn [hd_error] in *.
    destruct y as [[d| | | |]| |]; try discriminate. cbn [quick] in Q. destruct (d =? ch)%Z eqn:D; [|discriminate]. injection Q as <-.
    (* the loop pops the terminal in a step of its own *)
    destruct n as [|n]; [exfalso; apply F; reflexivity|]. cbn [loop List.app fit] in F |- *. rewrite D in F |- *.
    rewrite (C (l ++ st) ch rest eq_refl).
    + apply loop_more; [lia|exact F].
    + rewrite (loop_more n (S n)); [exact F|lia|exact F].
  - destruct (act a (previous_term input pos) s) as [s'| |]; [apply IH; lia || assumption|rewrite folded_decided by discriminate; reflexivity..].
Qed.
Theorem parser_loop : forall input b n s, n <= b -> loop n None input [SN 0] s <> FFuel ->
  shown (parser input b s) = loop n None input [SN 0] s.
Proof. intros input b n s L H. apply (folded_loop input b n b 0 [SN 0] s (length input)); [lia|lia|lia|exact H]. Qed.
(** And the loop does what the fold did, if the fold came to a decision. *)
Lemma decide_loop : forall input m pos st s,
  match decide input m pos st s with
  | Result (mkResults pos' st' s' d_undecided) =>
      exists i, forall n, loop (i + n) (previous_term input pos) (skipn pos input) st s = loop n (previous_term input pos') (skipn pos' input) st' s'
  | o => shown o <> FFuel -> exists n, loop n (previous_term input pos) (skipn pos input) st s = shown o
  end.
Proof.
  intros input. induction m as [|m IH]; intros pos st s; [intros H; exfalso; apply H; reflexivity|]. cbn [decide]. unfold current_term. rewrite <- skipn_hd.
  (* one step before what is known *)
  assert (Go : forall pos1 st1 s1, (forall n, loop (S n) (previous_term input pos) (skipn pos input) st s = loop n (previous_term input pos1) (skipn pos1 input) st1 s1) ->
    match decide input m pos1 st1 s1 with
    | Result (mkResults pos' st' s' d_undecided) =>
        exists i, forall n, loop (i + n) (previous_term input pos) (skipn pos input) st s = loop n (previous_term input pos') (skipn pos' input) st' s'
    | o => shown o <> FFuel -> exists n, loop n (previous_term input pos) (skipn pos input) st s = shown o
    end).
  { intros pos1 st1 s1 H. specialize (IH pos1 st1 s1). destruct (decide input m pos1 st1 s1) as [[p' st' s' d]| |].
    - destruct d; cbv zeta in *; [| |destruct IH as [i IH]; exists (S i); intros n; cbn [plus]; rewrite H; apply IH];
        (intros F; destruct (IH F) as [n E]; exists (S n); rewrite H; exact E).
    - cbv zeta in *. intros F. destruct (IH F) as [n E]. exists (S n). rewrite H. exact E.
    - cbv zeta in *. intros F. destruct (IH F) as [n E]. exists (S n). rewrite H. exact E. }
  assert (P : forall ch rest, skipn pos input = ch :: rest -> previous_term input (S pos) = Some ch /\ skipn (S pos) input = rest).
  { intros ch rest E. split; [cbn [previous_term]; rewrite <- skipn_hd, E; reflexivity|exact (skipn_step _ _ _ _ E)]. }
  destruct st as [|[y|x|a] st]; cbn [hd_error tl augmented]; cbv zeta.
  - destruct (skipn pos input) as [|ch rest] eqn:E; cbn [hd_error]; cbv zeta; intros _; exists 1; reflexivity.
  - destruct (skipn pos input) as [|ch rest] eqn:E; cbn [hd_error]; [cbv zeta; intros _; exists 1; reflexivity|].
    destruct (fit y ch) eqn:F; [|cbv zeta; intros _; exists 1; cbn [loop]; rewrite F; reflexivity].
    destruct (P _ _ eq_refl) as [-> ->]. exists 1. intros n. cbn [plus loop]. rewrite F. reflexivity.
  - destruct (resolve g x (hd_error (skipn pos input))) as [[l|]|] eqn:Ru; [|cbv zeta; intros _; exists 1; cbn [loop]; rewrite Ru; reflexivity..].
    destruct l as [|y l]; [apply Go; intros n; cbn [loop]; rewrite Ru; reflexivity|].
    destruct (quick (y :: l) (hd_error (skipn pos input))) as [l'|] eqn:Q; [|apply Go; intros n; cbn [loop]; rewrite Ru; reflexivity].
    destruct (skipn pos input) as [|ch rest] eqn:E; [destruct y as [[]| |]; discriminate|]. cbn [hd_error] in *.
    destruct y as [[d| | | |]| |]; try discriminate. cbn [quick] in Q. destruct (d =? ch)%Z eqn:D; [|discriminate]. injection Q as <-.
    destruct (P _ _ eq_refl) as [-> ->]. exists 2. intros n. cbn [plus loop hd_error]. rewrite Ru. cbn [loop List.app fit]. rewrite D. reflexivity.
  - destruct (act a (previous_term input pos) s) as [s'| |] eqn:E; [|cbv zeta; intros _; exists 1; cbn [loop]; rewrite E; reflexivity..].
    apply Go. intros n. cbn [loop]. rewrite E. reflexivity.
Qed.
Lemma folded_back : forall input b k m pos st s, shown (folded input b k (decide input m pos st s)) <> FFuel ->
  exists n, loop n (previous_term input pos) (skipn pos input) st s = shown (folded input b k (decide input m pos st s)).
Proof.
  intros input b. induction k as [|k IH]; intros m pos st s F; pose proof (decide_loop input m pos st s) as H; cbv zeta in H.
  - cbn [folded] in *. destruct (decide input m pos st s) as [[p' st' s' []]| |]; try (exact (H F)). exfalso. apply F. reflexivity.
  - destruct (decide input m pos st s) as [[p' st' s' []]| |] eqn:D;
      try (rewrite folded_decided in * by discriminate; exact (H F)).
    + cbn [folded next] in *. destruct (IH b p' st' s' F) as [n E]. destruct H as [i H]. exists (i + n). rewrite H. exact E.
    + exfalso. apply F. clear. induction k as [|k IH]; [reflexivity|exact IH].
Qed.
Theorem loop_parser : forall input b s, shown (parser input b s) <> FFuel -> exists n, loop n None input [SN 0] s = shown (parser input b s).
Proof. intros input b s H. exact (folded_back input b (length input) b 0 [SN 0] s H). Qed.
(** The bound of the model has no part in a decision. *)
Theorem parser_agree : forall input b b' s, shown (parser input b s) <> FFuel -> shown (parser input b' s) <> FFuel ->
  shown (parser input b s) = shown (parser input b' s).
Proof.
  intros input b b' s H H'. destruct (loop_parser input b s H) as [n E]. destruct (loop_parser input b' s H') as [n' E'].
  rewrite <- E in H |- *. rewrite <- E' in H' |- *. rewrite <- (loop_more n (n + n')), <- (loop_more n' (n + n')); auto; lia.
Qed.
End Machine.
Arguments FAccept {T}. Arguments FReject {T}. Arguments FIll {T}. Arguments FFuel {T}.
Arguments loop {A T}. Arguments parser {A T}. Arguments shown {A T}. Arguments decide {A T}. Arguments folded {A T}.
Arguments Result {A T}. Arguments HardError {A T}. Arguments Exhausted {A T}. Arguments mkResults {A T}.
Arguments r_pos {A T}. Arguments r_stack {A T}. Arguments r_subject {A T}. Arguments r_decision {A T}.

(** * Specification: the context-free grammar *)
(** The production of an overload: what it pushes; an [anything] before any other matcher is the character that was
    looked at. *)
Fixpoint lead {A} (m : matcher) (p : list (symbol A)) : list (symbol A) :=
  match p with SA a :: p => SA a :: lead m p | SM XAny :: p => SM m :: p | _ => p end.
Definition production {A} (e : lookahead * body A) : option (list (symbol A)) :=
  match e with
  | (LM m, BPush p) => Some (lead m p)
  | (LEps, BPush p) => Some p
  | (_, BReject) => None
  end.
Inductive event (A : Type) := EChar (c : Z) | EAct (a : A).
Arguments EChar {A}. Arguments EAct {A}.
(** [gen g k t]: the symbols [k] generate the characters and actions [t]. *)
Inductive gen {A} (g : grammar A) : list (symbol A) -> list (event A) -> Prop :=
| gen_end : gen g [] []
| gen_char : forall m k c t, fit m c = true -> gen g k t -> gen g (SM m :: k) (EChar c :: t)
| gen_act : forall a k t, gen g k t -> gen g (SA a :: k) (EAct a :: t)
| gen_prod : forall x e p k t, In e (entries g x) -> production e = Some p -> gen g (p ++ k) t -> gen g (SN x :: k) t.
Definition sentence {A} (g : grammar A) (t : list (event A)) : Prop := gen g [SN 0] t.
Definition chars {A} (t : list (event A)) : list Z := flat_map (fun e => match e with EChar c => [c] | EAct _ => [] end) t.
(** The actions one after the other, each with the last character before it. *)
Fixpoint perform {A T} (act : A -> option Z -> T -> applied T) (prev : option Z) (t : list (event A)) (s : T) : final T :=
  match t with
  | [] => FAccept s
  | EChar c :: t => perform act (Some c) t s
  | EAct a :: t => match act a prev s with Applied s' => perform act prev t s' | Refused => FReject | NoOverload => FIll end
  end.

Lemma pick_in : forall A (l : list (lookahead * body A)) none b, pick l none = Chosen b -> none = Chosen b \/ exists e, In e l /\ snd e = b.
Proof. intros A [|e [|]] none b H; cbn in H; [left; exact H| |discriminate]. right. injection H as <-. exists e. split; [left|]; reflexivity. Qed.
Lemma resolve_in : forall A (g : grammar A) x cur p, resolve g x cur = Chosen (BPush p) ->
  exists la, In (la, BPush p) (entries g x) /\ match la, cur with LEps, None => True | LM m, Some c => fit m c = true | _, _ => False end.
Proof.
  intros A g x cur p H. unfold resolve in H. destruct cur as [c|].
  - apply pick_in in H as [H|([la b] & I & E)].
    + apply pick_in in H as [H|([la b] & I & E)]; [discriminate|]. cbn in E. subst. apply filter_In in I as [I F]. unfold convertible in F. cbn in F.
      destruct la as [[]|]; try discriminate; eexists; (split; [exact I|exact F]).
    + cbn in E. subst. apply filter_In in I as [I F]. unfold exact in F. cbn in F. destruct la as [[d| | | |]|]; try discriminate. eexists. split; [exact I|exact F].
  - apply pick_in in H as [H|([la b] & I & E)]; [discriminate|]. cbn in E. subst. apply filter_In in I as [I F]. unfold is_end in F. cbn in F.
    destruct la; [discriminate|]. exists LEps. split; [exact I|exact Logic.I].
Qed.
Lemma lead_cases : forall A (g : grammar A) m p k t, gen g (lead m p ++ k) t -> gen g (p ++ k) t.
Proof.
  intros A g m p k. induction p as [|[y|x|a] p IH]; intros t G; [exact G| |exact G|].
  - destruct y; try exact G. cbn [lead List.app] in *. inversion G as [|m1 k1 c t1 F G1| |]; subst. constructor; [reflexivity|exact G1].
  - cbn [lead List.app] in *. inversion G as [| |a1 k1 t1 G1|]; subst. constructor. apply IH, G1.
Qed.
Lemma lead_gen : forall A (g : grammar A) m c p k t, gen g (p ++ k) t -> hd_error (chars t) = Some c -> fit m c = true -> gen g (lead m p ++ k) t.
Proof.
  intros A g m c p k. induction p as [|[y|x|a] p IH]; intros t G H F; [exact G| |exact G|].
  - destruct y; try exact G. cbn [lead List.app] in *. inversion G as [|m1 k1 d t1 F1 G1| |]; subst. cbn in H. injection H as ->. constructor; assumption.
  - cbn [lead List.app] in *. inversion G as [| |a1 k1 t1 G1|]; subst. constructor. apply IH; assumption.
Qed.
Lemma lead_other : forall A (g : grammar A) m p k t t', gen g (lead m p ++ k) t -> gen g (p ++ k) t' -> chars t = chars t' -> gen g (lead m p ++ k) t'.
Proof.
  intros A g m p k. induction p as [|[y|x|a] p IH]; intros t t' G G' E; [exact G'| |exact G'|].
  - destruct y; try exact G'. cbn [lead List.app] in *. inversion G as [|m1 k1 c t1 F G1| |]; subst. inversion G' as [|m2 k2 c2 t2 F2 G2| |]; subst.
    cbn in E. injection E as -> _. constructor; assumption.
  - cbn [lead List.app] in *. inversion G as [| |a1 k1 t1 G1|]; subst. inversion G' as [| |a2 k2 t2 G2|]; subst. constructor. apply (IH t1); assumption.
Qed.
(** Whatever the grammar, an accepted text is a sentence, and the result that of its actions. *)
Theorem accepted_sentence : forall A T (g : grammar A) act n prev rest k (s s' : T), loop g act n prev rest k s = FAccept s' ->
  exists t, gen g k t /\ chars t = rest /\ perform act prev t s = FAccept s'.
Proof.
  intros A T g act. induction n as [|n IH]; intros prev rest k s s' H; [discriminate|]. cbn [loop] in H.
  destruct k as [|[m|x|a] k].
  - destruct rest; [|discriminate]. exists []. repeat split; [constructor|exact H].
  - destruct rest as [|c rest]; [discriminate|]. destruct (fit m c) eqn:F; [|discriminate]. apply IH in H as (t & G & <- & P).
    exists (EChar c :: t). repeat split; [constructor; assumption|exact P].
  - destruct (resolve g x (hd_error rest)) as [[p|]|] eqn:R; try discriminate. apply resolve_in in R as (la & I & La).
    apply IH in H as (t & G & E & P). exists t. split; [|split; assumption].
    destruct la as [m|].
    + apply gen_prod with (LM m, BPush p) (lead m p); [exact I|reflexivity|]. destruct (hd_error rest) as [c|] eqn:Hd; [|destruct La].
      apply (lead_gen A g m c); [exact G|rewrite E; exact Hd|exact La].
    + apply gen_prod with (LEps, BPush p) p; [exact I|reflexivity|exact G].
  - destruct (act a prev s) as [s1| |] eqn:E; try discriminate. apply IH in H as (t & G & <- & P).
    exists (EAct a :: t). repeat split; [constructor; exact G|]. cbn [perform]. rewrite E. exact P.
Qed.

(** * LL(1) *)
(** Nullable nonterminals, first characters and what may follow, as any tables closed under the productions. *)
Section Predict.
Variables (A : Type) (g : grammar A).
Variables (nul : nat -> bool) (first : nat -> Z -> Prop) (follow : nat -> option Z -> Prop).
Definition vanish (k : list (symbol A)) : bool := forallb (fun y => match y with SM _ => false | SN x => nul x | SA _ => true end) k.
Fixpoint firsts (k : list (symbol A)) (c : Z) : Prop :=
  match k with
  | [] => False
  | SM m :: _ => fit m c = true
  | SN x :: k => first x c \/ (nul x = true /\ firsts k c)
  | SA _ :: k => firsts k c
  end.
(** Every nonterminal in [k] may be followed by what comes after it in [k], and then by what follows [x]. *)
Fixpoint followed (x : nat) (k : list (symbol A)) : Prop :=
  match k with
  | [] => True
  | SN y :: k => (forall c, firsts k c -> follow y (Some c)) /\ (vanish k = true -> forall o, follow x o -> follow y o) /\ followed x k
  | _ :: k => followed x k
  end.
Record predictive : Prop := {
  p_null : forall x e p, In e (entries g x) -> production e = Some p -> vanish p = true -> nul x = true;
  p_first : forall x e p c, In e (entries g x) -> production e = Some p -> firsts p c -> first x c;
  p_start : follow 0 None;
  p_follow : forall x e p, In e (entries g x) -> production e = Some p -> followed x p;
  p_starts : forall x e p c, In e (entries g x) -> production e = Some p -> firsts p c -> resolve g x (Some c) = Chosen (snd e);
  p_empty : forall x e p o, In e (entries g x) -> production e = Some p -> vanish p = true -> follow x o -> resolve g x o = Chosen (snd e)
}.
Hypothesis HP : predictive.
Lemma vanish_app : forall k1 k2, vanish (k1 ++ k2) = vanish k1 && vanish k2.
Proof. intros. apply forallb_app. Qed.
Lemma firsts_app : forall k1 k2 c, firsts (k1 ++ k2) c <-> firsts k1 c \/ (vanish k1 = true /\ firsts k2 c).
Proof.
  clear HP. induction k1 as [|[m|x|a] k1 IH]; intros k2 c; cbn [List.app firsts vanish forallb]; try fold (vanish k1).
  - split; [auto|intros [[]|[_ H]]; exact H].
  - split; [auto|intros [H|[H _]]; [exact H|discriminate]].
  - rewrite IH, andb_true_iff. tauto.
  - rewrite IH. cbn [andb]. tauto.
Qed.
Lemma gen_vanish : forall k t, gen g k t -> chars t = [] -> vanish k = true.
Proof.
  intros k t G. induction G as [|m k c t F G IH|a k t G IH|x e p k t I P G IH]; intros H.
  - reflexivity.
  - discriminate.
  - exact (IH H).
  - specialize (IH H). rewrite vanish_app in IH. apply andb_true_iff in IH as [H1 H2]. cbn [vanish forallb]. fold (vanish k).
    rewrite (p_null HP x e p I P H1), H2. reflexivity.
Qed.
Lemma gen_firsts : forall k t c u, gen g k t -> chars t = c :: u -> firsts k c.
Proof.
  intros k t c u G. revert u. induction G as [|m k d t F G IH|a k t G IH|x e p k t I P G IH]; intros u H.
  - discriminate.
  - cbn in H. injection H as -> _. exact F.
  - exact (IH u H).
  - apply IH in H. apply firsts_app in H as [H|[H1 H2]]; cbn [firsts]; [left; exact (p_first HP x e p c I P H)|].
    right. split; [exact (p_null HP x e p I P H1)|exact H2].
Qed.
(** What the stack of the machine looks like. *)
Fixpoint stacked (k : list (symbol A)) : Prop :=
  match k with
  | [] => True
  | SN y :: k => (forall c, firsts k c -> follow y (Some c)) /\ (vanish k = true -> follow y None) /\ stacked k
  | _ :: k => stacked k
  end.
Lemma stacked_app : forall x p k, followed x p -> stacked (SN x :: k) -> stacked (p ++ k).
Proof.
  clear HP. induction p as [|[m|y|a] p IH]; intros k H K; cbn [List.app].
  - exact (proj2 (proj2 K)).
  - apply IH; assumption.
  - destruct H as (H1 & H2 & H3). cbn [stacked]. split; [|split; [|apply IH; assumption]].
    + intros c F. apply firsts_app in F as [F|[V F]]; [exact (H1 c F)|]. apply H2; [exact V|]. exact (proj1 K c F).
    + rewrite vanish_app. intros V. apply andb_true_iff in V as [V1 V2]. apply H2; [exact V1|]. exact (proj1 (proj2 K) V2).
  - apply IH; assumption.
Qed.
Lemma stacked_start : stacked [SN 0].
Proof. cbn. split; [intros c []|split; [intros _; exact (p_start HP)|exact Logic.I]]. Qed.
(** The overload chosen is the one of the derivation. *)
Lemma predicted : forall x e p k t, stacked (SN x :: k) -> In e (entries g x) -> production e = Some p -> gen g (p ++ k) t ->
  resolve g x (hd_error (chars t)) = Chosen (snd e).
Proof.
  intros x e p k t K I P G. destruct (chars t) as [|c u] eqn:E; cbn [hd_error].
  - apply gen_vanish in G; [|exact E]. rewrite vanish_app in G. apply andb_true_iff in G as [V1 V2].
    apply (p_empty HP x e p None I P V1). exact (proj1 (proj2 K) V2).
  - pose proof (gen_firsts _ _ _ _ G E) as F. apply firsts_app in F as [F|[V F]]; [exact (p_starts HP x e p c I P F)|].
    apply (p_empty HP x e p (Some c) I P V). exact (proj1 K c F).
Qed.
Section Perform.
Variables (T : Type) (act : A -> option Z -> T -> applied T).
Lemma lead_loop : forall m p k t, gen g (lead m p ++ k) t -> forall n prev s, loop g act n prev (chars t) (lead m p ++ k) s = loop g act n prev (chars t) (p ++ k) s.
Proof.
  clear HP. intros m p k. induction p as [|[y|x|a] p IH]; intros t G n prev s; [reflexivity| |reflexivity|].
  - destruct y; try reflexivity. cbn [lead List.app] in *. inversion G as [|m1 k1 c t1 F G1| |]; subst. destruct n as [|n]; [reflexivity|].
    cbn [loop List.app chars flat_map fit]. rewrite F. reflexivity.
  - cbn [lead List.app] in *. inversion G as [| |a1 k1 t1 G1|]; subst. destruct n as [|n]; [reflexivity|]. cbn [loop].
    destruct (act a prev s); try reflexivity. apply (IH t1 G1).
Qed.
(** Every sentence is read, and its actions are performed. *)
Lemma sentence_read : forall k t, gen g k t -> stacked k -> forall prev s, exists n, loop g act n prev (chars t) k s = perform act prev t s.
Proof.
  intros k t G. induction G as [|m k c t F G IH|a k t G IH|x e p k t I P G IH]; intros K prev s.
  - exists 1. reflexivity.
  - destruct (IH K (Some c) s) as [n Hn]. exists (S n). cbn [loop chars flat_map]. change (flat_map _ t) with (chars t). cbn [List.app]. rewrite F. exact Hn.
  - cbn [perform]. destruct (act a prev s) as [s'| |] eqn:E.
    + destruct (IH K prev s') as [n Hn]. exists (S n). cbn [loop]. rewrite E. exact Hn.
    + exists 1. cbn [loop]. rewrite E. reflexivity.
    + exists 1. cbn [loop]. rewrite E. reflexivity.
  - pose proof (predicted x e p k t K I P G) as R. destruct (IH (stacked_app x p k (p_follow HP x e p I P) K) prev s) as [n Hn].
    exists (S n). cbn [loop]. rewrite R. destruct e as [la [q|]]; cbn [snd]; [|destruct la; discriminate]. rewrite <- Hn.
    destruct la as [m|]; cbn in P; injection P as <-; [|reflexivity]. symmetry. apply lead_loop, G.
Qed.
End Perform.
(** No text is a sentence in two ways, also about the actions. *)
Theorem unambiguous : forall t t', sentence g t -> sentence g t' -> chars t = chars t' -> t = t'.
Proof.
  assert (G : forall k t, gen g k t -> stacked k -> forall t', gen g k t' -> chars t = chars t' -> t = t').
  { intros k t G. induction G as [|m k c t F G IH|a k t G IH|x e p k t I P G IH]; intros K t' G' E.
    - inversion G'. reflexivity.
    - inversion G' as [|m' k' c' t1 F' G1| |]; subst. cbn in E. injection E as -> E. f_equal. exact (IH K _ G1 E).
    - inversion G' as [| |a' k' t1 G1|]; subst. f_equal. exact (IH K _ G1 E).
    - inversion G' as [| | |x' e' p' k' t1 I' P' G1]; subst.
      pose proof (predicted x e p k t K I P G) as R. pose proof (predicted x e' p' k t' K I' P' G1) as R'. rewrite <- E, R in R'. injection R' as R'.
      assert (H : gen g (p ++ k) t'); [|exact (IH (stacked_app x p k (p_follow HP x e p I P) K) t' H E)].
      destruct e as [la b], e' as [la' b']. cbn in R'. subst b'. destruct b as [q|]; [|destruct la; discriminate].
      assert (Q : gen g (q ++ k) t') by (destruct la' as [m'|]; cbn in P'; injection P' as <-; [exact (lead_cases A g m' q k t' G1)|exact G1]).
      destruct la as [m|]; cbn in P; injection P as <-; [exact (lead_other A g m q k t t' G Q E)|exact Q]. }
  intros t t' H H' E. exact (G _ _ H stacked_start _ H' E).
Qed.

(** * When the machine ends *)
(** No nonterminal comes back to the left end of what it generates. *)
Variable rank : nat -> nat.
Fixpoint lower (r : nat) (k : list (symbol A)) : Prop :=
  match k with
  | [] => True
  | SM _ :: _ => True
  | SN y :: k => rank y < r /\ (nul y = true -> lower r k)
  | SA _ :: k => lower r k
  end.
Lemma lead_lower : forall r m p, lower r (lead m p) -> lower r p.
Proof. clear HP. intros r m p. induction p as [|[[]|x|a] p IH]; cbn [lead lower]; auto. Qed.
Lemma lead_vanish : forall m p, vanish (lead m p) = vanish p.
Proof. clear HP. intros m p. induction p as [|[[]|x|a] p IH]; try reflexivity. exact IH. Qed.
Hypothesis HR : forall x e p, In e (entries g x) -> production e = Some p -> lower (rank x) p.
Section Ends.
Variables (T : Type) (act : A -> option Z -> T -> applied T).
Notation run := (loop g act).
Lemma moves_on : forall r k, lower r k -> forall st prev rest s,
  (exists n, run n prev rest (k ++ st) s <> FFuel) \/
  (vanish k = true /\ exists n s', forall m, run (n + m) prev rest (k ++ st) s = run m prev rest st s') \/
  (exists n c rest' st' s', rest = c :: rest' /\ forall m, run (n + m) prev rest (k ++ st) s = run m (Some c) rest' st' s').
Proof.
  induction r as [r IHr] using lt_wf_ind. induction k as [|[m|x|a] k IH]; intros Lo st prev rest s.
  - right. left. split; [reflexivity|]. exists 0, s. reflexivity.
  - destruct rest as [|c rest]; [left; exists 1; discriminate|]. destruct (fit m c) eqn:F.
    + right. right. exists 1, c, rest, (k ++ st), s. split; [reflexivity|]. intros i. cbn [plus loop List.app]. rewrite F. reflexivity.
    + left. exists 1. cbn [loop List.app]. rewrite F. discriminate.
  - destruct Lo as [Lx Lk]. destruct (resolve g x (hd_error rest)) as [[p|]|] eqn:R;
      [|left; exists 1; cbn [loop List.app]; rewrite R; discriminate..].
    destruct (resolve_in _ _ _ _ _ R) as (la & I & _).
    assert (Lp : lower (rank x) p /\ (vanish p = true -> nul x = true)).
    { destruct la as [m|].
      - pose proof (HR x _ (lead m p) I eq_refl) as L1. pose proof (p_null HP x _ (lead m p) I eq_refl) as L2. rewrite lead_vanish in L2. split; [apply lead_lower in L1; exact L1|exact L2].
      - split; [exact (HR x _ p I eq_refl)|exact (p_null HP x _ p I eq_refl)]. }
    destruct Lp as [Lp Vp]. destruct (IHr (rank x) Lx p Lp (k ++ st) prev rest s) as [(n & D)|[(V & n & s' & D)|(n & c & rest' & st' & s' & E & D)]].
    + left. exists (S n). cbn [loop List.app]. rewrite R. exact D.
    + destruct (IH (Lk (Vp V)) st prev rest s') as [(n2 & D2)|[(V2 & n2 & s2 & D2)|(n2 & c & rest' & st' & s2 & E & D2)]].
      * left. exists (S (n + n2)). cbn [loop List.app]. rewrite R, D. exact D2.
      * right. left. split; [cbn [vanish forallb]; fold (vanish k); rewrite (Vp V), V2; reflexivity|]. exists (S (n + n2)), s2. intros i. cbn [plus loop List.app].
        rewrite R, <- Nat.add_assoc, D. apply D2.
      * right. right. exists (S (n + n2)), c, rest', st', s2. split; [exact E|]. intros i. cbn [plus loop List.app]. rewrite R, <- Nat.add_assoc, D. apply D2.
    + right. right. exists (S n), c, rest', st', s'. split; [exact E|]. intros i. cbn [plus loop List.app]. rewrite R. apply D.
  - cbn [lower] in Lo. destruct (act a prev s) as [s'| |] eqn:E; [|left; exists 1; cbn [loop List.app]; rewrite E; discriminate..].
    destruct (IH Lo st prev rest s') as [(n & D)|[(V & n & s2 & D)|(n & c & rest' & st' & s2 & E2 & D)]].
    + left. exists (S n). cbn [loop List.app]. rewrite E. exact D.
    + right. left. split; [exact V|]. exists (S n), s2. intros i. cbn [plus loop List.app]. rewrite E. apply D.
    + right. right. exists (S n), c, rest', st', s2. split; [exact E2|]. intros i. cbn [plus loop List.app]. rewrite E. apply D.
Qed.
Lemma lower_all : forall k, exists r, lower r k.
Proof.
  induction k as [|[m|y|a] k [r IH]]; [exists 0; exact Logic.I|exists 0; exact Logic.I| |exists r; exact IH].
  assert (Up : forall r1 r2 q, r1 <= r2 -> lower r1 q -> lower r2 q).
  { clear. intros r1 r2 q L. induction q as [|[m|y|a] q IH]; cbn [lower]; auto. intros [H1 H2]. split; [lia|]. intros H. apply IH, H2, H. }
  exists (S (rank y) + r). split; [lia|]. intros _. apply (Up r); [lia|exact IH].
Qed.
Theorem machine_ends : forall rest prev k s, exists n, run n prev rest k s <> FFuel.
Proof.
  intros rest. induction rest as [rest IH] using (well_founded_induction (Wf_nat.well_founded_ltof _ (@length Z))). intros prev k s.
  destruct (lower_all k) as [r Lo].
  destruct (moves_on r k Lo [] prev rest s) as [(n & D)|[(V & n & s' & D)|(n & c & rest' & st' & s' & E & D)]]; rewrite ?app_nil_r in *.
  - exists n. exact D.
  - exists (n + 1). rewrite D. destruct rest; discriminate.
  - subst rest. destruct (IH rest' ltac:(unfold Wf_nat.ltof; cbn; lia) (Some c) st' s') as [n2 H]. exists (n + n2). rewrite D. exact H.
Qed.
End Ends.
End Predict.
