(** The parser of patterns is the ctll machine (Ctll.v) on the grammar of /repo/include/ctre/pcre.hpp lines 145-461. *)
From Coq Require Import List ZArith NArith Bool Lia Arith.
From Verif Require Import Ctll CtllCheck.
From Verif Require Grammar Chars Syntax Actions Parser ParserProofs Gram Trampoline.
Import ListNotations.

(** * The table as a grammar *)
(** The nonterminals in the order of pcre.hpp lines 13-53, the first one [_start] = [s]. *)
Definition order : list Grammar.nt := Grammar.N_s :: filter (fun x => match x with Grammar.N_s => false | _ => true end) Grammar.all_nt.
Definition nt_eq_dec : forall a b : Grammar.nt, {a = b} + {a <> b}.
Proof. decide equality. Defined.
Fixpoint index (x : Grammar.nt) (l : list Grammar.nt) : nat :=
  match l with [] => 0 | y :: l => if nt_eq_dec x y then 0 else S (index x l) end.
Definition id (x : Grammar.nt) : nat := index x order.
Definition symbol_of (y : Grammar.sym) : symbol Grammar.action :=
  match y with
  | Grammar.NT x => SN (id x)
  | Grammar.Act a => SA a
  | Grammar.TTerm c => SM (XTerm c)
  | Grammar.TAny => SM XAny
  | Grammar.TSet l => SM (XSet l)
  end.
(** [_others] is the [neg_set] of line 144. *)
Definition look_of (m : Grammar.tmatch) : lookahead :=
  match m with
  | Grammar.MTerm c => LM (XTerm c)
  | Grammar.MSet l => LM (XSet l)
  | Grammar.MOthers => LM (XNeg Grammar.not_others)
  | Grammar.MEps => LEps
  end.
Definition body_of (r : Grammar.rhs) : body Grammar.action := match r with Grammar.Push l => BPush (map symbol_of l) | Grammar.Rej => BReject end.
Definition pcre : grammar Grammar.action := map (fun x => map (fun e => (look_of (fst e), body_of (snd e))) (Grammar.rules x)) order.
Definition action_eq_dec : forall a b : Grammar.action, {a = b} + {a <> b}.
Proof. decide equality. Defined.
Definition same_action (a b : Grammar.action) : bool := if action_eq_dec a b then true else false.
Lemma same_action_eq : forall a b, same_action a b = true -> a = b.
Proof. intros a b. unfold same_action. destruct (action_eq_dec a b); [auto|discriminate]. Qed.


(** The table is LL(1), by the check. *)
Theorem pcre_ll1 : ll1 same_action pcre = true.
Proof. vm_compute. reflexivity. Qed.

(** * The instance *)
Definition entry_of (e : Grammar.tmatch * Grammar.rhs) : lookahead * body Grammar.action := (look_of (fst e), body_of (snd e)).
Lemma pcre_entries : forall x, entries pcre (id x) = map entry_of (Grammar.rules x).
Proof. intros []; reflexivity. Qed.
Lemma term_filter : forall c l, match filter (exact c) (map entry_of l) with
  | [] => Parser.find_term c l = None
  | e :: _ => exists r, Parser.find_term c l = Some r /\ snd e = body_of r
  end.
Proof.
  intros c. induction l as [|[[d|s| |] r] l IH]; [reflexivity|..]; cbn [map filter entry_of exact fst snd look_of Parser.find_term]; try exact IH.
  rewrite (Z.eqb_sym c d). destruct (d =? c)%Z; [|exact IH]. exists r. auto.
Qed.
Lemma set_filter : forall c l, match filter (convertible c) (map entry_of l) with
  | [] => Parser.find_set c l = None
  | e :: _ => exists r, Parser.find_set c l = Some r /\ snd e = body_of r
  end.
Proof.
  intros c. induction l as [|[[d|s| |] r] l IH]; [reflexivity|..]; cbn [map filter entry_of convertible fst snd look_of fit Parser.find_set]; try exact IH.
  - change (existsb (Z.eqb c) s) with (Parser.mem c s). destruct (Parser.mem c s); [exists r; auto|exact IH].
  - change (existsb (Z.eqb c) Grammar.not_others) with (Parser.mem c Grammar.not_others). destruct (Parser.mem c Grammar.not_others); [exact IH|exists r; auto].
Qed.
Lemma eps_filter : forall l, match filter is_end (map entry_of l) with
  | [] => Parser.find_eps l = None
  | e :: _ => exists r, Parser.find_eps l = Some r /\ snd e = body_of r
  end.
Proof.
  induction l as [|[[d|s| |] r] l IH]; [reflexivity|..]; cbn [map filter entry_of is_end fst snd look_of Parser.find_eps]; try exact IH.
  exists r. auto.
Qed.
Lemma pick_known : forall (l : list (lookahead * body Grammar.action)) none b, (forall e k, l = e :: k -> snd e = b) -> (l = [] -> none = Chosen b) ->
  pick l none <> Ambiguous -> pick l none = Chosen b.
Proof.
  intros [|e [|e' k]] none b H N D; cbn in *; [apply N; reflexivity| |congruence]. rewrite (H e [] eq_refl). reflexivity.
Qed.
(** The overloads are resolved as in Parser.v. *)
Theorem pcre_resolve : forall x cur, resolve pcre (id x) cur = Chosen (body_of (Parser.rule x cur)).
Proof.
  intros x cur. pose proof (good_definite _ pcre same_action pcre_ll1 (id x) cur) as D. unfold resolve in *. rewrite pcre_entries in *.
  unfold Parser.rule. generalize dependent (Grammar.rules x). intros l D. destruct cur as [c|].
  - pose proof (term_filter c l) as F. apply pick_known; [..|exact D].
    + intros e k E. rewrite E in F. destruct F as (r & -> & ->). reflexivity.
    + intros E. rewrite E in F, D. rewrite F. cbn [pick] in D. pose proof (set_filter c l) as F2. apply pick_known; [..|exact D].
      * intros e k E2. rewrite E2 in F2. destruct F2 as (r & -> & ->). reflexivity.
      * intros E2. rewrite E2 in F2. rewrite F2. reflexivity.
  - pose proof (eps_filter l) as F. apply pick_known; [..|exact D].
    + intros e k E. rewrite E in F. destruct F as (r & -> & ->). reflexivity.
    + intros E. rewrite E in F. rewrite F. reflexivity.
Qed.
Lemma term_fit : forall m c d, symbol_of m = SM d -> Parser.term_matches m c = fit d c.
Proof. intros [n|a|e| |l] ch d E; try discriminate; injection E as <-; cbn; [apply Z.eqb_sym|reflexivity..]. Qed.

Section Instance.
Variables (T : Type) (act : Grammar.action -> option Z -> T -> Trampoline.applied T).
Definition acting (a : Grammar.action) (prev : option Z) (s : T) : applied T :=
  match act a prev s with Trampoline.Applied s' => Applied s' | Trampoline.Refused => Refused | Trampoline.NoOverload => NoOverload end.
Definition verdict (d : Trampoline.decision) : decision :=
  match d with Trampoline.d_reject => d_reject | Trampoline.d_accept => d_accept | Trampoline.d_undecided => d_undecided end.
Definition image (o : Trampoline.outcome T) : outcome Grammar.action T :=
  match o with
  | Trampoline.Result r => Result (mkResults (Trampoline.r_pos r) (map symbol_of (Trampoline.r_stack r)) (Trampoline.r_subject r) (verdict (Trampoline.r_decision r)))
  | Trampoline.HardError => HardError
  | Trampoline.Exhausted => Exhausted
  end.
Lemma quick_same : forall l cur, quick (map symbol_of l) cur = option_map (map symbol_of) (Trampoline.quick l cur).
Proof. intros [|[x|a|d| |y] l] [c|]; try reflexivity. cbn. destruct (d =? c)%Z; reflexivity. Qed.
Lemma decide_same : forall input n pos st s, decide pcre acting input n pos (map symbol_of st) s = image (Trampoline.decide act input n pos st s).
Proof.
  intros input. induction n as [|n IH]; intros pos st s; [reflexivity|]. cbn [decide Trampoline.decide].
  change (previous_term input pos) with (Trampoline.previous_term input pos). change (current_term input pos) with (Trampoline.current_term input pos).
  destruct st as [|y st]; cbn [map hd_error tl].
  - cbn [augmented Trampoline.augmented]. destruct (Trampoline.current_term input pos); reflexivity.
  - assert (M : forall m, symbol_of y = SM m ->
      match augmented pcre (Some (SM m)) (Trampoline.current_term input pos) with
      | c_accept => Result (mkResults pos (map symbol_of st) s d_accept)
      | c_reject => Result (mkResults pos (map symbol_of st) s d_reject)
      | c_pop_input => Result (mkResults (S pos) (map symbol_of st) s d_undecided)
      | c_epsilon => decide pcre acting input n pos (map symbol_of st) s
      | c_push l =>
          match quick l (Trampoline.current_term input pos) with
          | Some l' => Result (mkResults (S pos) (l' ++ map symbol_of st) s d_undecided)
          | None => decide pcre acting input n pos (l ++ map symbol_of st) s
          end
      | c_ambiguous => HardError
      end = image
      match match Trampoline.current_term input pos with Some c => if Parser.term_matches y c then Trampoline.c_pop_input else Trampoline.c_reject | None => Trampoline.c_reject end with
      | Trampoline.c_accept => Trampoline.Result (Trampoline.mkResults pos st s Trampoline.d_accept)
      | Trampoline.c_reject => Trampoline.Result (Trampoline.mkResults pos st s Trampoline.d_reject)
      | Trampoline.c_pop_input => Trampoline.Result (Trampoline.mkResults (S pos) st s Trampoline.d_undecided)
      | Trampoline.c_epsilon => Trampoline.decide act input n pos st s
      | Trampoline.c_push l =>
          match Trampoline.quick l (Trampoline.current_term input pos) with
          | Some l' => Trampoline.Result (Trampoline.mkResults (S pos) (l' ++ st) s Trampoline.d_undecided)
          | None => Trampoline.decide act input n pos (l ++ st) s
          end
      end).
    { intros m E. cbn [augmented]. destruct (Trampoline.current_term input pos) as [c|]; [|reflexivity]. rewrite (term_fit y c m E). destruct (fit m c); reflexivity. }
    destruct y as [x|a|d| |l]; cbn [symbol_of] in *.
    + cbn [augmented Trampoline.augmented]. rewrite pcre_resolve. destruct (Parser.rule x (Trampoline.current_term input pos)) as [l|]; [|reflexivity]. cbn [body_of].
      destruct l as [|y l]; cbn [map]; [apply IH|]. rewrite (quick_same (y :: l)). destruct (Trampoline.quick (y :: l) (Trampoline.current_term input pos)) as [l'|]; cbn [option_map].
      * unfold image. cbn. rewrite map_app. reflexivity.
      * change (symbol_of y :: map symbol_of l) with (map symbol_of (y :: l)). rewrite <- map_app. apply IH.
    + unfold acting at 1. destruct (act a (Trampoline.previous_term input pos) s); [apply IH|reflexivity..].
    + exact (M _ eq_refl).
    + exact (M _ eq_refl).
    + exact (M _ eq_refl).
Qed.
Lemma folded_same : forall input b k o, folded pcre acting input b k (image o) = image (Trampoline.folded act input b k o).
Proof.
  intros input b. induction k as [|k IH]; intros o; [reflexivity|]. cbn [folded Trampoline.folded]. rewrite <- IH. f_equal.
  destruct o as [[p st s []]| |]; try reflexivity. cbn [next Trampoline.next image Trampoline.r_pos Trampoline.r_stack Trampoline.r_subject Trampoline.r_decision verdict]. apply decide_same.
Qed.
(** The parser of patterns, with any actions, is the machine on the table. *)
Theorem pcre_parser : forall input b s, parser pcre acting input b s = image (Trampoline.trampoline act input b s).
Proof.
  intros input b s. unfold parser, Trampoline.trampoline, Trampoline.trampoline_with. rewrite <- folded_same. f_equal. exact (decide_same input b 0 [Grammar.NT Grammar.N_s] s).
Qed.
End Instance.
(** The table, read as a grammar, generates the texts of pcre.gram. *)
Theorem pcre_texts : forall u, (exists t, sentence pcre t /\ chars t = u) <-> exists t, Gram.sentence t /\ Gram.chars t = u.
Proof.
  intros u. rewrite <- Trampoline.test_sentence. unfold Trampoline.ctre_test.
  pose proof (pcre_parser unit Trampoline.empty_apply u (Parser.parse_fuel u) tt) as P.
  split.
  - intros (t & G & E).
    destruct (ll1_reads _ _ pcre (acting unit Trampoline.empty_apply) same_action same_action_eq pcre_ll1 t tt G) as [n H]. rewrite E in H.
    assert (Pf : perform (acting unit Trampoline.empty_apply) None t tt = FAccept tt).
    { clear. generalize (@None Z). induction t as [|[c|a] t IH]; intros o; cbn [perform acting Trampoline.empty_apply]; [reflexivity|apply IH|apply IH]. }
    rewrite Pf in H. pose proof (H n (le_n n)) as H1.
    assert (F : shown (parser pcre (acting unit Trampoline.empty_apply) u (Parser.parse_fuel u) tt) <> FFuel).
    { rewrite P. destruct (Trampoline.fold_decided unit Trampoline.empty_apply u (Parser.parse_fuel u) tt) as [->|(r & -> & D & _)].
      - unfold Parser.parse_fuel. lia.
      - discriminate.
      - unfold image, shown. cbn. destruct (Trampoline.r_decision r); cbn; congruence. }
    rewrite <- (parser_agree _ _ pcre (acting unit Trampoline.empty_apply) u (Parser.parse_fuel u) n tt F) in H1 by (rewrite H1; discriminate).
    rewrite P in H1. destruct (Trampoline.trampoline Trampoline.empty_apply u (Parser.parse_fuel u) tt) as [[p st s []]| |]; discriminate || reflexivity.
  - intros H. destruct (parser_sound _ _ pcre (acting unit Trampoline.empty_apply) u (Parser.parse_fuel u) tt tt) as (t & G & E & _); [|exists t; auto].
    rewrite P. destruct (Trampoline.trampoline Trampoline.empty_apply u (Parser.parse_fuel u) tt) as [[p st [] []]| |]; discriminate || reflexivity.
Qed.
