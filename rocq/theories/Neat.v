(** The characters of a compiled tree from those of the pattern text. *)
From Coq Require Import List ZArith NArith Bool Lia Arith.
From Verif Require HardError.
From Verif Require Import Chars Syntax View Eval Api EvalTop Mode ModeSem ModeSound ModeCalls CharProofs Grammar Actions Parser ParserProofs Full.
Import ListNotations.

(** ** A condition on every class of a tree *)
Section Every.
Variable Q : cls -> bool.
Fixpoint every (r : re) : bool :=
  match r with
  | RCls c | RBound c | RNotBound c => Q c
  | RStr t => forallb (fun v => Q (CChar v)) t
  | RSelect l | RSeq l | RRep _ _ _ l | RCap _ l | RNCap _ _ l | RAhead _ l | RAtomic l => forallb every l
  | _ => true
  end.
Definition every_item (i : item) : Prop := match i with IRe r => every r = true | _ => True end.
Hypothesis Q_set : forall l, Q (CSet l) = forallb Q l.
Hypothesis Q_neg : forall l, Q (CNeg l) = forallb Q l.
Hypothesis Q_negate : forall l, Q (CNegate l) = forallb Q l.
(** The classes and characters that the actions know. *)
Definition known : list cls :=
  [digit_chars; space_chars; horizontal_space_chars; vertical_space_chars; word_chars; alphanum_chars; alpha_chars; ascii_chars; CEnum [32; 9]%Z; CRange 0 31; CChar 127; CRange 33 126;
   CRange 97 122; CRange 65 90; CRange 32 126; punct_chars; xdigit_chars; CChar 7; CChar 20; CChar 12; CChar 10; CChar 0; CChar 13; CChar 9].
Hypothesis Q_known : forallb Q known = true.

Lemma every_unwrap : forall x, forallb every (unwrap x) = every x.
Proof. intros x. destruct x; cbn [unwrap]; try (cbn [forallb]; apply andb_true_r). reflexivity. Qed.
Lemma every_combine : forall k a b a' b' l, forallb every l = true -> every (combine_repeat k a b a' b' l) = true.
Proof. intros k a b a' b' l H. unfold combine_repeat. destruct k; try exact H. destruct (N.eqb b 0); [destruct (N.ltb 0 a')|destruct (N.eqb a' 0)]; exact H. Qed.
Lemma every_sequence : forall b a, every b = true -> every a = true -> every (make_sequence b a) = true.
Proof.
  intros b a B A. unfold make_sequence.
  assert (P : every (RSeq [a; b]) = true) by (cbn [every forallb]; rewrite A, B; reflexivity).
  repeat match goal with
  | |- context [match ?x with _ => _ end] => is_var x; destruct x
  | |- context [if ?x then _ else _] => destruct x
  end; try exact P; cbn [every forallb] in *; try (rewrite ?A, ?B; reflexivity); try (apply every_combine; exact B);
  repeat match goal with H : _ && _ = true |- _ => apply andb_true_iff in H as [? ?] end; rewrite ?every_combine by assumption;
  repeat match goal with H : ?x = true |- context [?x] => rewrite H end; try reflexivity.
Qed.
Lemma every_alternate : forall b a, every b = true -> every a = true -> every (make_alternate b a) = true.
Proof. intros b a B A. unfold make_alternate. destruct b; cbn [every forallb] in *; rewrite A; try rewrite B; reflexivity. Qed.
Lemma every_optional : forall x, every x = true -> every (make_optional x) = true.
Proof.
  intros x H. unfold make_optional.
  repeat match goal with |- context [match ?y with _ => _ end] => is_var y; destruct y end; try exact H; cbn [every forallb] in *; rewrite ?H; try reflexivity.
Qed.
Lemma every_push : forall x l, Q x = true -> forallb Q l = true -> forallb Q (push_into_set x l) = true.
Proof. intros x l X L. unfold push_into_set. destruct (existsb _ l); [exact L|]. rewrite forallb_app, L. cbn [forallb]. rewrite X. reflexivity. Qed.
Lemma is_known : forall k, In k known -> Q k = true.
Proof. intros k. revert k. apply forallb_forall. exact Q_known. Qed.

Variable props : list Z -> option (list Z) -> option (list (Z * Z)).
Hypothesis Q_props : forall n x t, props n x = Some t -> Q (CProp t) = true.
(** What is left to show, action by action. *)
Definition side (a : action) (v : Z) (l : list item) : Prop :=
  match a, l with
  | A_push_character, _ => Q (CChar v) = true
  | A_finish_hexdec, INum n :: _ => Q (CChar (Z.of_N n)) = true
  | A_make_range, IRe (RCls (CChar b)) :: IRe (RCls (CChar x)) :: _ => Q (CRange x b) = true
  | _, _ => True
  end.
Ltac base := rewrite ?Q_set, ?Q_neg, ?Q_negate; cbn [forallb]; rewrite ?andb_true_r;
  repeat match goal with |- _ && _ = true => apply andb_true_iff; split end; apply is_known; unfold known; cbn [In]; tauto.
Lemma every_act : forall a p c, Forall every_item (stk c) -> (forall v, p = Some v -> side a v (stk c)) ->
  match apply props a p c with Done c' => Forall every_item (stk c') | _ => True end.
Proof.
  intros a p [items cnt] T S. cbn [stk] in T, S.
  assert (P : forall i, every_item i -> Forall every_item (i :: items)) by (intros; constructor; assumption).
  destruct p as [v|]; [|destruct a; cbn [apply stk]; try exact I; destruct items; try exact I; cbn [stk]; apply P; exact eq_refl].
  specialize (S v eq_refl).
  destruct a; cbn [apply]; unfold push_cls, push, apply_mode; cbn [stk counter]; try (apply P; exact I || exact eq_refl || (cbn [every_item every]; (exact S || base)) ).
  all: repeat match goal with |- context [match ?x with _ => _ end] => is_var x; destruct x; try exact I end; cbn [stk].
  all: repeat match goal with |- context [if ?b then _ else _] => destruct b; try exact I | |- context [props ?x ?y] => destruct (props x y) eqn:?; try exact I
    | |- context [behind_content ?x] => destruct (behind_content x); try exact I end; cbn [stk].
  all: repeat match goal with T : Forall _ (_ :: _) |- _ => inversion T; clear T; subst end.
  all: repeat constructor; try assumption; cbn [every_item every] in *; try reflexivity.
  all: try (apply every_sequence; assumption); try (apply every_alternate; assumption); try (apply every_optional; assumption); try (rewrite every_unwrap; assumption); try assumption.
  all: rewrite ?Q_set, ?Q_neg, ?Q_negate in *; cbn [forallb] in *; rewrite ?andb_true_r; try assumption; try (apply every_push; assumption); try (eapply Q_props; eassumption).
  all: cbn [side] in S; try exact S.
  all: reflexivity.
Qed.
End Every.

(** ** Literals: characters of the text, escapes of at most seven hexadecimal digits, tables of properties *)
Fixpoint lit_cls (c : cls) : bool :=
  match c with
  | CChar l => lit_ok l
  | CRange _ _ => true
  | CSet l | CNeg l | CNegate l => forallb lit_cls l
  | CEnum vs => forallb lit_ok vs
  | CProp tbl => forallb (fun p => (0 <=? fst p)%Z && (snd p <? 2147483648)%Z) tbl
  end.
(** No run of more than seven hexadecimal digits ([k]: digits just read). *)
Fixpoint short (k : nat) (l : list Z) : bool :=
  match l with
  | [] => true
  | x :: r => if mem x set12 then (S k <=? 7)%nat && short (S k) r else short 0 r
  end.
Definition after (k : nat) (x : Z) : nat := if mem x set12 then S k else 0.
Lemma short_step : forall k x l, short k (x :: l) = true -> short (after k x) l = true /\ (mem x set12 = true -> S k <= 7).
Proof.
  intros k x l H. cbn [short] in H. unfold after. destruct (mem x set12); [|split; [exact H|discriminate]]. apply andb_true_iff in H as [H1 H2].
  split; [exact H2|]. intros _. apply Nat.leb_le in H1. exact H1.
Qed.

(** The stack of the parser while it reads an escape: where in the escape it stands. *)
Inductive phase := POut | PTop | PFirst | PPush | PIn | PFin | PRep.
Definition go1 (m : phase) (s : sym) : option phase :=
  match m, s with
  | POut, Act A_create_hexdec | POut, Act A_push_hexdec | POut, Act A_finish_hexdec | POut, NT N_hexdec_repeat => None
  | POut, _ => Some POut
  | PTop, TAny => Some PFirst
  | PFirst, Act A_push_hexdec => Some PIn
  | PFirst, TSet l => if leqb Z.eqb l set12 then Some PPush else None
  | PPush, Act A_push_hexdec => Some PIn
  | PIn, TSet l => if leqb Z.eqb l set12 then Some PPush else None
  | PIn, NT N_hexdec_repeat => Some PIn
  | PIn, TTerm _ => Some PFin
  | PIn, Act A_finish_hexdec => Some POut
  | PFin, Act A_finish_hexdec => Some POut
  | PRep, TAny => Some PPush
  | _, _ => None
  end.
Fixpoint go (m : phase) (l : list sym) : option phase := match l with [] => Some m | s :: r => match go1 m s with Some m' => go m' r | None => None end end.
Lemma go_app : forall l m l', go m (l ++ l') = match go m l with Some m' => go m' l' | None => None end.
Proof. induction l as [|s l IH]; intros m l'; [reflexivity|]. cbn [app go]. destruct (go1 m s); [apply IH|reflexivity]. Qed.
Definition pushes (l : list sym) : bool := match l with Act A_push_hexdec :: _ => true | _ => false end.
Definition hexes (o : option Z) : bool := match o with Some x => mem x set12 | None => false end.
Definition hex_matcher (m : tmatch) : bool := match m with MTerm x => mem x set12 | MSet l => forallb (fun x => mem x set12) l | _ => false end.
(** Rows of the table: outside of escapes, or the start of one. *)
Definition row_fine (m : tmatch) (l : list sym) : bool :=
  match go POut l with
  | Some POut => true
  | _ => match l with
         | Act A_create_hexdec :: TAny :: l' => match go PTop (TAny :: l') with Some POut => negb (pushes l') || hex_matcher m | _ => false end
         | _ => false
         end
  end.
Definition is_repeat (n : nt) : bool := match n with N_hexdec_repeat => true | _ => false end.
Lemma rows_fine : forallb (fun n => is_repeat n || forallb (fun row => match row with (m, Push l) => row_fine m l | _ => true end) (rules n)) all_nt = true.
Proof. vm_compute. reflexivity. Qed.
Lemma matcher_hex : forall o m l, viable o (m, Push l) -> hex_matcher m = true -> hexes o = true.
Proof.
  intros o m l V H. unfold viable in V. cbn [fst] in V. destruct m, o; try contradiction; try discriminate H; unfold hexes, hex_matcher in *; [subst; exact H|].
  rewrite forallb_forall in H. auto.
Qed.
Lemma row_of : forall n o l, rule n o = Push l -> is_repeat n = false -> exists m, row_fine m l = true /\ viable o (m, Push l).
Proof.
  intros n o l E R. destruct (rule_in _ _ _ E) as (m & I & V). exists m. split; [|exact V].
  pose proof (proj1 (forallb_forall _ _) rows_fine n (nt_all n)) as H. cbv beta in H. rewrite R in H. rewrite orb_false_l, forallb_forall in H. exact (H _ I).
Qed.
Lemma repeat_row : forall o l, rule N_hexdec_repeat o = Push l -> l = [] \/ (l = [TAny; Act A_push_hexdec; NT N_hexdec_repeat] /\ hexes o = true).
Proof.
  intros o l E. destruct (rule_in _ _ _ E) as (m & I & V). change (In (m, Push l) [(MTerm 125, Push []); (MSet set12, Push [TAny; Act A_push_hexdec; NT N_hexdec_repeat])]) in I.
  destruct I as [I|[I|[]]]; injection I as <- <-; [left; reflexivity|right]. split; [reflexivity|]. apply (matcher_hex o _ _ V). vm_compute. reflexivity.
Qed.

Definition number_below (k : nat) (c : ctx) : Prop := exists n ts, stk c = INum n :: ts /\ (n < 16 ^ N.of_nat k)%N.
Definition zero_on_top (c : ctx) : Prop := exists ts, stk c = INum 0 :: ts.
Definition holds (m : phase) (t : nat) (prev : option Z) (input : list Z) (st : list sym) (c : ctx) : Prop :=
  match m with
  | POut => True
  | PTop => zero_on_top c /\ (pushes (tl st) = true -> hexes (hd_error input) = true)
  | PFirst => zero_on_top c /\ (pushes st = true -> 1 <= t /\ hexes prev = true)
  | PPush => 1 <= t /\ hexes prev = true /\ number_below (t - 1) c
  | PIn => number_below t c
  | PFin => number_below 7 c
  | PRep => hexes (hd_error input) = true /\ number_below t c
  end.
Definition starting (input : list Z) (st : list sym) : Prop :=
  exists l, st = Act A_create_hexdec :: TAny :: l /\ go PTop (TAny :: l) = Some POut /\ (pushes l = true -> hexes (hd_error input) = true).
Definition standing (t : nat) (prev : option Z) (input : list Z) (st : list sym) (c : ctx) : Prop :=
  starting input st \/ exists m, go m st = Some POut /\ holds m t prev input st c.

Lemma below_more : forall k k' c, number_below k c -> k <= k' -> number_below k' c.
Proof.
  intros k k' c (n & ts & E & L) H. exists n, ts. split; [exact E|]. eapply N.lt_le_trans; [exact L|]. apply N.pow_le_mono_r; lia.
Qed.
Lemma zero_below : forall k c, zero_on_top c -> number_below k c.
Proof. intros k c (ts & E). exists 0%N, ts. split; [exact E|]. apply N.neq_0_lt_0. apply N.pow_nonzero. discriminate. Qed.

Section Text.
Variable props : list Z -> option (list Z) -> option (list (Z * Z)).
Hypothesis props_ok : forall n x t, props n x = Some t -> lit_cls (CProp t) = true.

Lemma lit_act : forall a p c, Forall (every_item lit_cls) (stk c) -> (forall v, p = Some v -> side lit_cls a v (stk c)) ->
  match apply props a p c with Done c' => Forall (every_item lit_cls) (stk c') | _ => True end.
Proof. apply every_act; try reflexivity. exact props_ok. Qed.
Lemma push_below : forall t v c c', apply props A_push_hexdec (Some v) c = Done c' -> mem v set12 = true -> 1 <= t -> t <= 7 -> number_below (t - 1) c -> number_below t c'.
Proof.
  intros t v c c' E V T1 T7 (n & ts & S & L). cbn [apply] in E. rewrite S in E. injection E as <-.
  assert (H : (Z.to_N (hex_value v) < 16)%N) by (apply HardError.hex_small; apply mem_in; exact V).
  assert (P : (16 ^ N.of_nat t = 16 * 16 ^ N.of_nat (t - 1))%N) by (replace (N.of_nat t) with (N.succ (N.of_nat (t - 1))) by lia; apply N.pow_succ_r').
  assert (B : (16 ^ N.of_nat t <= 268435456)%N) by (change 268435456%N with (16 ^ N.of_nat 7)%N; apply N.pow_le_mono_r; lia).
  exists (wrap (wrap (n * 16) + Z.to_N (hex_value v))), ts. split; [reflexivity|]. unfold wrap, size_mod.
  rewrite (N.mod_small (n * 16)) by lia. rewrite N.mod_small by lia. lia.
Qed.
Lemma finish_fine : forall c v, number_below 7 c -> side lit_cls A_finish_hexdec v (stk c).
Proof.
  intros c v (n & ts & S & L). rewrite S. cbn [side lit_cls]. unfold lit_ok. change (16 ^ N.of_nat 7)%N with 268435456%N in L. lia.
Qed.

Lemma side_range : forall v l, side lit_cls A_make_range v l.
Proof. intros v l. unfold side. repeat match goal with |- match ?x with _ => _ end => destruct x; try exact I; try reflexivity end. Qed.
Theorem run_lits : forall n t prev input st c c', t <= 7 -> short t input = true -> forallb lit_ok input = true -> (forall v, prev = Some v -> lit_ok v = true) ->
  Forall (every_item lit_cls) (stk c) -> standing t prev input st c -> run props n prev input st c = PAccept c' -> Forall (every_item lit_cls) (stk c').
Proof.
  induction n as [|n IH]; intros t prev input st c c' T S L Pv F St E; cbn [run] in E; [discriminate E|].
  destruct st as [|s st]; [destruct input; [injection E as <-; exact F|discriminate E]|].
  assert (K : forall ch rest m, input = ch :: rest -> go m st = Some POut -> holds m (after t ch) (Some ch) rest st c -> run props n (Some ch) rest st c = PAccept c' -> Forall (every_item lit_cls) (stk c')).
  { intros ch rest m -> G H R. destruct (short_step t ch rest S) as [S' T']. cbn [forallb] in L. apply andb_true_iff in L as [L1 L2].
    apply (IH (after t ch) (Some ch) rest st c c'); try assumption.
    - unfold after. destruct (mem ch set12); [auto|lia].
    - intros v V. injection V as <-. exact L1.
    - right. exists m. split; assumption. }
  assert (J : forall a c1, s = Act a -> (forall v, prev = Some v -> side lit_cls a v (stk c)) -> apply props a prev c = Done c1 -> standing t prev input st c1 ->
    run props n prev input st c1 = PAccept c' -> Forall (every_item lit_cls) (stk c')).
  { intros a c1 _ Sd A St1 R. pose proof (lit_act a prev c F Sd) as F1. rewrite A in F1. exact (IH t prev input st c1 c' T S L Pv F1 St1 R). }
  destruct St as [(l & El & Gl & Hl)|(m & G & H)].
  - injection El as -> ->. destruct (apply props A_create_hexdec prev c) as [c1| |] eqn:A; try discriminate E.
    apply (J A_create_hexdec c1 eq_refl); [intros; exact I|exact A| |exact E]. right. exists PTop. split; [exact Gl|].
    destruct prev as [v|]; [|discriminate A]. injection A as <-. split; [eexists; reflexivity|exact Hl].
  - cbn [go] in G. destruct (go1 m s) as [m'|] eqn:G1; [|discriminate G].
    destruct s as [x|a|d| |l].
    + (* nonterminal *)
      destruct (rule x (hd_error input)) as [l|] eqn:R; [|discriminate E].
      apply (IH t prev input (l ++ st) c c' T S L Pv F); [|exact E].
      destruct (is_repeat x) eqn:X.
      * destruct x; try discriminate X. destruct m; try discriminate G1. injection G1 as <-. destruct (repeat_row _ _ R) as [->|[-> Hx]].
        -- right. exists PIn. split; [exact G|exact H].
        -- right. exists PRep. split; [exact G|]. split; assumption.
      * assert (m = POut /\ m' = POut) as [-> ->] by (destruct m, x; try discriminate G1; try discriminate X; injection G1 as <-; split; reflexivity).
        destruct (row_of _ _ _ R X) as (tm & Rf & V). unfold row_fine in Rf. destruct (go POut l) as [[]|] eqn:Gl.
        1: right; exists POut; split; [rewrite go_app, Gl; exact G|exact I].
        all: left; destruct l as [|[|[]| | |] l]; try discriminate Rf; destruct l as [|[| | | |] l]; try discriminate Rf;
          destruct (go PTop (TAny :: l)) as [[]|] eqn:Gt; try discriminate Rf; exists (l ++ st); split; [reflexivity|]; split;
          [change (TAny :: l ++ st) with ((TAny :: l) ++ st); rewrite go_app, Gt; exact G|];
          intros Q; apply (matcher_hex _ _ _ V); destruct l as [|s0 l]; [cbn in Gt; discriminate Gt|];
          apply orb_true_iff in Rf as [Rf|Rf]; [|exact Rf]; apply negb_true_iff in Rf; cbn [app pushes] in *; congruence.
    + (* action *)
      destruct (apply props a prev c) as [c1| |] eqn:A; try discriminate E.
      destruct m; try (destruct a; discriminate G1).
      * (* outside *)
        assert (m' = POut) as -> by (destruct a; try discriminate G1; injection G1 as <-; reflexivity).
        apply (J a c1 eq_refl); [|exact A|right; exists POut; split; [exact G|exact I]|exact E].
        intros v V. destruct a; try exact I; try discriminate G1; first [exact (side_range v (stk c))|exact (Pv v V)].
      * (* first digit *)
        destruct a; try discriminate G1. injection G1 as <-. destruct H as [Z0 Hp]. destruct (Hp eq_refl) as [T1 Hx]. destruct prev as [v|]; [|discriminate Hx].
        apply (J A_push_hexdec c1 eq_refl); [intros; exact I|exact A| |exact E]. right. exists PIn. split; [exact G|].
        exact (push_below t v c c1 A Hx T1 T (zero_below _ _ Z0)).
      * (* digit *)
        destruct a; try discriminate G1. injection G1 as <-. destruct H as (T1 & Hx & B). destruct prev as [v|]; [|discriminate Hx].
        apply (J A_push_hexdec c1 eq_refl); [intros; exact I|exact A| |exact E]. right. exists PIn. split; [exact G|].
        exact (push_below t v c c1 A Hx T1 T B).
      * destruct a; try discriminate G1. injection G1 as <-. apply (J A_finish_hexdec c1 eq_refl); [intros v _; apply finish_fine; exact (below_more _ _ _ H T)|exact A| |exact E].
        right. exists POut. split; [exact G|exact I].
      * destruct a; try discriminate G1. injection G1 as <-. apply (J A_finish_hexdec c1 eq_refl); [intros v _; apply finish_fine; exact H|exact A| |exact E].
        right. exists POut. split; [exact G|exact I].
    + (* one character *)
      destruct input as [|ch rest]; [discriminate E|]. destruct (term_matches (TTerm d) ch); [|discriminate E].
      destruct m; try discriminate G1; injection G1 as <-; eapply K; try reflexivity; try eassumption; first [exact I|exact (below_more _ _ _ H T)].
    + (* any character *)
      destruct input as [|ch rest]; [discriminate E|]. cbn [term_matches] in E.
      destruct m; try discriminate G1; injection G1 as <-; eapply K; try reflexivity; try eassumption; try exact I.
      * destruct H as [Z0 Hp]. split; [exact Z0|]. intros Q. specialize (Hp Q). cbn [hd_error hexes] in *. unfold after. rewrite Hp. split; [lia|reflexivity].
      * destruct H as [Hx B]. cbn [hd_error hexes] in *. unfold holds, after. rewrite Hx. split; [lia|]. split; [exact Hx|]. replace (Datatypes.S t - 1) with t by lia. exact B.
    + (* one of a set *)
      destruct input as [|ch rest]; [discriminate E|]. destruct (term_matches (TSet l) ch) eqn:Tm; [|discriminate E]. cbn [term_matches] in Tm.
      assert (Q : forall k, leqb Z.eqb l set12 = true -> number_below t c -> k = PPush -> holds k (after t ch) (Some ch) rest st c).
      { intros k El B ->. assert (l = set12) as -> by (clear - El; revert El; generalize set12; induction l as [|x l IH]; intros [|y l'] El; try discriminate El; [reflexivity|];
          cbn [leqb] in El; apply andb_true_iff in El as [E1 E2]; apply Z.eqb_eq in E1 as ->; f_equal; auto).
        unfold holds, after, hexes. rewrite Tm. split; [lia|]. split; [reflexivity|]. replace (Datatypes.S t - 1) with t by lia. exact B. }
      destruct m; try discriminate G1; cbn [go1] in G1.
      * injection G1 as <-. eapply K; try reflexivity; try eassumption; exact I.
      * destruct (leqb Z.eqb l set12) eqn:El; [|discriminate G1]. injection G1 as <-. eapply K; try reflexivity; try eassumption. apply Q; [reflexivity| |reflexivity]. apply zero_below. apply H.
      * destruct (leqb Z.eqb l set12) eqn:El; [|discriminate G1]. injection G1 as <-. eapply K; try reflexivity; try eassumption. apply Q; [reflexivity|exact H|reflexivity].
Qed.
End Text.

Theorem text_lits : forall props u r, (forall n x t, props n x = Some t -> lit_cls (CProp t) = true) -> short 0 u = true -> forallb lit_ok u = true ->
  compile props u = CRegex r -> every lit_cls r = true.
Proof.
  intros props u r Hp Hs Hl E. unfold compile, parse_ctx in E. destruct (run _ _ _ _ _ _) as [c| | |] eqn:R; try discriminate E.
  assert (F : Forall (every_item lit_cls) (stk c)).
  { refine (run_lits props Hp _ 0 None u _ _ c (Nat.le_0_l 7) Hs Hl _ _ _ R); [discriminate|constructor|]. right. exists POut. split; [reflexivity|exact I]. }
  destruct (stk c) as [|[] ts]; try discriminate E. injection E as <-. inversion F; assumption.
Qed.

(** ** Ranges: none of the text without a minus sign *)
Fixpoint range_cls (ci : bool) (c : cls) : bool :=
  match c with
  | CRange a b => range_ok ci a b
  | CSet l | CNeg l | CNegate l => forallb (range_cls ci) l
  | _ => true
  end.
Definition ranging (s : sym) : bool := match s with NT N_j | Act A_make_range => true | _ => false end.
Definition minus_only (m : tmatch) : bool := match m with MTerm x => (x =? 45)%Z | _ => false end.
Lemma rows_ranging : forallb (fun n => match n with N_j => true | _ => forallb (fun row => match row with (m, Push l) => minus_only m || negb (existsb ranging l) | _ => true end) (rules n) end) all_nt = true.
Proof. vm_compute. reflexivity. Qed.
Lemma row_ranging : forall n o l, rule n o = Push l -> ranging (NT n) = false -> o <> Some 45%Z -> existsb ranging l = false.
Proof.
  intros n o l E R O. destruct (rule_in _ _ _ E) as (m & I & V).
  pose proof (proj1 (forallb_forall _ _) rows_ranging n (nt_all n)) as H. cbv beta in H.
  assert (K : forallb (fun row => match row with (m, Push l) => minus_only m || negb (existsb ranging l) | _ => true end) (rules n) = true) by (destruct n; try exact H; discriminate R).
  clear H. rewrite forallb_forall in K. specialize (K _ I). cbv beta iota in K. apply orb_true_iff in K as [K|K]; [|apply negb_true_iff; exact K].
  exfalso. unfold viable in V. cbn [fst] in V. destruct m, o; try discriminate K; try contradiction. subst. cbn [minus_only] in K. apply Z.eqb_eq in K as ->. exact (O eq_refl).
Qed.
Lemma range_act : forall ci props a p c, Forall (every_item (range_cls ci)) (stk c) -> (forall v, p = Some v -> side (range_cls ci) a v (stk c)) ->
  match apply props a p c with Done c' => Forall (every_item (range_cls ci)) (stk c') | _ => True end.
Proof. intros ci props. apply every_act; try reflexivity. destruct ci; vm_compute; reflexivity. Qed.
Theorem run_ranges : forall ci props n prev input st c c', ~ In 45%Z input -> existsb ranging st = false -> Forall (every_item (range_cls ci)) (stk c) ->
  run props n prev input st c = PAccept c' -> Forall (every_item (range_cls ci)) (stk c').
Proof.
  intros ci props. induction n as [|n IH]; intros prev input st c c' D R F E; cbn [run] in E; [discriminate E|].
  destruct st as [|s st]; [destruct input; [injection E as <-; exact F|discriminate E]|].
  cbn [existsb] in R. apply orb_false_iff in R as [R1 R2]. destruct s as [x|a|d| |l].
  3-5: destruct input as [|ch rest]; [discriminate E|]; destruct (term_matches _ ch); [|discriminate E]; refine (IH _ _ _ _ _ _ R2 F E); intros I; apply D; right; exact I.
  - destruct (rule x (hd_error input)) as [l|] eqn:Q; [|discriminate E]. refine (IH _ _ _ _ _ D _ F E). rewrite existsb_app, R2, orb_false_r.
    apply (row_ranging _ _ _ Q R1). destruct input as [|y input]; [discriminate|]. cbn [hd_error]. intros X. injection X as ->. apply D. left. reflexivity.
  - destruct (apply props a prev c) as [c1| |] eqn:A; try discriminate E. refine (IH _ _ _ _ _ D R2 _ E).
    pose proof (range_act ci props a prev c F) as G. rewrite A in G. apply G. intros v _. destruct a; try exact I; try discriminate R1; try reflexivity.
    unfold side. destruct (stk c) as [|[] ?]; try exact I; reflexivity.
Qed.
Theorem text_ranges : forall ci props u r, ~ In 45%Z u -> compile props u = CRegex r -> every (range_cls ci) r = true.
Proof.
  intros ci props u r D E. unfold compile, parse_ctx in E. destruct (run _ _ _ _ _ _) as [c| | |] eqn:R; try discriminate E.
  assert (F : Forall (every_item (range_cls ci)) (stk c)) by (eapply run_ranges; [exact D| | |exact R]; [reflexivity|constructor]).
  destruct (stk c) as [|[] ts]; try discriminate E. injection E as <-. inversion F; assumption.
Qed.

(** ** Both *)
Lemma cls_both : forall ci c, lit_cls c = true -> range_cls ci c = true -> cls_ok ci c = true.
Proof.
  intros ci. fix IH 1. intros c. destruct c; cbn [lit_cls range_cls cls_ok]; try (intros H _; exact H); try (intros _ H; exact H).
  all: match goal with |- forallb _ ?w = true -> _ => induction w as [|x w IHl] end; cbn [forallb]; [reflexivity|]; intros H K; apply andb_true_iff in H as [H1 H2]; apply andb_true_iff in K as [K1 K2];
    rewrite (IH x H1 K1), (IHl H2 K2); reflexivity.
Qed.
Lemma tree_both : forall M r, every lit_cls r = true -> (forall m, In m M -> every (range_cls (snd m)) r = true) -> chars_ok M r = true.
Proof.
  intros M r.
  assert (C : forall c, lit_cls c = true -> (forall m, In m M -> range_cls (snd m) c = true) -> forallb (fun m => cls_ok (snd m) c) M = true).
  { intros c H K. apply forallb_forall. intros m I. apply cls_both; auto. }
  apply (re_ind2 (fun r => every lit_cls r = true -> (forall m, In m M -> every (range_cls (snd m)) r = true) -> chars_ok M r = true)
    (fun l => forallb (every lit_cls) l = true -> (forall m, In m M -> forallb (every (range_cls (snd m))) l = true) -> forallb (chars_ok M) l = true));
  intros; cbn [every chars_ok forallb] in *; auto.
  apply andb_true_iff in H1 as [H1 H3]. rewrite H, H0; try assumption; [reflexivity| |]; intros m I; specialize (H2 m I); apply andb_true_iff in H2 as [? ?]; assumption.
Qed.
(** The word condition implies [short]. *)
Lemma short_word : forall l k b, short k l = false -> List.length b = k -> Forall (fun x => In x set12) b ->
  HardError.occurs (repeat set12 8) (b ++ l).
Proof.
  induction l as [|x l IH]; intros k b H Lb Hb; [discriminate H|]. cbn [short] in H. destruct (mem x set12) eqn:M.
  - apply mem_in in M. assert (Hb' : Forall (fun x => In x set12) (b ++ [x])) by (apply Forall_app; split; [exact Hb|constructor; [exact M|constructor]]).
    destruct (S k <=? 7)%nat eqn:K.
    + specialize (IH (S k) (b ++ [x]) H). rewrite <- app_assoc in IH. apply IH; [rewrite app_length, Lb; cbn; lia|exact Hb'].
    + apply Nat.leb_gt in K. assert (G : forall (w : list Z), Forall (fun x => In x set12) w -> 8 <= List.length w -> exists p q, w = p ++ q /\ Forall2 (fun c s => In c s) p (repeat set12 8)).
      { clear. generalize 8. intros n. induction n as [|n IH]; intros w Hw Lw; [exists [], w; split; [reflexivity|constructor]|]. destruct w as [|y w]; [cbn in Lw; lia|]. inversion Hw; subst.
        destruct (IH w ltac:(assumption) ltac:(cbn in Lw; lia)) as (p & q & -> & Q). exists (y :: p), q. split; [reflexivity|]. constructor; assumption. }
      destruct (G (b ++ [x]) Hb' ltac:(rewrite app_length, Lb; cbn; lia)) as (p & q & Ep & Q).
      exists [], p, (q ++ l). split; [|exact Q]. change (b ++ x :: l = p ++ q ++ l). rewrite app_assoc, <- Ep, <- app_assoc. reflexivity.
  - destruct (IH 0 [] H eq_refl (Forall_nil _)) as (p & q & z & E & Q). exists (b ++ x :: p), q, z. split; [|exact Q]. cbn [app] in E. rewrite E, <- app_assoc. reflexivity.
Qed.
Theorem text_chars : forall props u r M, (forall n x t, props n x = Some t -> lit_cls (CProp t) = true) -> forallb lit_ok u = true ->
  ~ HardError.occurs (repeat set12 8) u -> compile props u = CRegex r -> (forall m, In m M -> every (range_cls (snd m)) r = true) -> chars_ok M r = true.
Proof.
  intros props u r M Hp Hl Ho E Hr. apply tree_both; [|exact Hr]. apply (text_lits props u r Hp); try assumption.
  destruct (short 0 u) eqn:S; [reflexivity|]. exfalso. apply Ho. exact (short_word u 0 [] S eq_refl (Forall_nil _)).
Qed.
