(** Tokens: what tokenize lists when the pattern is a choice of rules like those of a lexer. *)
From Coq Require Import List ZArith NArith Bool Lia Arith ZifyN ZifyNat.
From Verif Require Import Chars Syntax First View Eval Api Actions Parser Spec CharProofs SpecProps EvalTop Checks Match Term Iter RangeSim Mode ModeSem ModeEnum ModeCalls ModeTop
  Compiles Total Numbering RangeSpec Words.
Import ListNotations.

(** * The rules *)
(** A character; one or more characters; a character and any number of others; a text. *)
Inductive token := TOne (c : cls) | TRun (c : cls) | TName (c d : cls) | TText (t : list Z).
Record rule := mkRule { r_group : option (nat * option (list Z)); r_token : token }.
Definition token_re (t : token) : list re :=
  match t with
  | TOne c => [RCls c]
  | TRun c => [RRep Greedy 1 0 [RCls c]]
  | TName c d => [RCls c; RRep Greedy 0 0 [RCls d]]
  | TText t => [RStr t]
  end.
Definition rule_re (x : rule) : re :=
  match r_group x with
  | Some (id, Some nm) => RNCap id nm (token_re (r_token x))
  | Some (id, None) => RCap id (token_re (r_token x))
  | None => match token_re (r_token x) with [r] => r | l => RSeq l end
  end.
Definition lexer_re (rules : list rule) : re := RSelect (map rule_re rules).

(** * What a lexer does *)
Section Lexer.
Variable ci : bool.
Definition begins (c : cls) (u : list Z) : Prop := match u with v :: _ => cls_has ci c v = true | [] => False end.
(** From the text [w ++ u] the rule takes [w], as long as possible. *)
Definition takes (t : token) (w u : list Z) : Prop :=
  match t with
  | TOne c => exists v, w = [v] /\ cls_has ci c v = true
  | TRun c => w <> [] /\ Forall (fun v => cls_has ci c v = true) w /\ ~ begins c u
  | TName c d => exists v w', w = v :: w' /\ cls_has ci c v = true /\ Forall (fun v => cls_has ci d v = true) w' /\ ~ begins d u
  | TText t => Forall2 (fun x v => lit_has ci x v = true) t w
  end.
Definition refuses (t : token) (u : list Z) : Prop := forall w v, u = w ++ v -> ~ takes t w v.
(** [lexes rules u l v]: the tokens of [u], each with the number of its rule, and the text that is left when no rule applies. The first
    rule that applies is taken. *)
Inductive lexes (rules : list rule) : list Z -> list (nat * list Z) -> list Z -> Prop :=
| lexes_stop : forall u, (forall x, In x rules -> refuses (r_token x) u) -> lexes rules u [] u
| lexes_take : forall i x w u l v, nth_error rules i = Some x -> takes (r_token x) w u ->
    (forall j y, j < i -> nth_error rules j = Some y -> refuses (r_token y) (w ++ u)) ->
    lexes rules u l v -> lexes rules (w ++ u) ((i, w) :: l) v.

(** The length of what a rule takes. *)
Fixpoint prefixed (t u : list Z) : bool :=
  match t, u with
  | [], _ => true
  | x :: t, v :: u => lit_has ci x v && prefixed t u
  | _ :: _, [] => false
  end.
Definition taken (t : token) (u : list Z) : option nat :=
  match t with
  | TOne c => match u with v :: _ => if cls_has ci c v then Some 1 else None | [] => None end
  | TRun c => match run (cls_has ci c) u with [] => None | w => Some (length w) end
  | TName c d => match u with v :: u => if cls_has ci c v then Some (S (length (run (cls_has ci d) u))) else None | [] => None end
  | TText t => if prefixed t u then Some (length t) else None
  end.
Lemma run_unique_split : forall P w u, Forall (fun v => P v = true) w -> match u with v :: _ => P v = false | [] => True end -> run P (w ++ u) = w.
Proof.
  intros P w u F H. induction F as [|v w Hv F IH]; cbn [app run].
  - destruct u as [|v u]; [reflexivity|]. cbn [run]. rewrite H. reflexivity.
  - rewrite Hv, IH. reflexivity.
Qed.
Lemma begins_not : forall c u, ~ begins c u <-> match u with v :: _ => cls_has ci c v = false | [] => True end.
Proof. intros c [|v u]; cbn; [tauto|]. destruct (cls_has ci c v); split; intros; congruence. Qed.
Lemma prefixed_spec : forall t u, prefixed t u = true <-> exists w v, u = w ++ v /\ Forall2 (fun x v => lit_has ci x v = true) t w.
Proof.
  induction t as [|x t IH]; intros u; cbn [prefixed].
  - split; [|reflexivity]. intros _. exists [], u. split; [reflexivity|constructor].
  - destruct u as [|v u].
    + split; [discriminate|]. intros (w & v & E & F). inversion F; subst. discriminate.
    + rewrite andb_true_iff, IH. split.
      * intros (H & w & v' & -> & F). exists (v :: w), v'. split; [reflexivity|]. constructor; assumption.
      * intros (w & v' & E & F). inversion F as [|? y ? w' F1 F2]; subst. injection E as -> ->. split; [exact F1|]. exists w', v'. auto.
Qed.
Lemma forall2_len : forall A B (R : A -> B -> Prop) l l', Forall2 R l l' -> length l = length l'.
Proof. intros A B R l l' F. induction F; cbn; congruence. Qed.
Lemma app_same_len : forall A (a b c d : list A), a ++ b = c ++ d -> length a = length c -> a = c /\ b = d.
Proof.
  intros A a. induction a as [|x a IH]; intros b [|y c] d E L; try discriminate; [auto|]. cbn in *. injection E as -> E. destruct (IH b c d E ltac:(lia)) as [-> ->]. auto.
Qed.
Lemma takes_taken : forall t w u, takes t w u -> taken t (w ++ u) = Some (length w).
Proof.
  intros [c|c|c d|t] w u H; cbn [takes taken] in *.
  - destruct H as (v & -> & H). cbn. rewrite H. reflexivity.
  - destruct H as (H1 & H2 & H3). rewrite run_unique_split by (try assumption; apply begins_not; exact H3). destruct w; [contradiction|reflexivity].
  - destruct H as (v & w' & -> & H1 & H2 & H3). cbn [app]. rewrite H1, run_unique_split by (try assumption; apply begins_not; exact H3). reflexivity.
  - rewrite (proj2 (prefixed_spec t (w ++ u))) by (exists w, u; auto). f_equal. exact (forall2_len _ _ _ _ _ H).
Qed.
Lemma taken_takes : forall t u k, taken t u = Some k -> exists w v, u = w ++ v /\ takes t w v /\ length w = k.
Proof.
  intros [c|c|c d|t] u k H; cbn [takes taken] in *.
  - destruct u as [|v u]; [discriminate|]. destruct (cls_has ci c v) eqn:E; [|discriminate]. injection H as <-. exists [v], u. split; [reflexivity|]. split; [eauto|reflexivity].
  - destruct (run_spec (cls_has ci c) u) as (v & E & F & Hv). exists (run (cls_has ci c) u), v. split; [exact E|].
    destruct (run (cls_has ci c) u) as [|x w] eqn:R; [discriminate|]. injection H as <-. split; [|reflexivity]. split; [discriminate|]. split; [exact F|].
    apply begins_not. exact Hv.
  - destruct u as [|x u]; [discriminate|]. destruct (cls_has ci c x) eqn:E; [|discriminate]. injection H as <-.
    destruct (run_spec (cls_has ci d) u) as (v & E2 & F & Hv). exists (x :: run (cls_has ci d) u), v. split; [cbn; congruence|]. split; [|reflexivity].
    exists x, (run (cls_has ci d) u). split; [reflexivity|]. split; [exact E|]. split; [exact F|]. apply begins_not. exact Hv.
  - destruct (prefixed t u) eqn:E; [|discriminate]. injection H as <-. apply prefixed_spec in E as (w & v & -> & F). exists w, v. split; [reflexivity|].
    split; [exact F|]. symmetry. exact (forall2_len _ _ _ _ _ F).
Qed.
Lemma refuses_taken : forall t u, refuses t u <-> taken t u = None.
Proof.
  intros t u. split.
  - intros H. destruct (taken t u) as [k|] eqn:E; [|reflexivity]. apply taken_takes in E as (w & v & -> & T & _). exfalso. exact (H w v eq_refl T).
  - intros H w v -> T. apply takes_taken in T. congruence.
Qed.
(** There is one such list. *)
Lemma lexes_unique : forall rules u l v, lexes rules u l v -> forall l' v', lexes rules u l' v' -> l' = l /\ v' = v.
Proof.
  intros rules u l v H. induction H as [u H|i x w u l v H1 H2 H3 H4 IH]; intros l' v' H'; inversion H' as [u0 K|i' x' w' u' l0 v0 K1 K2 K3 K4 E1]; subst.
  - auto.
  - exfalso. exact (H x' (nth_error_In _ _ K1) w' u' eq_refl K2).
  - exfalso. exact (K x (nth_error_In _ _ H1) w u eq_refl H2).
  - assert (i' = i) as ->.
    { destruct (Nat.lt_trichotomy i' i) as [L|[L|L]]; [|exact L|].
      - exfalso. exact (H3 i' x' L K1 w' u' (eq_sym E1) K2).
      - exfalso. exact (K3 i x L H1 w u E1 H2). }
    rewrite H1 in K1. injection K1 as <-. pose proof (takes_taken _ _ _ H2) as T1. pose proof (takes_taken _ _ _ K2) as T2. rewrite E1, T1 in T2. injection T2 as T2.
    destruct (app_same_len _ _ _ _ _ E1 (eq_sym T2)) as [-> ->]. destruct (IH _ _ K4) as [-> ->]. auto.
Qed.
Lemma lexes_all : forall rules u l v, lexes rules u l v -> u = concat (map snd l) ++ v.
Proof.
  intros rules u l v H. induction H as [u H|i x w u l v H1 H2 H3 H4 IH]; cbn [map concat snd app]; [reflexivity|]. rewrite <- app_assoc. congruence.
Qed.
End Lexer.

(** * The preferred outcome *)
Lemma hd_app : forall A (l l' : list A), hd_error (l ++ l') = match hd_error l with Some x => Some x | None => hd_error l' end.
Proof. intros A [|x l] l'; reflexivity. Qed.
Lemma hd_map : forall A B (g : A -> B) l, hd_error (map g l) = option_map g (hd_error l).
Proof. intros A B g [|x l]; reflexivity. Qed.
Section Text.
Variable s : list Z.
Variables ml ci : bool.
Variable names : list Z -> option nat.
Notation enum := (enum s ml ci names false).
Notation has := (cls_has ci).
Definition seqs : list re -> state -> list state := fix seq (l : list re) (st : state) : list state :=
  match l with [] => [st] | x :: xs => flat_map (seq xs) (enum x st) end.
Lemma step_at : forall P p lg, step s P (p, lg) = match skipn p s with v :: _ => if P v then [(S p, lg)] else [] | [] => [] end.
Proof.
  intros P p lg. unfold step. cbn [fst snd]. destruct (nth_error s p) as [v|] eqn:E.
  - rewrite (skip_cons s p v E). reflexivity.
  - apply nth_error_None in E. rewrite skipn_all2 by exact E. reflexivity.
Qed.
Lemma skipn_S : forall p v u, skipn p s = v :: u -> skipn (S p) s = u.
Proof.
  intros p. induction s as [|x s' IH] in p |- *; intros v u E; destruct p; try discriminate; [cbn in *; congruence|]. cbn [skipn] in *. apply (IH p v u E).
Qed.
Lemma rep_body : forall c st, (fun st => flat_map (fun st => [st]) (enum (RCls c) st)) st = step s (has c) st.
Proof. intros c st. cbn [Spec.enum]. unfold step. destruct (nth_error s (fst st)) as [v|]; [|reflexivity]. destruct (has c v); reflexivity. Qed.
Lemma star_first : forall c p lg, hd_error (enum (RRep Greedy 0 0 [RCls c]) (p, lg)) = Some (p + length (run (has c) (skipn p s)), lg).
Proof.
  intros c p lg. change (enum (RRep Greedy 0 0 [RCls c]) (p, lg)) with
    (iterate s false (fun st => flat_map (fun st => [st]) (enum (RCls c) st)) Greedy 0 0 (p, lg)).
  unfold iterate. cbn [N.eqb negb andb]. change (N.to_nat 0) with 0. cbn [mandatory flat_map]. rewrite app_nil_r.
  apply greedy_first; [exact (rep_body c)|]. cbn [fst]. lia.
Qed.
Lemma walk_first : forall t p lg, walk s ci t (p, lg) = if prefixed ci t (skipn p s) then [(p + length t, lg)] else [].
Proof.
  induction t as [|x t IH]; intros p lg; cbn [walk prefixed length].
  - rewrite Nat.add_0_r. reflexivity.
  - rewrite step_at. destruct (skipn p s) as [|v u] eqn:E; [reflexivity|]. destruct (lit_has ci x v); [|reflexivity]. cbn [flat_map andb].
    rewrite app_nil_r, IH, (skipn_S p v u E). destruct (prefixed ci t u); [|reflexivity]. f_equal. f_equal. lia.
Qed.
Lemma token_first : forall t p lg, hd_error (seqs (token_re t) (p, lg)) = option_map (fun k => (p + k, lg)) (taken ci t (skipn p s)).
Proof.
  intros [c|c|c d|t] p lg; cbn [token_re seqs].
  - rewrite hd_flat by discriminate. cbn [Spec.enum]. rewrite step_at. cbn [taken]. destruct (skipn p s) as [|v u]; [reflexivity|]. destruct (has c v); [|reflexivity].
    cbn [hd_error option_map]. f_equal. f_equal. lia.
  - rewrite hd_flat by discriminate. change (enum (RRep Greedy 1 0 [RCls c]) (p, lg)) with
      (iterate s false (fun st => flat_map (fun st => [st]) (enum (RCls c) st)) Greedy 1 0 (p, lg)).
    rewrite (plus_first s (has c) _ (rep_body c)). cbn [taken]. destruct (run (has c) (skipn p s)); reflexivity.
  - rewrite hd_flat. 2:{ intros [q lg']. intros E. apply (f_equal (@hd_error _)) in E. rewrite hd_flat, star_first in E by discriminate. discriminate. }
    change (enum (RCls c) (p, lg)) with (step s (has c) (p, lg)). rewrite step_at. cbn [taken]. destruct (skipn p s) as [|v u] eqn:E; [reflexivity|]. destruct (has c v); [|reflexivity].
    cbn [hd_error option_map]. rewrite hd_flat, star_first by discriminate. rewrite (skipn_S p v u E). cbn [hd_error]. f_equal. f_equal. lia.
  - rewrite hd_flat by discriminate. cbn [Spec.enum taken]. rewrite walk_first. destruct (prefixed ci t (skipn p s)); reflexivity.
Qed.
Definition rule_log (x : rule) (p k : nat) (lg : log) : log := match r_group x with Some (id, _) => (id, (p, p + k)) :: lg | None => lg end.
Lemma rule_first : forall x p lg, hd_error (enum (rule_re x) (p, lg)) = option_map (fun k => (p + k, rule_log x p k lg)) (taken ci (r_token x) (skipn p s)).
Proof.
  intros [g t] p lg. unfold rule_re, rule_log. cbn [r_group r_token]. pose proof (token_first t p lg) as H.
  assert (C : forall id, hd_error (map (fun st' => (fst st', (id, (p, fst st')) :: snd st')) (seqs (token_re t) (p, lg))) =
            option_map (fun k => (p + k, (id, (p, p + k)) :: lg)) (taken ci t (skipn p s))).
  { intros id. destruct (seqs (token_re t) (p, lg)) as [|y l], (taken ci t (skipn p s)) as [k|]; cbn [hd_error option_map map] in *; try discriminate; [reflexivity|].
    injection H as ->. reflexivity. }
  destruct g as [[id [nm|]]|]; [exact (C id)|exact (C id)|].
  destruct t as [c|c|c d|t]; cbn [token_re] in *; [| |exact H|]; cbn [seqs] in H; rewrite hd_flat in H by discriminate; cbn [hd_error] in H;
    match type of H with match ?X with _ => _ end = _ => match goal with |- ?Y = _ => replace Y with X by reflexivity; rewrite <- H; destruct X; reflexivity end end.
Qed.
Lemma rules_first : forall rules p lg,
  hd_error (enum (lexer_re rules) (p, lg)) =
  (fix go l := match l with
               | [] => None
               | x :: l => match taken ci (r_token x) (skipn p s) with Some k => Some (p + k, rule_log x p k lg) | None => go l end
               end) rules.
Proof.
  intros rules p lg. unfold lexer_re. cbn [Spec.enum]. induction rules as [|x l IH]; [reflexivity|]. cbn [map]. rewrite hd_app, rule_first, IH.
  destruct (taken ci (r_token x) (skipn p s)); reflexivity.
Qed.
End Text.

(** * The list *)
(** No rule is the empty text. *)
Definition proper (x : rule) : Prop := match r_token x with TText t => t <> [] | _ => True end.
Lemma taken_positive : forall ci x u k, proper x -> taken ci (r_token x) u = Some k -> 0 < k.
Proof.
  intros ci [g [c|c|c d|t]] u k H E; cbn [proper r_token taken] in *; unfold proper in H; cbn [r_token] in H.
  - destruct u as [|v u]; [discriminate|]. destruct (cls_has ci c v); [|discriminate]. injection E as <-. lia.
  - destruct (run (cls_has ci c) u); [discriminate|]. injection E as <-. cbn. lia.
  - destruct u as [|v u]; [discriminate|]. destruct (cls_has ci c v); [|discriminate]. injection E as <-. lia.
  - destruct (prefixed ci t u); [|discriminate]. injection E as <-. destruct t; [contradiction|cbn; lia].
Qed.
Lemma rule_plain : forall x, no_switch (rule_re x) = true.
Proof. intros [[[id [nm|]]|] [c|c|c d|t]]; reflexivity. Qed.
Lemma lexer_plain : forall rules, no_switch (lexer_re rules) = true.
Proof.
  intros rules. unfold lexer_re. cbn [no_switch]. induction rules as [|x l IH]; [reflexivity|]. cbn [map forallb]. rewrite rule_plain. exact IH.
Qed.
Lemma rule_consuming : forall x, proper x -> consuming (rule_re x) = true.
Proof.
  intros [[[id [nm|]]|] [c|c|c d|t]] H; try reflexivity; cbn in *; unfold proper in H; cbn in H; destruct t; try contradiction; reflexivity.
Qed.
Lemma lexer_consuming : forall rules, Forall proper rules -> consuming (lexer_re rules) = true.
Proof.
  intros rules F. unfold lexer_re. cbn [consuming]. induction F as [|x l H F IH]; [reflexivity|]. cbn [map forallb]. rewrite rule_consuming by exact H. exact IH.
Qed.
Lemma choose : forall (g : rule -> option nat) rules,
  (exists i x k, nth_error rules i = Some x /\ g x = Some k /\ (forall j y, j < i -> nth_error rules j = Some y -> g y = None) /\
    forall B (h : rule -> nat -> B), (fix go l := match l with [] => None | x :: l => match g x with Some k => Some (h x k) | None => go l end end) rules = Some (h x k)) \/
  ((forall x, In x rules -> g x = None) /\
    forall B (h : rule -> nat -> B), (fix go l := match l with [] => None | x :: l => match g x with Some k => Some (h x k) | None => go l end end) rules = None).
Proof.
  intros g. induction rules as [|x l IH].
  - right. split; [intros x []|reflexivity].
  - destruct (g x) as [k|] eqn:E.
    + left. exists 0, x, k. split; [reflexivity|]. split; [exact E|]. split; [intros j y L; lia|]. reflexivity.
    + destruct IH as [(i & y & k & H1 & H2 & H3 & H4)|[H1 H2]].
      * left. exists (S i), y, k. split; [exact H1|]. split; [exact H2|]. split; [|exact H4]. intros [|j] z L N; [cbn in N; congruence|]. apply (H3 j z); [lia|exact N].
      * right. split; [|exact H2]. intros y [<-|I]; [exact E|auto].
Qed.
Section Lists.
Variable s : list Z.
Variable f : flags.
Variable rules : list rule.
Hypothesis all_proper : Forall proper rules.
Notation ci := (f_ci f).
Definition rule_group (i : nat) : option nat := match nth_error rules i with Some x => option_map fst (r_group x) | None => None end.
(** The outcome [x] is the token [y]. *)
Definition token_of (x : nat * state) (y : nat * list Z) : Prop :=
  text s (fst x) (fst (snd x)) = snd y /\
  snd (snd x) = match rule_group (fst y) with Some id => [(id, (fst x, fst (snd x)))] | None => [] end.
Lemma lexer_tokens : forall fuel start a u, s = a ++ u -> length u < fuel ->
  exists l v, lexes ci rules u l v /\ Forall2 token_of (tokens_from s f (lexer_re rules) fuel start (length a)) l.
Proof.
  induction fuel as [|fuel IH]; intros start a u E L; [lia|]. cbn [tokens_from].
  assert (stop : (forall x, In x rules -> taken ci (r_token x) u = None) -> exists l v, lexes ci rules u l v /\ Forall2 token_of [] l).
  { intros H. exists [], u. split; [|constructor]. constructor. intros x I. apply refuses_taken. exact (H x I). }
  destruct (negb start && Nat.eqb (length a) (length s)) eqn:B.
  - apply stop. intros x I. apply andb_true_iff in B as [_ B]. apply Nat.eqb_eq in B. rewrite E, app_length in B. destruct u; [|cbn in B; lia].
    destruct (taken ci (r_token x) []) as [k|] eqn:T; [|reflexivity]. rewrite Forall_forall in all_proper.
    pose proof (taken_positive _ _ _ _ (all_proper x I) T) as K. apply taken_takes in T as (w & v & E2 & _ & <-). destruct w; [cbn in K; lia|discriminate].
  - unfold first_at. rewrite outcomes_plain by apply lexer_plain. rewrite rules_first. rewrite (at_suffix s a u E).
    destruct (choose (fun x => taken ci (r_token x) u) rules) as [(i & x & k & H1 & H2 & H3 & H4)|[H1 H2]].
    + rewrite (H4 _ (fun x k => (length a + k, rule_log x (length a) k []))).
      rewrite Forall_forall in all_proper. pose proof (taken_positive _ _ _ _ (all_proper x (nth_error_In _ _ H1)) H2) as K.
      apply taken_takes in H2 as (w & v & E2 & T & <-). cbn [fst].
      rewrite E2 in *. destruct (IH false (a ++ w) v) as (l & v' & L1 & L2); [rewrite <- app_assoc; congruence|rewrite app_length in L; lia|].
      exists ((i, w) :: l), v'. split.
      * econstructor; try eassumption. intros j y Lj Nj. apply refuses_taken. exact (H3 j y Lj Nj).
      * rewrite app_length in L2. constructor; [|exact L2]. split; cbn [fst snd].
        -- apply (text_mid s a w v). congruence.
        -- unfold rule_group. rewrite H1. unfold rule_log. destruct (r_group x) as [[id nm]|]; reflexivity.
    + rewrite (H2 _ (fun x k => (length a + k, rule_log x (length a) k []))). apply stop. exact H1.
Qed.
End Lists.
