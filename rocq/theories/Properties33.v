(** Comparing two calls always gives an answer: C63.

    [settle props opt g fuel a b] (Nfa.v) compares two calls as [decide] of C60 does, by the sets of positions reached in the two patterns.
    [explained props opt a]: the text of [a] compiles and is one of those that C48 explains as a textbook regular expression. *)
From Coq Require Import List ZArith NArith Bool Lia Arith String.
From Verif Require Import Chars Syntax First View Eval Api Spec CharProofs EvalTop Total Grammar Actions Parser Literals Lang Textbook
  Properties2 Properties10 Equiv Properties30 Nfa.
Import ListNotations.
Local Open Scope string_scope.
Local Open Scope list_scope.
Local Open Scope nat_scope.

(** * C63 *)
(** [Holds] is for all subjects. *)
Theorem C63_holds : forall props opt g fuel a b, settle props opt g fuel a b = Holds -> forall s, forallb val_ok s = true ->
  exists m1 m2, says props opt a s m1 /\ says props opt b s m2 /\ g m1 m2 = true.
Proof. exact settled_holds. Qed.
Print Assumptions C63_holds.
(** [Fails] comes with a subject. *)
Theorem C63_fails : forall props opt g fuel a b w, settle props opt g fuel a b = Fails w ->
  forallb val_ok w = true /\ exists m1 m2, says props opt a w m1 /\ says props opt b w m2 /\ g m1 m2 = false.
Proof. exact settled_fails. Qed.
Print Assumptions C63_fails.
(** No shorter subject would do. *)
Theorem C63_shortest : forall props opt g fuel a b w, settle props opt g fuel a b = Fails w -> forall u m1 m2,
  forallb val_ok u = true -> says props opt a u m1 -> says props opt b u m2 -> g m1 m2 = false -> List.length w <= List.length u.
Proof.
  intros props opt g fuel a b w E u m1 m2 V A B G. destruct (le_lt_dec (List.length w) (List.length u)) as [L|L]; [exact L|exfalso].
  destruct (settled_short _ _ _ _ _ _ _ E u V L) as (n1 & n2 & A' & B' & G').
  rewrite (C60_says_once _ _ _ _ _ _ A A'), (C60_says_once _ _ _ _ _ _ B B') in G. congruence.
Qed.
Print Assumptions C63_shortest.
(** With fuel enough there is an answer, and more fuel does not change it. *)
Theorem C63_answers : forall props opt g a b, explained props opt a = true -> explained props opt b = true ->
  exists n, settle props opt g n a b <> Unknown /\ forall m, n <= m -> settle props opt g m a b = settle props opt g n a b.
Proof. exact settled_ends. Qed.
Print Assumptions C63_answers.
(** So [Holds] is found exactly when all subjects agree, and [Fails] exactly when some subject does not. *)
Theorem C63_complete : forall props opt g a b, explained props opt a = true -> explained props opt b = true ->
  ((exists n, settle props opt g n a b = Holds) <->
     forall s, forallb val_ok s = true -> exists m1 m2, says props opt a s m1 /\ says props opt b s m2 /\ g m1 m2 = true) /\
  ((exists n w, settle props opt g n a b = Fails w) <->
     exists s, forallb val_ok s = true /\ exists m1 m2, says props opt a s m1 /\ says props opt b s m2 /\ g m1 m2 = false).
Proof.
  intros props opt g a b A B.
  assert (Apart : forall s, (exists m1 m2, says props opt a s m1 /\ says props opt b s m2 /\ g m1 m2 = true) ->
    (exists m1 m2, says props opt a s m1 /\ says props opt b s m2 /\ g m1 m2 = false) -> False).
  { intros s (m1 & m2 & A1 & B1 & E1) (n1 & n2 & A2 & B2 & E2).
    rewrite (C60_says_once _ _ _ _ _ _ A1 A2), (C60_says_once _ _ _ _ _ _ B1 B2) in E1. congruence. }
  destruct (settled_ends props opt g a b A B) as (n & N & _). split; split.
  - intros (m & E). exact (settled_holds _ _ _ _ _ _ E).
  - intros H. exists n. destruct (settle props opt g n a b) as [|w|] eqn:E; [reflexivity| |congruence]. exfalso.
    destruct (settled_fails _ _ _ _ _ _ _ E) as [V F]. exact (Apart w (H w V) F).
  - intros (m & w & E). exists w. exact (settled_fails _ _ _ _ _ _ _ E).
  - intros (s & V & F). exists n. destruct (settle props opt g n a b) as [|w|] eqn:E; [|exists w; reflexivity|congruence]. exfalso.
    exact (Apart s (settled_holds _ _ _ _ _ _ E s V) F).
Qed.
Print Assumptions C63_complete.
(** Either every subject is as asked or one is not, without excluded middle. *)
Theorem C63_either : forall props opt g a b, explained props opt a = true -> explained props opt b = true ->
  (forall s, forallb val_ok s = true -> exists m1 m2, says props opt a s m1 /\ says props opt b s m2 /\ g m1 m2 = true) \/
  (exists s, forallb val_ok s = true /\ exists m1 m2, says props opt a s m1 /\ says props opt b s m2 /\ g m1 m2 = false).
Proof.
  intros props opt g a b A B. destruct (settled_ends props opt g a b A B) as (n & N & _).
  destruct (settle props opt g n a b) as [|w|] eqn:E; [left|right|congruence].
  - exact (settled_holds _ _ _ _ _ _ E).
  - exists w. exact (settled_fails _ _ _ _ _ _ _ E).
Qed.
Print Assumptions C63_either.
(** It never contradicts the comparison of C60. *)
Theorem C63_agrees : forall props opt g n m a b w, (settle props opt g n a b = Holds -> decide props opt g m a b = Fails w -> forallb val_ok w = false) /\
  (settle props opt g n a b = Fails w -> decide props opt g m a b <> Holds).
Proof.
  intros props opt g n m a b w. split.
  - intros H F. destruct (forallb val_ok w) eqn:V; [exfalso|reflexivity]. destruct (C63_holds _ _ _ _ _ _ H w V) as (m1 & m2 & A1 & B1 & E1).
    destruct (C60_fails _ _ _ _ _ _ _ F) as (n1 & n2 & A2 & B2 & E2).
    rewrite (C60_says_once _ _ _ _ _ _ A1 A2), (C60_says_once _ _ _ _ _ _ B1 B2) in E1. congruence.
  - intros F H. destruct (C63_fails _ _ _ _ _ _ _ F) as (V & m1 & m2 & A1 & B1 & E1).
    destruct (C60_holds _ _ _ _ _ _ H w V) as (n1 & n2 & A2 & B2 & E2).
    rewrite (C60_says_once _ _ _ _ _ _ A1 A2), (C60_says_once _ _ _ _ _ _ B1 B2) in E1. congruence.
Qed.
Print Assumptions C63_agrees.
(** The comparison of expressions underneath, with the words by their inductive definition: it decides inclusion. *)
Theorem C63_words : forall B x y, Forall (steady B) (tests x) -> Forall (steady B) (tests y) ->
  exists n, (settle_words implb n B x y = Holds /\ forall w, forallb val_ok w = true -> word x w -> word y w) \/
    (exists w, settle_words implb n B x y = Fails w /\ forallb val_ok w = true /\ word x w /\ ~ word y w /\
       forall u, forallb val_ok u = true -> word x u -> ~ word y u -> List.length w <= List.length u).
Proof.
  intros B x y Hx Hy. destruct (settle_ends implb B x y) as (n & N & _). exists n.
  destruct (settle_words implb n B x y) as [|w|] eqn:E; [left|right|congruence].
  - split; [reflexivity|]. intros w V. pose proof (settle_holds _ _ _ _ _ Hx Hy E w V) as G. rewrite <- !accepts_word. intros K. rewrite K in G. exact G.
  - exists w. destruct (settle_fails _ _ _ _ _ _ E) as [V F]. split; [reflexivity|]. split; [exact V|]. rewrite <- !accepts_word.
    destruct (accepts x w), (accepts y w); try discriminate. split; [reflexivity|]. split; [discriminate|].
    intros u Vu. rewrite <- !accepts_word. intros X Y. destruct (le_lt_dec (List.length w) (List.length u)) as [L|L]; [exact L|exfalso].
    pose proof (settle_short _ _ _ _ _ _ Hx Hy E u Vu L) as G. rewrite X in G. apply Y, G.
Qed.
Print Assumptions C63_words.

(** The same. *)
Example C63_ex_same : map (fun x => settle no_props true Bool.eqb 2000 (fst x) (snd x))
  [(ask Match "[0-9]+", ask Match "\d\d*"); (ask Match "(?:a|b)*", ask Match "[ab]*");
   (ask Search "a+", ask Search "a"); (ask Search "ab", ask Match "(?s).*ab.*"); (ask StartsWith "ab|a", ask Match "(?s)a.*");
   (ask_ci Match "[a-z]+", ask Match "[a-zA-Z]+"); (ask Match "a{2,4}", ask Match "aa(?:aa?)?");
   (ask Match "(?:a|b)*a(?:a|b){4}", ask Match "[ab]*a[ab]{4}"); (ask Search "a[ab]{4}c", ask Match "(?s).*a[ab]{4}c.*")] = repeat Holds 9.
Proof. vm_compute. reflexivity. Qed.
(** One within the other; never both; never at all. *)
Example C63_ex_within : settle no_props true implb 2000 (ask Match "[0-9]{4}-[0-9]{2}-[0-9]{2}") (ask Match "[0-9\-]{10}") = Holds /\
  settle no_props true nand 2000 (ask Match "[a-z_][a-z0-9_]*") (ask Match "[0-9]+(?:\.[0-9]*)?") = Holds /\
  settle no_props true (fun m _ => negb m) 2000 (ask Match "(?:a|b)c[^\s\S]") (ask Match "") = Holds.
Proof. repeat split; vm_compute; reflexivity. Qed.
(** Not the same, with a shortest subject; a pattern outside the checks. *)
Example C63_ex_apart : settle no_props true Bool.eqb 2000 (ask Match "[01]{1,4}") (ask Match "[01]{1,3}") = Fails (codes "0000") /\
  settle no_props true implb 2000 (ask Match "\w+") (ask Match "[a-z_][a-z0-9_]*") = Fails (codes "0") /\
  settle no_props true Bool.eqb 2000 (ask Match "a[bc]d") (ask Match "abd") = Fails (codes "acd") /\
  settle no_props true Bool.eqb 2000 (ask Match "(?:a|ab)*c") (ask Match "(?:ab?)*c") = Unknown.
Proof. repeat split; vm_compute; reflexivity. Qed.
(** What is explained: nested and ambiguous loops among them; not every pattern. *)
Example C63_ex_explained : map (fun p => explained no_props true (ask Match p))
  ["(?:a|b)*a(?:a|b){4}"; "[ab]*a"; "(?:ab)*|a(?:ba)*"; "a*a*"; "(a|b)*abb"; "(a*)*"; "(?:a|ab)*c"; "(a)\1"; "a(?=b)"]
  = [true; true; true; true; true; false; false; false; false].
Proof. vm_compute. reflexivity. Qed.
(** Too little fuel is told, not hidden. *)
Example C63_ex_fuel : settle no_props true Bool.eqb 3 (ask Match "(?:a|b)*") (ask Match "[ab]*") = Unknown /\
  settle no_props true Bool.eqb 40 (ask Match "(?:a|b)*") (ask Match "[ab]*") = Holds.
Proof. split; vm_compute; reflexivity. Qed.
