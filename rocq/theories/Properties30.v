(** Comparing two calls: C60.

    [decide props opt g fuel a b] (Equiv.v) compares the calls [a] and [b] (function, mode, text of the pattern): [Holds], [Fails] with a
    subject, or [Unknown]. [g] is what is asked of the two answers: [Bool.eqb] the same, [implb] inclusion, [nand] never both.
    [says props opt a s m]: the text of [a] compiles, the call with the subject [s] answers, and [m] tells whether it matched. *)
From Coq Require Import List ZArith NArith Bool Lia Arith String.
From Verif Require Import Chars Syntax First View Eval Api Spec CharProofs EvalTop Total Grammar Actions Parser Literals Lang Textbook
  Properties2 Properties10 Equiv.
Import ListNotations.
Local Open Scope string_scope.
Local Open Scope list_scope.
Local Open Scope nat_scope.

(** * C60 *)
(** [Holds] is for all subjects. *)
Theorem C60_holds : forall props opt g fuel a b, decide props opt g fuel a b = Holds -> forall s, forallb val_ok s = true ->
  exists m1 m2, says props opt a s m1 /\ says props opt b s m2 /\ g m1 m2 = true.
Proof. exact decide_holds. Qed.
Print Assumptions C60_holds.
(** [Fails] comes with a subject. *)
Theorem C60_fails : forall props opt g fuel a b w, decide props opt g fuel a b = Fails w ->
  exists m1 m2, says props opt a w m1 /\ says props opt b w m2 /\ g m1 m2 = false.
Proof. exact decide_fails. Qed.
Print Assumptions C60_fails.
(** A call has one answer: what [says] tells is not open. *)
Theorem C60_says_once : forall props opt a s m1 m2, says props opt a s m1 -> says props opt a s m2 -> m1 = m2.
Proof.
  intros props opt a s m1 m2 (r1 & c1 & C1 & (n1 & A1) & <-) (r2 & c2 & C2 & (n2 & A2) & <-). rewrite C1 in C2. injection C2 as <-.
  specialize (A1 (n1 + n2) ltac:(lia)). specialize (A2 (n1 + n2) ltac:(lia)). cbv beta in A1, A2. rewrite A1 in A2. injection A2 as <-. reflexivity.
Qed.
Print Assumptions C60_says_once.
(** The comparison of expressions underneath, with the words by their inductive definition. *)
Theorem C60_words : forall fuel B x y, Forall (steady B) (tests x) -> Forall (steady B) (tests y) ->
  (compare Bool.eqb fuel B x y = Holds -> forall w, word x w <-> word y w) /\
  (compare implb fuel B x y = Holds -> forall w, word x w -> word y w) /\
  (compare (fun a b => negb (a && b)) fuel B x y = Holds -> forall w, word x w -> ~ word y w).
Proof.
  intros fuel B x y Hx Hy. split; [|split]; intros H w; pose proof (compare_holds _ _ _ _ _ Hx Hy H w) as G.
  - rewrite <- !accepts_word. apply Bool.eqb_prop in G. rewrite G. reflexivity.
  - rewrite <- !accepts_word. intros E. rewrite E in G. exact G.
  - rewrite <- !accepts_word. intros E F. rewrite E, F in G. discriminate.
Qed.
Print Assumptions C60_words.

Definition nand (a b : bool) : bool := negb (a && b).
Definition ask (q : question) (p : string) : asking := mkAsking q plain_mode (codes p).
Definition ask_ci (q : question) (p : string) : asking := mkAsking q ci_mode (codes p).
(** The same. *)
Example C60_ex_same : map (fun x => decide no_props true Bool.eqb 200 (fst x) (snd x))
  [(ask Match "[0-9]+", ask Match "\d\d*"); (ask Match "(?:a|b)*", ask Match "[ab]*");
   (ask Search "a+", ask Search "a"); (ask Search "ab", ask Match "(?s).*ab.*"); (ask StartsWith "ab|a", ask Match "(?s)a.*");
   (ask_ci Match "[a-z]+", ask Match "[a-zA-Z]+"); (ask Match "a{2,4}", ask Match "aa(?:aa?)?")] = repeat Holds 7.
Proof. vm_compute. reflexivity. Qed.
(** One within the other; never both. *)
Example C60_ex_within : map (fun x => decide no_props true implb 400 (fst x) (snd x))
  [(ask Match "[a-z_][a-z0-9_]*", ask Match "\w+"); (ask Match "[0-9]{4}-[0-9]{2}", ask Match "[0-9\-]{7}");
   (ask Search "cat|dog", ask Search "[cd][ao][tg]")] = repeat Holds 3 /\
  decide no_props true nand 200 (ask Match "[a-z_][a-z0-9_]*") (ask Match "[0-9]+(?:\.[0-9]*)?") = Holds.
Proof. split; vm_compute; reflexivity. Qed.
(** Not the same, with a subject; and a pattern outside the checks. *)
Example C60_ex_apart : decide no_props true Bool.eqb 200 (ask Match "[01]{1,4}") (ask Match "[01]{1,3}") = Fails (codes "0000") /\
  decide no_props true implb 200 (ask Match "\w+") (ask Match "[a-z_][a-z0-9_]*") = Fails (codes "0") /\
  decide no_props true Bool.eqb 200 (ask Match "a[bc]d") (ask Match "abd") = Fails (codes "acd") /\
  decide no_props true Bool.eqb 200 (ask Match "(?:a|ab)*c") (ask Match "(?:ab?)*c") = Unknown.
Proof. repeat split; vm_compute; reflexivity. Qed.
(** From the comparison to the calls, for every subject. *)
Example C60_ex_calls : forall s, forallb val_ok s = true -> exists m, says no_props true (ask Match "[0-9]+") s m /\ says no_props true (ask Match "\d\d*") s m.
Proof.
  intros s V. destruct (C60_holds no_props true Bool.eqb 50 (ask Match "[0-9]+") (ask Match "\d\d*") ltac:(vm_compute; reflexivity) s V) as (m1 & m2 & A & B & E).
  apply Bool.eqb_prop in E as ->. eauto.
Qed.
