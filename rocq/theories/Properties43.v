(** ctll as a library: the LL(1) machine for every grammar and every semantic actions (C73).

    [sentence g t]: the grammar generates [t], the characters with the actions in their places; [perform act None t s]: the
    actions one after the other, each with the last character before it. Neither mentions the machine. *)
From Coq Require Import List ZArith NArith Bool Lia Arith.
From Verif Require Import Ctll CtllCheck CtllPcre.
From Verif Require Grammar Gram Trampoline.
Import ListNotations.

(** Whatever the grammar: an accepted text is a sentence, and the result is that of its actions. *)
Theorem C73_sound : forall A T (g : grammar A) act input b (s s' : T), shown (parser g act input b s) = FAccept s' ->
  exists t, sentence g t /\ chars t = input /\ perform act None t s = FAccept s'.
Proof. exact parser_sound. Qed.
Print Assumptions C73_sound.

(** A grammar that passes the check [ll1] has one sentence for a text at most. *)
Theorem C73_unambiguous : forall A (g : grammar A) eqA, (forall a b, eqA a b = true -> a = b) -> ll1 eqA g = true ->
  forall t t', sentence g t -> sentence g t' -> chars t = chars t' -> t = t'.
Proof. exact ll1_unambiguous. Qed.
Print Assumptions C73_unambiguous.

(** For such a grammar the parser, with as many placeholders as characters, comes to an end: a sentence is read and its
    actions are performed, any other text is rejected. *)
Theorem C73_decides : forall A T (g : grammar A) (act : A -> option Z -> T -> applied T) eqA, (forall a b, eqA a b = true -> a = b) -> ll1 eqA g = true ->
  (forall a p s, act a p s <> NoOverload) -> forall input s,
  exists n, forall b, n <= b ->
    (exists t, sentence g t /\ chars t = input /\ shown (parser g act input b s) = perform act None t s) \/
    ((forall t, sentence g t -> chars t <> input) /\ shown (parser g act input b s) = FReject).
Proof. exact ll1_decides. Qed.
Print Assumptions C73_decides.

(** A sentence is read also if some action has no overload: then the program is ill-formed just if that action is reached. *)
Theorem C73_reads : forall A T (g : grammar A) (act : A -> option Z -> T -> applied T) eqA, (forall a b, eqA a b = true -> a = b) -> ll1 eqA g = true ->
  forall t s, sentence g t -> exists n, forall b, n <= b -> shown (parser g act (chars t) b s) = perform act None t s.
Proof. exact ll1_reads. Qed.
Print Assumptions C73_reads.

(** [ignore_unknown]: an action without an overload changes nothing, so there is always a program. *)
Theorem C73_ignoring : forall A T (g : grammar A) (act : A -> option Z -> T -> applied T) eqA, (forall a b, eqA a b = true -> a = b) -> ll1 eqA g = true ->
  forall t s, sentence g t -> exists n, forall b, n <= b ->
    shown (parser g (ignoring act) (chars t) b s) = perform (ignoring act) None t s /\ perform (ignoring act) None t s <> FIll.
Proof.
  intros A T g act eqA HA L t s G. destruct (ll1_reads A T g (ignoring act) eqA HA L t s G) as [n H]. exists n. intros b B. split; [apply H, B|].
  clear. generalize (@None Z). revert s. induction t as [|[c|a] t IH]; intros s o; cbn [perform]; [discriminate|apply IH|].
  unfold ignoring at 1. destruct (act a o s); [apply IH|discriminate|apply IH].
Qed.
Print Assumptions C73_ignoring.

(** The bound of the model has no part in a decision. *)
Theorem C73_bound : forall A T (g : grammar A) act input b b' (s : T), shown (parser g act input b s) <> FFuel -> shown (parser g act input b' s) <> FFuel ->
  shown (parser g act input b s) = shown (parser g act input b' s).
Proof. exact parser_agree. Qed.
Print Assumptions C73_bound.

(** Two overloads that need a conversion, and none that fits exactly: no program. *)
Theorem C73_overlap : forall A (g : grammar A) x c e e', In e (entries g x) -> In e' (entries g x) -> e <> e' ->
  convertible c e = true -> convertible c e' = true -> (forall e, In e (entries g x) -> exact c e = false) -> resolve g x (Some c) = Ambiguous.
Proof.
  intros A g x c e e' I I' D C C' X. unfold resolve.
  assert (E : filter (exact c) (entries g x) = []).
  { generalize dependent (entries g x). intros l _ _ X. induction l as [|y l IH]; [reflexivity|]. cbn [filter]. rewrite (X y (or_introl eq_refl)). apply IH. intros z H. apply X. right. exact H. }
  rewrite E. cbn [pick]. pose proof (proj2 (filter_In (convertible c) e (entries g x)) (conj I C)) as J. pose proof (proj2 (filter_In (convertible c) e' (entries g x)) (conj I' C')) as J'.
  destruct (filter (convertible c) (entries g x)) as [|y [|z l]]; [destruct J| |reflexivity]. destruct J as [->|[]]. destruct J' as [->|[]]. congruence.
Qed.
Print Assumptions C73_overlap.

(** A rule that pushes its own nonterminal first is never done with: the check excludes it for a reason. *)
Theorem C73_left_recursion : forall A T (g : grammar A) act x p input b st (s : T), (forall o, resolve g x o = Chosen (BPush (SN x :: p))) ->
  shown (folded g act input b (length input) (decide g act input b 0 (SN x :: st) s)) = FFuel.
Proof.
  intros A T g act x p input b st s H.
  assert (D : forall b st, decide g act input b 0 (SN x :: st) s = Exhausted).
  { intros m. induction m as [|n IH]; intros st1; [reflexivity|]. cbn [decide hd_error tl augmented]. rewrite H. cbn [quick List.app].
    destruct (current_term input 0); apply IH. }
  rewrite D. generalize (length input). intros k. induction k as [|k IH]; [reflexivity|exact IH].
Qed.
Print Assumptions C73_left_recursion.

(** The parser of patterns is an instance, with whatever actions. *)
Theorem C73_pcre : ll1 same_action pcre = true /\ forall T (act : Grammar.action -> option Z -> T -> Trampoline.applied T) input b s,
  parser pcre (acting T act) input b s = image T (Trampoline.trampoline act input b s).
Proof. exact (conj pcre_ll1 pcre_parser). Qed.
Print Assumptions C73_pcre.

(** The table in pcre.hpp, read as a grammar, has the texts of pcre.gram. *)
Theorem C73_pcre_texts : forall u, (exists t, sentence pcre t /\ chars t = u) <-> exists t, Gram.sentence t /\ Gram.chars t = u.
Proof. exact pcre_texts. Qed.
Print Assumptions C73_pcre_texts.

(** * Examples *)
Local Open Scope Z_scope.
(** Parentheses: [rule(S, term<'('>) -> push<anything, S, term<')'>, S>], [rule(S, term<')'>) -> epsilon], [rule(S, epsilon) -> epsilon]. *)
Definition parentheses : grammar unit :=
  [[(LM (XTerm 40), BPush [SM XAny; SN 0; SM (XTerm 41); SN 0]); (LM (XTerm 41), BPush []); (LEps, BPush [])]].
Definition any_unit (a b : unit) : bool := true.
Definition no_action (a : unit) (prev : option Z) (s : unit) : applied unit := NoOverload.
Example C73_ex_parentheses :
  ll1 any_unit parentheses = true /\
  map (fun u => shown (parser parentheses no_action u 100 tt)) [[]; [40; 41]; [40; 40; 41; 41; 40; 41]; [40; 40; 41]; [41]; [40; 97; 41]] =
  [FAccept tt; FAccept tt; FAccept tt; FReject; FReject; FReject].
Proof. vm_compute. auto. Qed.
(** Sums of digits, with actions that see the digit: [S -> digit, [take], R], [R -> '+', digit, [take], [plus], R | epsilon]. *)
Inductive sum_action := take | plus_.
Definition sums : grammar sum_action :=
  [ [(LM (XRange 48 57), BPush [SM XAny; SA take; SN 1])]
  ; [(LM (XTerm 43), BPush [SM XAny; SM (XRange 48 57); SA take; SA plus_; SN 1]); (LEps, BPush [])] ].
Definition same_sum (a b : sum_action) : bool := match a, b with take, take | plus_, plus_ => true | _, _ => false end.
Definition calculate (a : sum_action) (prev : option Z) (s : list Z) : applied (list Z) :=
  match a, prev, s with
  | take, Some c, s => Applied (c - 48 :: s)
  | plus_, _, x :: y :: s => Applied (x + y :: s)
  | _, _, _ => NoOverload
  end.
Example C73_ex_sums :
  ll1 same_sum sums = true /\
  map (fun u => shown (parser sums calculate u 100 [])) [[52]; [49; 43; 50; 43; 51]; [49; 43]; [43; 49]] = [FAccept [4]; FAccept [6]; FReject; FReject].
Proof. vm_compute. auto. Qed.
(** What the check rejects: left recursion, two sets with a common character, an end that may also go on. *)
Definition to_the_left : grammar unit := [[(LM XAny, BPush [SN 0; SM (XTerm 97)]); (LEps, BPush [SN 0; SM (XTerm 97)])]].
Definition two_sets : grammar unit := [[(LM (XSet [97; 98]), BPush [SM XAny]); (LM (XRange 98 99), BPush [SM XAny])]].
Example C73_ex_not_ll1 :
  map (ll1 any_unit) [to_the_left; two_sets] = [false; false] /\
  shown (parser to_the_left no_action [97; 97] 1000 tt) = FFuel /\
  map (fun u => shown (parser two_sets no_action u 100 tt)) [[97]; [98]; [99]; [100]] = [FAccept tt; FIll; FAccept tt; FReject].
Proof. vm_compute. auto. Qed.
(** An optional [b] before a [b]: the check finds the conflict; the machine takes it for the optional one and rejects "b". *)
Definition optional : grammar unit := [[(LM (XTerm 98), BPush [SN 1; SM (XTerm 98)])]; [(LM (XTerm 98), BPush [SM XAny]); (LEps, BPush [])]].
Example C73_ex_incomplete :
  ll1 any_unit optional = false /\ sentence optional [EChar 98] /\
  map (fun u => shown (parser optional no_action u 100 tt)) [[98]; [98; 98]] = [FReject; FAccept tt].
Proof.
  split; [vm_compute; reflexivity|]. split; [|vm_compute; reflexivity].
  apply gen_prod with (LM (XTerm 98), BPush [SN 1; SM (XTerm 98)]) [SN 1; SM (XTerm 98)]; [left; reflexivity|reflexivity|]. cbn [app].
  apply gen_prod with (LEps, BPush []) []; [right; left; reflexivity|reflexivity|]. cbn [app]. constructor; [reflexivity|constructor].
Qed.
