(** The grammar pcre.gram and the parser table generated from it (C53).

    [sentence t] says that the grammar in pcre.gram generates [t], the characters with the semantic actions in their
    places. The parser runs the table in pcre.hpp. *)
From Coq Require Import List ZArith NArith Bool Lia String.
From Verif Require Import Chars Syntax Grammar GramFile Actions Parser ParserProofs ErrorPos Gram.
Import ListNotations.
Local Open Scope string_scope.
Local Open Scope Z_scope.

(** The table reads exactly the texts of the grammar. *)
Theorem C53_texts : forall u, well_shaped u <-> exists t, sentence t /\ chars t = u.
Proof. exact shaped_sentence. Qed.
Print Assumptions C53_texts.

(** The grammar is unambiguous, also about the actions. *)
Theorem C53_unambiguous : forall t u, sentence t -> sentence u -> chars t = chars u -> t = u.
Proof. exact sentence_unique. Qed.
Print Assumptions C53_unambiguous.

(** The parser performs the actions of the sentence, each with the last character before it, and nothing else. *)
Theorem C53_actions : forall props t, sentence t ->
  compile props (chars t) =
  match perform props None t (mkCtx [] 0) with
  | Done c => match stk c with IRe r :: _ => CRegex r | _ => CIll end
  | Reject => CReject
  | IllAct => CIll
  end.
Proof. intros props t H. unfold compile. rewrite (parse_sentence props t H). destruct (perform props None t _); reflexivity. Qed.
Print Assumptions C53_actions.

(** A pattern is accepted with the regex [r] if and only if the grammar generates it and its actions make [r]. *)
Theorem C53_accepts : forall props u r, compile props u = CRegex r <->
  exists t c k, sentence t /\ chars t = u /\ perform props None t (mkCtx [] 0) = Done c /\ stk c = IRe r :: k.
Proof.
  intros props u r. split.
  - intros H. unfold compile in H. destruct (parse_ctx props u) as [c| | |] eqn:E; try discriminate.
    destruct (parse_accepts props u c E) as (t & S & Et & P). destruct (stk c) as [|[r'| | | | | | |] k] eqn:K; try discriminate.
    injection H as ->. eauto 8.
  - intros (t & c & k & S & <- & P & K). rewrite (C53_actions props t S), P, K. reflexivity.
Qed.
Print Assumptions C53_accepts.

(** Whether a text is in the grammar is decided by running the table without the actions. *)
Theorem C53_decided : forall u t, sentence_of u = Some t <-> sentence t /\ chars t = u.
Proof. exact sentence_of_spec. Qed.
Print Assumptions C53_decided.

(** A rejected pattern is not generated by the grammar, or one of its actions rejects it. *)
Theorem C53_rejects : forall props u, compile props u = CReject ->
  (forall t, sentence t -> chars t <> u) \/ exists t, sentence t /\ chars t = u /\ perform props None t (mkCtx [] 0) = Reject.
Proof.
  intros props u H. destruct (sentence_of u) as [t|] eqn:E.
  - apply C53_decided in E as [S <-]. right. exists t. rewrite (C53_actions props t S) in H. repeat split; auto.
    destruct (perform props None t _) as [c| |]; [|reflexivity|discriminate]. destruct (stk c) as [|[] ?]; discriminate.
  - left. intros t S Et. rewrite (proj2 (C53_decided u t) (conj S Et)) in E. discriminate.
Qed.
Print Assumptions C53_rejects.

(** * Examples *)
Ltac pick := (left; reflexivity) + (right; pick).
Ltac derive :=
  lazymatch goal with
  | |- gen [] [] => exact gen_end
  | |- gen (GAct _ :: _) (EAct _ :: _) => apply gen_act; derive
  | |- gen (GN ?n :: _) _ => eapply gen_prod; [cbn [prods In]; pick | cbn [app]; derive]
  | |- gen (_ :: _) (EChar _ :: _) => apply gen_char; [reflexivity | derive]
  end.
(** Pattern [a|b*]. *)
Example C53_ex1 : sentence [EChar 97; EAct A_push_character; EChar 124; EChar 98; EAct A_push_character; EChar 42; EAct A_repeat_star; EAct A_make_alternate].
Proof. unfold sentence. derive. Qed.
(** Pattern [(?<n>x)\g{n}], derived and parsed. *)
Definition ex2 : list event :=
  [EChar 40; EAct A_prepare_capture; EChar 63; EChar 60; EChar 110; EAct A_push_name; EChar 62; EChar 120; EAct A_push_character;
   EAct A_make_capture_with_name; EChar 41; EChar 92; EChar 103; EChar 123; EChar 110; EAct A_push_name; EChar 125; EAct A_make_back_reference; EAct A_make_sequence].
Example C53_ex2 : sentence ex2 /\ chars ex2 = codes "(?<n>x)\g{n}" /\
  exists r, compile no_props (chars ex2) = CRegex r /\ perform no_props None ex2 (mkCtx [] 0) = Done (mkCtx [IRe r] 1).
Proof.
  split; [unfold sentence, ex2; derive|]. split; [reflexivity|]. eexists. split; vm_compute; reflexivity.
Qed.
(** A text outside of the grammar, and a sentence that an action rejects. *)
Example C53_ex3 : (forall t, sentence t -> chars t <> codes "a**") /\ exists t, sentence t /\ chars t = codes "\1" /\ perform no_props None t (mkCtx [] 0) = Reject.
Proof.
  split.
  - intros t S E. pose proof (proj2 (C53_decided _ _) (conj S E)) as H. vm_compute in H. discriminate.
  - exists [EChar 92; EChar 49; EAct A_create_number; EAct A_make_back_reference]. split; [unfold sentence; derive|]. split; vm_compute; reflexivity.
Qed.
(** A space and a letter outside of ASCII are [other] in the grammar. *)
Example C53_ex4 : exists t, sentence_of (233 :: codes " x{2,}?") = Some t /\ sentence t.
Proof. eexists. split; [vm_compute; reflexivity|]. apply (C53_decided (233 :: codes " x{2,}?")). vm_compute. reflexivity. Qed.
