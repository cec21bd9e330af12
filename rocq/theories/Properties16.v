(** The position reported for a rejected pattern text: C49.

    [error_position props u] (ErrorPos.v): results::position of the parser, which regex_builder shows through
    problem_at_position. [well_shaped u]: the LL(1) grammar reads [u], whatever the semantic actions say. *)
From Coq Require Import List ZArith NArith Bool Lia Arith String.
From Verif Require Import Chars Syntax Grammar Actions Parser ParserProofs ErrorPos Pattern PatternLink.
Import ListNotations.
Local Open Scope string_scope.
Local Open Scope list_scope.
Local Open Scope nat_scope.

(** * C49 *)
(** Exactly the rejected texts have a position, between 0 and the length. *)
Theorem C49_reported : forall props u, compile props u = CReject <-> exists p, error_position props u = Some p.
Proof. exact rejected_placed. Qed.
Print Assumptions C49_reported.
Theorem C49_bound : forall props u p, error_position props u = Some p -> p <= List.length u.
Proof. exact position_bound. Qed.
Print Assumptions C49_bound.
(** Every text with the same characters up to the position, and the same next one, is rejected there too. *)
Theorem C49_stable : forall props u p v, error_position props u = Some p -> firstn (S p) v = firstn (S p) u ->
  error_position props v = Some p.
Proof.
  intros props u p v H E. unfold error_position in *. destruct (placed_parse props u) eqn:P; try discriminate. injection H as <-.
  rewrite (position_stable _ _ _ _ P v E). reflexivity.
Qed.
Print Assumptions C49_stable.
(** What precedes the position can be completed to a text of the grammar. *)
Theorem C49_viable : forall props u p, error_position props u = Some p -> exists w, well_shaped (firstn p u ++ w).
Proof. exact position_viable. Qed.
Print Assumptions C49_viable.
(** With the next character it can not be (it can not be left as it is, if the position is the end), unless an
    action rejects: the position is the length of the longest prefix that is good. *)
Theorem C49_longest : forall props u p, placed_parse props u = LReject p false ->
  (exists w, well_shaped (firstn p u ++ w)) /\
  (p < List.length u -> forall w, ~ well_shaped (firstn (S p) u ++ w)) /\ (p = List.length u -> ~ well_shaped u).
Proof.
  intros props u p H. split; [apply (position_viable props); unfold error_position; rewrite H; reflexivity|]. split.
  - intros L w. apply (position_longest _ _ _ H). rewrite firstn_app, firstn_firstn, Nat.min_id, firstn_length.
    replace (S p - Nat.min (S p) (List.length u)) with 0 by lia. cbn [firstn]. apply app_nil_r.
  - intros L. apply (position_longest _ _ _ H). reflexivity.
Qed.
Print Assumptions C49_longest.
(** Accepted texts are of the grammar; texts of the grammar are rejected by actions only. *)
Theorem C49_shaped : forall props u r, compile props u = CRegex r -> well_shaped u.
Proof. exact compiled_shaped. Qed.
Print Assumptions C49_shaped.
Theorem C49_action : forall props u p k, well_shaped u -> placed_parse props u = LReject p k -> k = true.
Proof. exact shaped_rejected. Qed.
Print Assumptions C49_action.

Example C49_ex : map (fun t => placed_parse no_props (codes t))
  ["(a"; "a)"; "a**"; "*a"; "[a"; "a{2,x"; "\xZ"; "a\2(b)(c)"; "\p{L}"; "(?<9>a)"] =
  [LReject 2 false; LReject 1 false; LReject 2 false; LReject 0 false; LReject 2 false; LReject 4 false; LReject 2 false;
   LReject 3 true; LReject 5 true; LReject 3 false].
Proof. vm_compute. reflexivity. Qed.

(** ** Actions reject late *)
(** The position of a rejection by an action is behind its cause: no text that starts with what precedes the
    position is accepted. *)
Theorem C49_action_refuted : exists u p, error_position no_props u = Some p /\
  forall w r, compile no_props (firstn p u ++ w) <> CRegex r.
Proof.
  exists (codes "a\g{9}b"), 6. split; [vm_compute; reflexivity|]. intros w r H.
  assert (E : placed_parse no_props (firstn 6 (codes "a\g{9}b") ++ w) = LReject 6 true).
  { apply (run_at_fuel _ _ 60); [reflexivity|discriminate]. }
  assert (K : compile no_props (firstn 6 (codes "a\g{9}b") ++ w) = CReject).
  { apply C49_reported. exists 6. unfold error_position. rewrite E. reflexivity. }
  congruence.
Qed.
Print Assumptions C49_action_refuted.
