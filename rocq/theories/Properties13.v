(** Mode switches anywhere in a pattern: C01, C02, C03, C30, C38. *)
From Coq Require Import List ZArith NArith Bool Lia Arith String.
From Verif Require Import Chars Syntax First View Eval Api Spec CharProofs EvalMono EvalInv EvalSem SpecProps
  EvalRefine SpecCut ApiProofs EvalTop OptProofs Checks EvalSound Match Mode ModeSem ModeSound ModeScope ModeCalls
  ModeEnum ModeRefine ModeCut ModeOpt Follow ModeTop Grammar Actions Parser Literals Properties2.
Import ListNotations.
Open Scope string_scope.
Open Scope nat_scope.

(** * C38: which texts a pattern with switches matches *)
(** A match found by the library has a derivation in which the mode is passed along with the evaluation:
    a switch acts on everything evaluated after it up to the end of the innermost enclosing repetition,
    lookaround or atomic group. *)
Theorem C38_match_sound : forall opt s f r n c, forallb val_ok s = true -> msound_check opt f r = true ->
  ctre_match opt n s f r = Ok c -> matched c = true ->
  exists lg, mderives s f r 0 (List.length s) lg /\ captures_are r c lg.
Proof. exact (fun opt s f r n c Hs Hr => m_match_sound opt s f r Hs Hr n c). Qed.
Print Assumptions C38_match_sound.
Theorem C38_search_sound : forall opt s f r n c, forallb val_ok s = true -> msound_check opt f r = true ->
  well_numbered r -> ctre_search opt n s f r = Ok c -> matched c = true ->
  exists b e lg, group c 0 = Some (b, e) /\ mderives s f r b e lg /\ captures_are r c lg.
Proof. exact (fun opt s f r n c Hs Hr => m_search_sound opt s f r Hs Hr n c). Qed.
Print Assumptions C38_search_sound.
(** Without switches this is the language of the pattern in the mode of the call. *)
Theorem C38_no_switch : forall s f r p e lg, no_switch r = true ->
  (mderives s f r p e lg <-> derives s f r p e lg).
Proof. exact mderives_plain. Qed.
Print Assumptions C38_no_switch.
(** Textual scope: if no switch is followed by anything outside of its group, and no alternative but the
    last has a switch, the text matched is one that the pattern describes with every switch acting up to
    the end of its group. *)
Theorem C38_scope : forall opt s f r n c, forallb val_ok s = true -> msound_check opt f r = true ->
  scope_check f r = true -> ctre_match opt n s f r = Ok c -> matched c = true ->
  exists lg, tderives s f r 0 (List.length s) lg /\ captures_are r c lg.
Proof.
  intros opt s f r n c Hs Hr Ht H Hm.
  destruct (m_match_sound opt s f r Hs Hr n c H Hm) as (lg & H1 & H2). exists lg.
  split; [apply mderives_scope; assumption|assumption].
Qed.
Print Assumptions C38_scope.
Theorem C38_scope_same : forall s f r p e lg, scope_check f r = true ->
  (mderives s f r p e lg <-> tderives s f r p e lg).
Proof. exact mderives_scope. Qed.
Print Assumptions C38_scope_same.

Example C38_ex_covered : forallb (fun p => msound_check false plain_mode (rx p))
  ["((?i)a)b"; "(?:(?i)a)*b"; "x(?:(?i)a|b)b(?c)c*"; "(?=(?i)a)[aA]b"; "(?m)^a$(?s).^b"; "(?i)a|b";
   "(?>(?i)a+)B"; "(x(?i)y)+\1"; "(?i)[^a]b(?!c)"] = true.
Proof. vm_compute. reflexivity. Qed.
Example C38_ex_tidy :
  map (fun p => scope_check plain_mode (rx p))
    ["(?:(?i)a)*b"; "a(?i)b"; "x(?:a|(?i)b)"; "(?=(?i)a)[aA]b"; "(?>(?i)a+)B"; "((?i)a)b"; "(?i)a|b"]
  = [true; true; true; true; true; false; false].
Proof. vm_compute. reflexivity. Qed.
(** The switch stays in the repetition and leaves the capture. *)
Example C38_ex_repetition :
  map (fun t => match ctre_match false 100 (codes t) plain_mode (rx "(?:(?i)a)*b") with Ok c => matched c | _ => false end)
    ["aAb"; "aAB"; "b"; "B"] = [true; false; true; false].
Proof. vm_compute. reflexivity. Qed.
Example C38_ex_capture :
  map (fun t => match ctre_match false 100 (codes t) plain_mode (rx "((?i)a)b") with Ok c => matched c | _ => false end)
    ["ab"; "AB"; "aB"; "Ac"] = [true; true; true; false].
Proof. vm_compute. reflexivity. Qed.

(** * C02, C38: completeness *)
(** What the pattern describes is found. *)
Lemma complete_parts : forall opt f r tl s, forallb val_ok s = true -> mcomplete_check opt f r tl = true ->
  mfragment f r = true /\ acheck (modes_in f r) r (ends tl) = true /\ commit_check f r tl = true
  /\ mow opt s (modes_in f r) (find_captures r) r tl.
Proof.
  intros opt f r tl s Hs H. unfold mcomplete_check, mpriority_check in H.
  apply andb_true_iff in H as [H H1]. apply andb_true_iff in H as [H H2]. apply andb_true_iff in H as [H3 H4].
  repeat (split; [assumption|]). apply mow_check_sound; assumption.
Qed.
Theorem C38_match_complete : forall opt s f r n c lg, forallb val_ok s = true ->
  mcomplete_check opt f r tail_match = true ->
  ctre_match opt n s f r = Ok c -> mderives s f r 0 (List.length s) lg -> matched c = true.
Proof.
  intros opt s f r n c lg Hs H. destruct (complete_parts _ _ _ _ s Hs H) as (H1 & H2 & H3 & H4).
  intros. eapply (m_match_complete opt s f r); eassumption.
Qed.
Print Assumptions C38_match_complete.
Theorem C38_starts_complete : forall opt s f r n c e lg, forallb val_ok s = true ->
  mcomplete_check opt f r tail_starts = true ->
  ctre_starts_with opt n s f r = Ok c -> mderives s f r 0 e lg -> matched c = true.
Proof.
  intros opt s f r n c e lg Hs H. destruct (complete_parts _ _ _ _ s Hs H) as (H1 & H2 & H3 & H4).
  intros. eapply (m_starts_complete opt s f r); eassumption.
Qed.
Print Assumptions C38_starts_complete.
Theorem C38_search_complete : forall opt s f r n c p e lg, forallb val_ok s = true ->
  mcomplete_check opt f r tail_starts = true -> well_numbered r -> starts_with_anchor f r = false ->
  ctre_search opt n s f r = Ok c -> p <= List.length s -> mderives s f r p e lg ->
  matched c = true /\ exists b e' lg', group c 0 = Some (b, e') /\ b <= p /\ mderives s f r b e' lg' /\
    forall p' e2 lg2, p' < b -> ~ mderives s f r p' e2 lg2.
Proof.
  intros opt s f r n c p e lg Hs H. destruct (complete_parts _ _ _ _ s Hs H) as (H1 & H2 & H3 & H4).
  intros. eapply (m_search_complete opt s f r); eassumption.
Qed.
Print Assumptions C38_search_complete.
(** The whole-subject call decides the textual reading of the pattern. *)
Theorem C38_scope_iff : forall opt s f r n c, forallb val_ok s = true -> msound_check opt f r = true ->
  mcomplete_check opt f r tail_match = true -> scope_check f r = true -> ctre_match opt n s f r = Ok c ->
  (matched c = true <-> exists lg, tderives s f r 0 (List.length s) lg).
Proof.
  intros opt s f r n c Hs H1 H2 H3 H. split.
  - intros Hm. destruct (C38_scope opt s f r n c Hs H1 H3 H Hm) as (lg & Hd & _). exists lg. exact Hd.
  - intros (lg & Hd). apply (mderives_scope s f r 0 _ lg H3) in Hd.
    exact (C38_match_complete opt s f r n c lg Hs H2 H Hd).
Qed.
Print Assumptions C38_scope_iff.

(** * C03: priority *)
(** The captures are those of the preferred outcome, switches included. *)
Theorem C03_modes : forall opt s f r n, forallb val_ok s = true -> mpriority_check opt f r tail_match = true ->
  match whole opt n s f r 0 with
  | Ok c => exists lg rest, filter (at_end_st s) (moutcomes false s f r 0) = (List.length s, lg) :: rest /\
      captures_are r c lg
  | No => filter (at_end_st s) (moutcomes false s f r 0) = []
  | _ => True
  end.
Proof.
  intros opt s f r n Hs H. unfold mpriority_check in H.
  apply andb_true_iff in H as [H H2]. apply andb_true_iff in H as [H3 H4].
  apply m_match_priority; try assumption. apply mow_check_sound; assumption.
Qed.
Print Assumptions C03_modes.
Theorem C03_modes_prefix : forall opt s f r n p, forallb val_ok s = true -> p <= List.length s ->
  mpriority_check opt f r tail_starts = true ->
  match attempt opt n s f r p with
  | Ok c => exists e lg rest, moutcomes false s f r p = (e, lg) :: rest /\
      s_end (c0 c) = Some e /\ captures_are r c lg
  | No => moutcomes false s f r p = []
  | _ => True
  end.
Proof.
  intros opt s f r n p Hs Hp H. unfold mpriority_check in H.
  apply andb_true_iff in H as [H H2]. apply andb_true_iff in H as [H3 H4].
  apply m_attempt_priority; try assumption. apply mow_check_sound; assumption.
Qed.
Print Assumptions C03_modes_prefix.
(** The enumeration is the one of C03 when there is no switch, and its members are the derivations. *)
Theorem C03_modes_plain : forall s f r p, no_switch r = true -> moutcomes false s f r p = outcomes false s f r p.
Proof.
  intros s f r p H. unfold moutcomes, outcomes. rewrite menum_plain by exact H.
  rewrite map_map. apply map_id.
Qed.
Print Assumptions C03_modes_plain.
Theorem C03_modes_derivations : forall s f r p e lg, forallb val_ok s = true -> p <= List.length s ->
  plain_check r = true -> (In (e, lg) (moutcomes false s f r p) <-> mderives s f r p e lg).
Proof. intros s f r p e lg Hs Hp Hr. apply m_derives_outcome; assumption. Qed.
Print Assumptions C03_modes_derivations.

(** * C30: the greedy optimisation *)
Definition mopt_check (f : flags) (r : re) (tl : list atom) : bool :=
  mfragment f r && mow_check true (modes_in f r) r tl.
Theorem C30_modes_match : forall s f r n n' c c', forallb val_ok s = true -> well_numbered r ->
  mopt_check f r tail_match = true ->
  ctre_match true n s f r = Ok c -> ctre_match false n' s f r = Ok c' -> same_result c c'.
Proof.
  intros s f r n n' c c' Hs Hw H. apply andb_true_iff in H as [H1 H2].
  apply m_match_opt; try assumption. apply mow_check_sound; assumption.
Qed.
Print Assumptions C30_modes_match.
Theorem C30_modes_search : forall s f r n n' c c', forallb val_ok s = true -> well_numbered r ->
  mopt_check f r tail_starts = true ->
  ctre_search true n s f r = Ok c -> ctre_search false n' s f r = Ok c' -> same_result c c'.
Proof.
  intros s f r n n' c c' Hs Hw H. apply andb_true_iff in H as [H1 H2].
  apply m_search_opt; try assumption. apply mow_check_sound; assumption.
Qed.
Print Assumptions C30_modes_search.

Example C38_ex_complete : forallb (fun p => mcomplete_check true plain_mode (rx p) tail_match
    && mcomplete_check false plain_mode (rx p) tail_match && mopt_check plain_mode (rx p) tail_match)
  ["((?i)a)b"; "(?:(?i)a)*b"; "a*b(?i)c"; "(a*)b(?i)c"; "(?i)a*b|c"; "x(?:a|(?i)b)"; "(?m)^a$(?s).^b"; "(x(?i)y)+\1"]
  = true.
Proof. vm_compute. reflexivity. Qed.
Example C38_ex_scope_iff : forallb (fun p => mcomplete_check true plain_mode (rx p) tail_match
    && msound_check true plain_mode (rx p) && scope_check plain_mode (rx p))
  ["a*b(?i)c"; "x(?:a|(?i)b)"; "(?m)^a$(?s).^b"] = true.
Proof. vm_compute. reflexivity. Qed.
(** The possessive loop for [a*] does not eat the [B] that only the mode set before it accepts. *)
Example C30_ex_modes :
  map (fun opt => map (fun t => match ctre_match opt 100 (codes t) plain_mode (rx "(?i)(a*)b(?c)c") with
    | Ok c => (matched c, group c 1) | _ => (false, None) end) ["aABc"; "AbC"; "Bc"]) [true; false]
  = [[(true, Some (0, 2)); (false, None); (true, Some (0, 0))];
     [(true, Some (0, 2)); (false, None); (true, Some (0, 0))]].
Proof. vm_compute. reflexivity. Qed.
Example C03_ex_modes :
  moutcomes false (codes "aAb") plain_mode (rx "((?i)a*)(A|b)?") 0
  = [(3, [(2, (2, 3)); (1, (0, 2))]); (2, [(1, (0, 2))]); (2, [(2, (1, 2)); (1, (0, 1))]);
     (1, [(1, (0, 1))]); (1, [(2, (0, 1)); (1, (0, 0))]); (0, [(1, (0, 0))])].
Proof. vm_compute. reflexivity. Qed.
(** The exclusiveness behind the optimisation also holds for letters under case folding. *)
Example C30_ex_folded : forallb (fun p => complete_check true (mkFlags false false true) (rx p) tail_match)
  ["a*b"; "[a-z]+1"; "[a-y]*z"; "(?:ab)*c"] = true
  /\ map (fun t => match ctre_match true 100 (codes t) (mkFlags false false true) (rx "[a-y]*Z") with
      | Ok c => matched c | _ => false end) ["aBz"; "ABZ"; "az1"] = [true; true; false].
Proof. vm_compute. auto. Qed.
