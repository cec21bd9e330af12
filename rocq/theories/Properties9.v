(** The numbers of the groups: C32; and the statements of C07, C08, C40 for pattern texts.

    [groups text] (Numbering.v) counts the capturing parentheses of a pattern text by a scan that knows
    nothing of the parser; [numbers r] lists the numbers of the groups of an AST in the order of the text. *)
From Coq Require Import List ZArith NArith Bool Lia String.
From Verif Require Import Chars Syntax View Eval Api Parser Spec EvalInv ApiProofs Numbering Results Properties2.
Import ListNotations.
Local Open Scope string_scope.

(** * C32 *)
(** The n-th capturing parenthesis gets number n. *)
Theorem C32_in_order : forall props input r, compile props input = CRegex r -> several_letters input = false ->
  numbers r = seq 1 (groups input).
Proof. exact all_numbers. Qed.
Print Assumptions C32_in_order.
(** Also with switches of several letters, except that the groups in front of them may be lost. *)
Theorem C32_in_order_switches : forall props input r, compile props input = CRegex r ->
  exists k, k <= groups input /\ numbers r = seq (S k) (groups input - k).
Proof. intros props input r H. destruct (compiled_numbers props input r H) as (k & K1 & K2 & _). eauto. Qed.
Print Assumptions C32_in_order_switches.
Theorem C32_switches_refuted : exists input r, compile no_props input = CRegex r /\ groups input = 2 /\ numbers r = [2].
Proof. exists (codes "(x)(?im)(a)"). eexists. split; [vm_compute; reflexivity|]. split; vm_compute; reflexivity. Qed.
Print Assumptions C32_switches_refuted.
Example C32_ex :
  let p := "((a)|(?i)(b))(?<n>(c))\((?:d)[(](?=(e))(?<=(f)g)(?>(h))" in
  several_letters (codes p) = false /\ groups (codes p) = 8 /\ numbers (rx p) = [1; 2; 3; 4; 5; 6; 7; 8] /\
  (exists l, rx p = RSeq l).
Proof. cbn zeta. repeat split; try (vm_compute; reflexivity). eexists. vm_compute. reflexivity. Qed.
(** The result offers exactly the numbers 0..count when no group hides in a lookbehind or an atomic group. *)
Theorem C32_offered : forall props input r m opt n s f c id, compile props input = CRegex r -> several_letters input = false ->
  hides r = false -> entry_point m -> m opt n s f r = Ok c -> ((exists sl, get_id id c = Some sl) <-> id <= groups input).
Proof. exact offered. Qed.
Print Assumptions C32_offered.
Example C32_offered_ex :
  let p := "((a)|(?i)(b))(?<n>(c))*\((?:d)[(](?=(e))" in
  hides (rx p) = false /\ several_letters (codes p) = false /\ groups (codes p) = 6 /\
  exists c, ctre_search true 200 (codes "Ab(d(e") plain_mode (rx p) = Ok c /\ matched c = true /\
    group c 3 = Some (1, 2) /\ group c 4 = None /\ group c 6 = Some (5, 6).
Proof. cbn zeta. repeat split; try (vm_compute; reflexivity). eexists. vm_compute. repeat split. Qed.
(** Groups inside lookbehinds and atomic groups are not offered; matching such a pattern does not compile. *)
Theorem C32_hidden_refuted : exists input r, compile no_props input = CRegex r /\ several_letters input = false /\
  groups input = 2 /\ numbers r = [1; 2] /\ find_captures r = [(2, None)] /\
  forall opt, ctre_match opt 60 (codes "ab") plain_mode r = Ill.
Proof.
  exists (codes "(?>(a))(b)"). eexists. split; [vm_compute; reflexivity|]. do 4 (split; [vm_compute; reflexivity|]). intros []; vm_compute; reflexivity.
Qed.
Print Assumptions C32_hidden_refuted.
Theorem C32_hidden_behind_refuted : exists input r, compile no_props input = CRegex r /\ several_letters input = false /\
  groups input = 2 /\ numbers r = [1; 2] /\ find_captures r = [(2, None)] /\
  forall opt, ctre_search opt 60 (codes "ab") plain_mode r = Ill.
Proof.
  exists (codes "(?<=(a))(b)"). eexists. split; [vm_compute; reflexivity|]. do 4 (split; [vm_compute; reflexivity|]). intros []; vm_compute; reflexivity.
Qed.
Print Assumptions C32_hidden_behind_refuted.
(** A named group is the group with some number (of its first occurrence). *)
Theorem C32_named : forall props input r m opt n s f c nm sl, compile props input = CRegex r -> entry_point m ->
  m opt n s f r = Ok c -> get_name nm (cl c) = Some sl ->
  exists id, In (id, Some nm) (find_captures r) /\ id <> 0 /\ get_id id c = Some sl.
Proof.
  intros props input r m opt n s f c nm sl H Hm Hc Hn. pose proof (compiled_well_numbered _ _ _ H) as W.
  pose proof (call_entries m opt n s f r c Hm W Hc) as E.
  destruct (name_is_number nm (cl c)) with (sl := sl) as (id & I1 & I2); [rewrite E; apply W|assumption|].
  rewrite E in I1. exists id. split; [assumption|].
  assert (Z : id <> 0).
  { intros ->. destruct (compiled_numbers _ _ _ H) as (k & _ & K & _).
    assert (I : In 0 (map fst (find_captures r))) by (apply in_map_iff; exists (0, Some nm); auto).
    apply (count_occ_In Nat.eq_dec) in I. pose proof (captures_counted r 0). rewrite K in *.
    assert (J : In 0 (seq (S k) (groups input - k))) by (apply (count_occ_In Nat.eq_dec); lia). apply in_seq in J. lia. }
  split; [assumption|]. unfold get_id. apply Nat.eqb_neq in Z. rewrite Z. assumption.
Qed.
Print Assumptions C32_named.
Theorem C32_name_offered : forall props input r m opt n s f c nm id, compile props input = CRegex r -> entry_point m ->
  m opt n s f r = Ok c -> In (id, Some nm) (find_captures r) -> exists sl, get_name nm (cl c) = Some sl.
Proof.
  intros props input r m opt n s f c nm id H Hm Hc I. apply (name_found nm (cl c) id).
  rewrite (call_entries m opt n s f r c Hm (compiled_well_numbered _ _ _ H) Hc). assumption.
Qed.
Print Assumptions C32_name_offered.
Example C32_named_ex : exists c, ctre_match true 60 (codes "ab") plain_mode (rx "(a)(?<n>b)") = Ok c /\
  get_name (codes "n") (cl c) = get_id 2 c /\ group c 2 = Some (1, 2) /\ get_name (codes "m") (cl c) = None.
Proof. eexists. vm_compute. repeat split. Qed.

(** * C07, C08, C40 for every accepted pattern text *)
(** What the type of the result offers at compile time is what it has at run time: [exists<id>], [exists<Name>] and [count()]. *)
Theorem C32_static : forall props input r m opt n s f c, compile props input = CRegex r -> entry_point m -> m opt n s f r = Ok c ->
  (forall id, has_id r id = true <-> exists sl, get_id id c = Some sl) /\
  (forall nm, has_name r nm = true <-> exists sl, get_name nm (cl c) = Some sl) /\
  result_count r = S (List.length (cl c)).
Proof.
  intros props input r m opt n s f c H Hm Hc. pose proof (call_entries m opt n s f r c Hm (compiled_well_numbered _ _ _ H) Hc) as E.
  split; [|split].
  - intros id. unfold has_id, get_id. destruct (Nat.eqb_spec id 0) as [->|N]; [split; eauto|]. cbn [orb].
    rewrite find_id_iff, E, existsb_exists, in_map_iff. split.
    + intros (p & Hp & Ep). apply Nat.eqb_eq in Ep. eauto.
    + intros (p & Ep & Hp). exists p. split; [assumption|]. apply Nat.eqb_eq. assumption.
  - intros nm. unfold has_name. rewrite existsb_exists. split.
    + intros ([id [nm'|]] & Hp & Ep); cbn [snd] in Ep; [|discriminate]. unfold name_eqb in Ep. destruct (list_eq_dec Z.eq_dec nm nm') as [<-|]; [|discriminate].
      apply (C32_name_offered props input r m opt n s f c nm id); assumption.
    + intros (sl & Hs). destruct (C32_named props input r m opt n s f c nm sl H Hm Hc Hs) as (id & I & _). exists (id, Some nm).
      split; [assumption|]. cbn [snd]. unfold name_eqb. destruct (list_eq_dec Z.eq_dec nm nm); congruence.
  - unfold result_count. rewrite <- E, map_length. reflexivity.
Qed.
Print Assumptions C32_static.
(** [count()] is the number of the capturing parentheses of the text, and one. *)
Theorem C32_count : forall props input r, compile props input = CRegex r -> several_letters input = false -> hides r = false ->
  result_count r = S (groups input) /\ forall id, has_id r id = true <-> id <= groups input.
Proof.
  intros props input r H S Hh. pose proof (captures_all r Hh) as E. rewrite (all_numbers _ _ _ H S) in E. split.
  - unfold result_count. rewrite <- (map_length fst), E, seq_length. reflexivity.
  - intros id. unfold has_id. rewrite orb_true_iff, existsb_exists. rewrite Nat.eqb_eq. split.
    + intros [->|(p & Hp & Ep)]; [lia|]. apply Nat.eqb_eq in Ep. assert (I : In id (map fst (find_captures r))) by (apply in_map_iff; eauto).
      rewrite E, in_seq in I. lia.
    + intros L. destruct id as [|id]; [left; reflexivity|]. right. assert (I : In (Datatypes.S id) (map fst (find_captures r))) by (rewrite E, in_seq; lia).
      apply in_map_iff in I as (p & Ep & Hp). exists p. split; [assumption|]. apply Nat.eqb_eq. assumption.
Qed.
Print Assumptions C32_count.
Example C32_count_ex : let r := rx "((a)|(?i)(b))(?<n>(c))*" in result_count r = 6 /\ map (has_id r) [0; 5; 6] = [true; true; false] /\
  has_name r (codes "n") = true /\ has_name r (codes "m") = false.
Proof. vm_compute. repeat split. Qed.
Theorem C32_well_numbered : forall props input r, compile props input = CRegex r -> well_numbered r.
Proof. exact compiled_well_numbered. Qed.
Print Assumptions C32_well_numbered.
Theorem C07_capture_spans_text : forall props input r m opt n s f c id sl, compile props input = CRegex r -> entry_point m ->
  m opt n s f r = Ok c -> matched c = true -> get_id id c = Some sl -> s_m sl = true ->
  exists b e, group c id = Some (b, e) /\ b <= e <= List.length s.
Proof. intros props input r m opt n s f c id sl H Hm. apply call_groups; [assumption|]. eapply compiled_well_numbered; eassumption. Qed.
Print Assumptions C07_capture_spans_text.
Theorem C08_no_out_of_range_text : forall props input r m opt n s f, compile props input = CRegex r -> entry_point m ->
  m opt n s f r <> UB.
Proof. intros props input r m opt n s f H Hm. apply call_no_ub; [assumption|]. eapply compiled_well_numbered; eassumption. Qed.
Print Assumptions C08_no_out_of_range_text.
Theorem C40_failed_is_empty_text : forall props input r m opt n s f c, compile props input = CRegex r -> entry_point m ->
  m opt n s f r = Ok c -> matched c = false -> forall id, group c id = None.
Proof. intros props input r m opt n s f c H Hm. apply call_failed; [assumption|]. eapply compiled_well_numbered; eassumption. Qed.
Print Assumptions C40_failed_is_empty_text.
Example C07_text_ex : exists r c, compile no_props (codes "(a(b)?)+(?!(c))") = CRegex r /\
  ctre_search true 100 (codes "xaab") plain_mode r = Ok c /\ matched c = true /\ group c 2 = Some (3, 4) /\ group c 3 = None.
Proof. eexists. eexists. split; [vm_compute; reflexivity|]. vm_compute. repeat split. Qed.
