(** The rewriting of the AST while parsing: C35.

    [plain_compile] (Fusion.v) is the same LL(1) parser with actions that do not rewrite: a sequence stays a
    pair, an alternative stays a pair, every construct keeps its content as one node. [fusible] is a
    decidable condition on the unrewritten AST: bounds in order, no possessive repetition directly followed
    by a possessive one, sums of neighbouring bounds below 2^64. *)
From Coq Require Import List ZArith NArith Bool Lia String.
From Verif Require Import Chars Syntax View Eval Api Actions Parser Spec EvalInv EvalTop ApiProofs CharProofs Match Numbering Fusion FusionRuns PlainNumbers Properties2.
Import ListNotations.
Local Open Scope string_scope.
Definition px (p : string) : re := match plain_compile no_props (codes p) with CRegex r => r | _ => RReject end.

(** * C35 *)
(** Every accepted pattern text is accepted without rewriting too, with the same groups; both ASTs derive
    the same texts with the same captures, on every subject and from every position. *)
Theorem C35_language : forall props input r, compile props input = CRegex r ->
  exists r0, plain_compile props input = CRegex r0 /\ find_captures r0 = find_captures r /\
    (fusible r0 = true -> forall s f p e lg, derives s f r0 p e lg <-> derives s f r p e lg).
Proof. exact compiled_language. Qed.
Print Assumptions C35_language.
(** Literals, repetitions (also of groups of alternatives), sequences and alternatives are rewritten here. *)
Example C35_ex :
  let p := "(?<=ab|c)a+a?(?:xy|(?=z)(a)(?>b))|d{2,3}?d{3,4}?|(?:x|yz)*(?:x|yz){2,}" in
  fusible (px p) = true /\ rx p <> px p /\
  rx p = RSelect [
    RSeq [RBehind false [RSelect [RStr [98; 97]%Z; RCls (CChar 99)]]; RRep Greedy 1 0 [RCls (CChar 97)];
      RSelect [RStr [120; 121]%Z; RSeq [RAhead false [RCls (CChar 122)]; RCap 1 [RCls (CChar 97)]; RAtomic [RCls (CChar 98)]]]];
    RRep Lazy 5 7 [RCls (CChar 100)];
    RRep Greedy 2 0 [RSelect [RCls (CChar 120); RStr [121; 122]%Z]]].
Proof. cbn zeta. split; [vm_compute; reflexivity|]. split; [vm_compute; discriminate|vm_compute; reflexivity]. Qed.

(** The matcher decides the same on both ASTs. *)
Theorem C35_match : forall props input r0 r opt opt' n n' s f c c', plain_compile props input = CRegex r0 -> compile props input = CRegex r ->
  fusible r0 = true -> forallb val_ok s = true ->
  sound_check opt f r0 = true -> complete_check opt f r0 tail_match = true -> ctre_match opt n s f r0 = Ok c ->
  sound_check opt' f r = true -> complete_check opt' f r tail_match = true -> ctre_match opt' n' s f r = Ok c' ->
  matched c = matched c'.
Proof. exact plain_match. Qed.
Print Assumptions C35_match.
Theorem C35_search : forall props input r0 r opt opt' n n' s f c c', plain_compile props input = CRegex r0 -> compile props input = CRegex r ->
  fusible r0 = true -> forallb val_ok s = true -> starts_with_anchor f r0 = false -> starts_with_anchor f r = false ->
  sound_check opt f r0 = true -> complete_check opt f r0 tail_starts = true -> ctre_search opt n s f r0 = Ok c ->
  sound_check opt' f r = true -> complete_check opt' f r tail_starts = true -> ctre_search opt' n' s f r = Ok c' ->
  matched c = matched c' /\ (matched c = true -> exists b e e', group c 0 = Some (b, e) /\ group c' 0 = Some (b, e')).
Proof.
  intros props input r0 r opt opt' n n' s f c c' H0 H F V. exact (plain_search props input r0 r opt opt' n n' s f c c' H0 H F V (plain_well_numbered _ _ _ H0)).
Qed.
Print Assumptions C35_search.
Example C35_ex_match :
  let p := "(ab)(?:cde|f)x{1,3}x{2,}y+?y??|z" in let s := codes "abcdexxxxxyy" in
  fusible (px p) = true /\ rx p <> px p /\ sound_check true plain_mode (px p) = true /\ complete_check true plain_mode (px p) tail_match = true /\
  sound_check true plain_mode (rx p) = true /\ complete_check true plain_mode (rx p) tail_match = true /\
  complete_check true plain_mode (px p) tail_starts = true /\ complete_check true plain_mode (rx p) tail_starts = true /\
  starts_with_anchor plain_mode (px p) = false /\ starts_with_anchor plain_mode (rx p) = false /\ ids_ok [] (px p) = true /\
  exists c c', ctre_match true 200 s plain_mode (px p) = Ok c /\ ctre_match true 200 s plain_mode (rx p) = Ok c' /\
    matched c = true /\ matched c' = true /\ group c 1 = Some (0, 2) /\ group c' 1 = Some (0, 2).
Proof.
  cbn zeta. split; [vm_compute; reflexivity|]. split; [vm_compute; discriminate|]. do 9 (split; [vm_compute; reflexivity|]).
  do 2 eexists. split; [vm_compute; reflexivity|]. split; [vm_compute; reflexivity|]. vm_compute. repeat split.
Qed.

(** Neighbouring repetitions of one character class, all three kinds: whatever follows, the preferred
    outcome of the merged repetition is that of the pair. *)
Theorem C35_class_pair : forall s ml ci names cut k a1 b1 a2 b2 c st, in_bounds a1 b1 -> in_bounds a2 b2 -> (a1 + b1 + (a2 + b2) < size_mod)%N ->
  prefer (enums s ml ci names cut [RRep k a1 b1 [RCls c]; RRep k a2 b2 [RCls c]] st)
    (enum s ml ci names cut (combine_repeat k a1 b1 a2 b2 [RCls c]) st).
Proof. exact merged_class. Qed.
Print Assumptions C35_class_pair.
Example C35_ex_pair :
  rx "a?+a{1,2}+" = combine_repeat Possessive 0 1 1 2 [RCls (CChar 97)] /\ rx "a{1,3}a+" = combine_repeat Greedy 1 3 1 0 [RCls (CChar 97)] /\
  map fst (enum (codes "aaaaab") false false (fun _ => None) false (rx "a{1,2}+a{1,2}+") (0, [])) = [4] /\
  map fst (enum (codes "aaaaab") false false (fun _ => None) false (rx "a{1,2}a{1,2}") (0, [])) = [4; 3; 2] /\
  map fst (enum (codes "aaaaab") false false (fun _ => None) false (px "a{1,2}a{1,2}") (0, [])) = [4; 3; 3; 2].
Proof. do 4 (split; [vm_compute; reflexivity|]). vm_compute. reflexivity. Qed.

(** ** Where the rewriting changes the meaning *)
(** Two possessive repetitions merged into a sequence: the arguments are swapped. *)
Theorem C35_possessive_refuted : exists p s, exists n c c', forall opt,
  ctre_match opt n s plain_mode (px p) = Ok c /\ ctre_match opt n s plain_mode (rx p) = Ok c' /\ matched c = false /\ matched c' = true.
Proof. exists "a?+a++b", (codes "ab"), 60. do 2 eexists. intros []; vm_compute; repeat split. Qed.
Print Assumptions C35_possessive_refuted.
Theorem C35_possessive_lost_refuted : exists p s, exists n c c', forall opt,
  ctre_match opt n s plain_mode (px p) = Ok c /\ ctre_match opt n s plain_mode (rx p) = Ok c' /\ matched c = true /\ matched c' = false.
Proof. exists "a++a?+b", (codes "ab"), 60. do 2 eexists. intros []; vm_compute; repeat split. Qed.
Print Assumptions C35_possessive_lost_refuted.
(** Bounds with max < min: the first repetition alone matches nothing. *)
Theorem C35_bounds_refuted : exists p s, exists n c c', forall opt,
  ctre_match opt n s plain_mode (px p) = Ok c /\ ctre_match opt n s plain_mode (rx p) = Ok c' /\ matched c = false /\ matched c' = true.
Proof. exists "a{3,2}a*", (codes "aaa"), 60. do 2 eexists. intros []; vm_compute; repeat split. Qed.
Print Assumptions C35_bounds_refuted.
(** The sum of two bounds wraps around at 2^64: at least 2^64 letters become any number. *)
Theorem C35_overflow_refuted : exists p s, exists n c c', forall opt,
  ctre_match opt n s plain_mode (px p) = Ok c /\ ctre_match opt n s plain_mode (rx p) = Ok c' /\ matched c = false /\ matched c' = true.
Proof. exists "a{18446744073709551615}a{1}", (codes "aa"), 60. do 2 eexists. intros []; vm_compute; repeat split. Qed.
Print Assumptions C35_overflow_refuted.
(** The order of preference is not kept for bodies with several outcomes. *)
Theorem C35_preference_refuted : exists p s rest rest', fusible (px p) = true /\
  outcomes false s plain_mode (px p) 0 = (4, []) :: rest /\ outcomes false s plain_mode (rx p) 0 = (2, []) :: rest'.
Proof.
  exists "(?:a|ab|c){1,2}(?:a|ab|c){1,2}", (codes "aabc"). do 2 eexists. split; [vm_compute; reflexivity|]. split; vm_compute; reflexivity.
Qed.
Print Assumptions C35_preference_refuted.
