(** Kinds of subject: NUL-terminated (C09), UTF-8 (C10, C11, C12); letter case (C19). *)
From Coq Require Import List ZArith NArith Bool Lia String.
From Verif Require Import Chars Syntax Utf8 View Eval Api Parser Spec CharProofs ApiProofs Utf8Proofs Views Properties2.
Import ListNotations.
Local Open Scope string_scope.
Local Open Scope list_scope.

(** * C09 *)
(** [on_pointer a opt n mem f r]: [match], [starts_with] or [search] on a [const char *] to storage
    [mem]; [on_array] is the call on a string view. Any read outside the storage is [UB]. *)
Theorem C09_same : forall s rest, ~ In 0%Z s -> forall a opt n f r, well_numbered r ->
  on_pointer a opt n (s ++ 0%Z :: rest) f r = on_array a opt n s f r.
Proof. exact pointer_same. Qed.
Print Assumptions C09_same.
Theorem C09_no_read_past_terminator : forall s, ~ In 0%Z s -> forall a opt n f r, well_numbered r ->
  on_pointer a opt n (s ++ [0%Z]) f r <> UB.
Proof. exact pointer_no_ub. Qed.
Print Assumptions C09_no_read_past_terminator.
Theorem C09_calls : on_array MMatch = ctre_match /\ on_array MStarts = ctre_starts_with /\ on_array MSearch = ctre_search.
Proof. exact on_array_calls. Qed.
Print Assumptions C09_calls.
Example C09_ex : exists c, on_pointer MSearch true 100 (codes "on 2024/11/17." ++ [0; 55; 0]%Z)%list plain_mode date_re = Ok c /\
  matched c = true /\ group c 0 = Some (3, 13) /\ group c 2 = Some (8, 10).
Proof. eexists. vm_compute. repeat split. Qed.
(** Without the terminator the storage is left. *)
Example C09_ex_unterminated : on_pointer MMatch true 100 (codes "aaa") plain_mode (rx "a*") = UB.
Proof. vm_compute. reflexivity. Qed.

(** * C11 *)
(** [encode1] is the arithmetic definition of UTF-8, [scalar] the code points that have an encoding. *)
Theorem C11_dereference : forall c pre post len, scalar c -> List.length pre + List.length (encode1 c) <= len ->
  utf8_get (pre ++ encode1 c ++ post) len (List.length pre) = Some c.
Proof. exact get_encoded. Qed.
Print Assumptions C11_dereference.
Theorem C11_increment : forall c pre post strict, scalar c ->
  utf8_next strict (pre ++ encode1 c ++ post) (List.length pre) = Some (List.length pre + List.length (encode1 c)).
Proof. exact next_encoded. Qed.
Print Assumptions C11_increment.
Theorem C11_decrement : forall c pre post len, scalar c -> List.length pre + List.length (encode1 c) <= len ->
  utf8_prev (pre ++ encode1 c ++ post) len (List.length pre + List.length (encode1 c)) = Some (List.length pre).
Proof. exact prev_encoded. Qed.
Print Assumptions C11_decrement.
Example C11_ex : map encode1 [0x24; 0xA3; 0x20AC; 0x10348; 0x10FFFF]%Z =
  [[0x24]; [0xC2; 0xA3]; [0xE2; 0x82; 0xAC]; [0xF0; 0x90; 0x8D; 0x88]; [0xF4; 0x8F; 0xBF; 0xBF]]%Z.
Proof. vm_compute. reflexivity. Qed.
(** A whole text. *)
Theorem C11_text : forall t, wf_text t -> forall i c, nth_error t i = Some c -> let mem := encode t in let len := List.length mem in
  utf8_get mem len (offset t i) = Some c /\ utf8_next true mem (offset t i) = Some (offset t (S i)) /\
  utf8_prev mem len (offset t (S i)) = Some (offset t i).
Proof. exact text_steps. Qed.
Print Assumptions C11_text.

(** * C10 *)
(** [u8_ok true r]: no lazy quantifier and no backreference (the latter does not compile on UTF-8
    subjects). [move_res (offset t)] translates every index of the result to a code unit offset. *)
Theorem C10_same : forall t, wf_text t -> forall a opt n f r, well_numbered r -> u8_ok true r = true ->
  on_u8 true a opt n (encode t) f r = move_res (offset t) (on_array a opt n t f r).
Proof. exact text_same. Qed.
Print Assumptions C10_same.
(** ASCII text that a NUL follows in memory: lazy quantifiers included. *)
Theorem C10_ascii : forall t rest, ascii_text t -> forall a opt n f r, well_numbered r -> u8_lazy_ok r = true ->
  on_u8_part true a opt n (t ++ 0%Z :: rest) (List.length t) f r = on_array a opt n t f r.
Proof. exact ascii_same. Qed.
Print Assumptions C10_ascii.
Definition greek : list Z := [0x3b1; 0x20ac; 0x1F600; 98; 0x3c9]%Z.
Definition greek_re : re :=
  RSeq [RCap 1 [RRep Greedy 1 0 [RCls (CRange 0x370 0x3ff)]]; RAny; RBehind false [RCls (CChar 0x20ac)];
        RCap 2 [RRep Possessive 0 0 [RCls (CNeg [CChar 98])]]; RBound word_chars; RCls (CChar 98)].
Example C10_ex : wf_text greek /\ well_numbered greek_re /\ u8_ok true greek_re = true /\
  exists c c', on_array MSearch true 100 greek plain_mode greek_re = Ok c /\ group c 0 = Some (0, 4) /\ group c 2 = Some (2, 3) /\
    on_u8 true MSearch true 100 (encode greek) plain_mode greek_re = Ok c' /\ group c' 0 = Some (0, 10) /\ group c' 2 = Some (5, 9).
Proof.
  split; [unfold wf_text, greek, scalar; repeat constructor; lia|]. split; [apply numbered_spec; vm_compute; reflexivity|].
  split; [vm_compute; reflexivity|]. eexists. eexists. vm_compute. repeat split.
Qed.
(** [x*?č] does not match "xč": after a lazy repetition the rest is matched code unit by code unit. And
    on a view that no NUL follows, memory after the view is read. *)
Theorem C10_lazy_refuted : forall opt, exists t r n c c', wf_text t /\
  on_array MMatch opt n t plain_mode r = Ok c /\ matched c = true /\
  on_u8 true MMatch opt n (encode t) plain_mode r = Ok c' /\ matched c' = false.
Proof.
  intros []; exists [120; 0x10d]%Z, (RSeq [RRep Lazy 0 0 [RCls (CChar 120)]; RCls (CChar 0x10d)]), 50;
    eexists; eexists; (split; [unfold wf_text, scalar; repeat constructor; lia|]); vm_compute; repeat split.
Qed.
Print Assumptions C10_lazy_refuted.
Theorem C10_lazy_overread_refuted : forall opt, exists t r n c, ascii_text t /\
  on_array MMatch opt n t plain_mode r = Ok c /\ matched c = true /\ on_u8 true MMatch opt n (encode t) plain_mode r = UB.
Proof.
  intros []; exists (codes "ab"), (rx "a*?b"), 50; eexists; (split; [unfold ascii_text; cbn; repeat constructor; lia|]); vm_compute; repeat split.
Qed.
Print Assumptions C10_lazy_overread_refuted.

(** * C12 *)
(** [decode bs]: units grouped by the length their lead unit announces, malformed groups read as
    U+FFFD. [reached bs i]: the sum of the first [i] announced lengths. Reads outside of the buffer are
    [UB]; with [strict] also pointers beyond its end. *)
Theorem C12_match : forall bs, Forall byte bs -> forall a opt n f r, well_numbered r -> u8_ok false r = true ->
  on_u8 false a opt n bs f r = move_res (reached bs) (on_array a opt n (decode bs) f r).
Proof. exact bytes_same. Qed.
Print Assumptions C12_match.
Theorem C12_reads_inside : forall bs, Forall byte bs -> forall a opt n f r, well_numbered r -> u8_ok false r = true ->
  on_u8 false a opt n bs f r <> UB.
Proof. exact bytes_reads. Qed.
Print Assumptions C12_reads_inside.
Theorem C12_dereference : forall bs p, Forall byte bs -> p < List.length bs -> utf8_get bs (List.length bs) p <> None.
Proof. exact get_reads. Qed.
Print Assumptions C12_dereference.
Theorem C12_increment : forall bs p, Forall byte bs -> p < List.length bs ->
  exists q, utf8_next false bs p = Some q /\ p < q <= List.length bs + 3.
Proof. exact next_reads. Qed.
Print Assumptions C12_increment.
Theorem C12_decrement : forall bs p, Forall byte bs -> p <= List.length bs ->
  (utf8_prev bs (List.length bs) p <> None <-> exists q b, q < p /\ nth_error bs q = Some b /\ is_trail b = false).
Proof. exact prev_reads. Qed.
Print Assumptions C12_decrement.
Example C12_ex : decode [0x61; 0xC3; 0x28; 0xF0; 0x9F; 0x98; 0x80; 0xFF; 0x80; 0xE2; 0x82]%Z =
    [0x61; 0xFFFD; 0x1F600; 0xFFFD; 0xFFFD; 0xFFFD]%Z /\
  u8_ok false (rx "a(.)[^x]*+(b|.)$") = true /\
  exists c, on_u8 false MMatch true 100 [0x61; 0xC3; 0x28; 0x62]%Z plain_mode (rx "a(.)[^x]$") = Ok c /\ group c 1 = Some (1, 3).
Proof. split; [vm_compute; reflexivity|]. split; [vm_compute; reflexivity|]. eexists. vm_compute. split; reflexivity. Qed.
(** A truncated sequence at the end: the match of [.] ends two units after the end of the buffer. *)
Theorem C12_overshoot_refuted : forall opt, exists bs r n c b e, Forall byte bs /\
  on_u8 false MMatch opt n bs plain_mode r = Ok c /\ matched c = true /\ group c 0 = Some (b, e) /\ List.length bs < e.
Proof.
  intros []; exists [0xE2]%Z, (rx "."), 50; eexists; exists 0, 3; (split; [repeat constructor; unfold byte; lia|]);
    vm_compute; repeat split; repeat constructor.
Qed.
Print Assumptions C12_overshoot_refuted.
(** A buffer that begins with a continuation unit: looking back reads before the buffer. *)
Theorem C12_underrun_refuted : forall opt, exists bs n, Forall byte bs /\
  on_u8 false MMatch opt n bs plain_mode (rx ".\ba") = UB /\ on_u8 false MMatch opt n bs ml_mode (rx ".^a") = UB /\
  on_u8 false MMatch opt n bs plain_mode (rx ".(?<=x)a") = UB.
Proof.
  intros []; exists [0x80; 0x61]%Z, 50; (split; [repeat constructor; unfold byte; lia|]); vm_compute; repeat split.
Qed.
Print Assumptions C12_underrun_refuted.

(** * C19 *)
(** [case_variant x x']: equal, or the two cases of one ASCII letter. [folding r]: no backreference, no
    switch to case-sensitive, every class accepts both or neither case of each letter when matched
    case-insensitively ([ok_folds] below: all classes but those with a range across cases or a Unicode
    property). With and without the greedy optimisation. *)
Theorem C19_flip : forall s s' f r, Forall2 case_variant s s' -> f_ci f = true -> folding r = true -> well_numbered r ->
  forall a opt n, on_array a opt n s' f r = on_array a opt n s f r.
Proof. exact flip_same. Qed.
Print Assumptions C19_flip.
Theorem C19_classes : forall k, cls_ok true k = true -> no_prop k = true -> folds k = true.
Proof. exact ok_folds. Qed.
Print Assumptions C19_classes.
Theorem C19_subject_without_letters : forall s f f' r, forallb (fun v => negb (is_alpha v)) s = true -> same_but_case f f' ->
  well_numbered r -> forall a opt n, on_array a opt n s f' r = on_array a opt n s f r.
Proof. exact no_letter_subject. Qed.
Print Assumptions C19_subject_without_letters.
(** [caseless r]: no literal letter, every class is [indifferent]. *)
Theorem C19_pattern_without_letters : forall s f f' r, caseless r = true -> same_but_case f f' -> well_numbered r ->
  forall a opt n, on_array a opt n s f' r = on_array a opt n s f r.
Proof. exact no_letter_pattern. Qed.
Print Assumptions C19_pattern_without_letters.
Example C19_ex : forallb (fun t => folding (rx t)) ["[a-f]+\w(b|C)*?x"; "[^a-c]Hello(?=[X-Z])"; "(?i)[_a-z]{2,3}+$"] = true /\
  forallb (fun t => caseless (rx t)) ["\d+-\w*\s"; "([^0-9]*)\1"; "[[:alpha:]]+(?:1|2)"] = true /\
  exists c, on_array MSearch true 100 (codes "??hElLoZ") ci_mode (rx "[^a-c]Hello(?=[X-Z])") = Ok c /\ group c 0 = Some (1, 7).
Proof. split; [vm_compute; reflexivity|]. split; [vm_compute; reflexivity|]. eexists. vm_compute. split; reflexivity. Qed.
(** [[Z-a]] accepts "Z" and not "z". *)
Theorem C19_range_refuted : forall opt, exists s s' r n c c', Forall2 case_variant s s' /\
  on_array MMatch opt n s ci_mode r = Ok c /\ matched c = true /\ on_array MMatch opt n s' ci_mode r = Ok c' /\ matched c' = false.
Proof.
  intros []; exists (codes "Z"), (codes "z"), (rx "[Z-a]"), 50; eexists; eexists;
    (split; [constructor; [right; reflexivity|constructor]|]); vm_compute; repeat split.
Qed.
Print Assumptions C19_range_refuted.
(** [(a)\1] accepts "aa" and not "aA". *)
Theorem C19_backreference_refuted : forall opt, exists s s' r n c c', Forall2 case_variant s s' /\
  on_array MMatch opt n s ci_mode r = Ok c /\ matched c = true /\ on_array MMatch opt n s' ci_mode r = Ok c' /\ matched c' = false.
Proof.
  intros []; exists (codes "aa"), (codes "aA"), (rx "(a)\1"), 50; eexists; eexists;
    (split; [constructor; [left; reflexivity|constructor; [right; reflexivity|constructor]]|]); vm_compute; repeat split.
Qed.
Print Assumptions C19_backreference_refuted.
(** [[[:upper:]]] has no letter in the text of the pattern, the modifier changes it. *)
Theorem C19_named_class_refuted : forall opt, exists s r n c c',
  on_array MMatch opt n s plain_mode r = Ok c /\ matched c = false /\ on_array MMatch opt n s ci_mode r = Ok c' /\ matched c' = true /\
  r = rx "[[:upper:]]".
Proof. intros []; exists (codes "a"), (rx "[[:upper:]]"), 50; eexists; eexists; vm_compute; repeat split. Qed.
Print Assumptions C19_named_class_refuted.
