(** Spans, relations between the entry points, memory safety: C04-C08, C40.

    Throughout: [opt] is the absence of CTRE_DISABLE_GREEDY_OPT, [n] the fuel of the model (a result
    other than [Fuel] is the result for every larger fuel, [eval_mono]), [s] the subject, [f] the
    flags selected by the modifiers, [r] the AST of the pattern. [well_numbered]: capture identifiers
    are positive and pairwise different, which every parsed pattern satisfies. *)
From Coq Require Import List ZArith NArith Bool Lia String.
From Verif Require Import Chars Syntax View Eval Api Parser Spec EvalMono EvalInv ApiProofs.
Import ListNotations.
Local Open Scope string_scope.

(** [a(b|c)*d] and a subject, used as the concrete case beside the theorems. *)
Definition ex_re : re := match re_of "a(b|cx?)*d" with CRegex r => r | _ => RReject end.
Definition ex_flags : flags := mkFlags false false false.
Example ex_wn : well_numbered ex_re.
Proof. split; [reflexivity|]. repeat constructor; cbn; intuition congruence. Qed.

(** C04 *)
Theorem C04_match_whole : forall opt n s f r c, well_numbered r ->
  ctre_match opt n s f r = Ok c -> matched c = true -> group c 0 = Some (0, List.length s).
Proof. exact match_span. Qed.
Print Assumptions C04_match_whole.
Theorem C04_starts_with_span : forall opt n s f r c, well_numbered r ->
  ctre_starts_with opt n s f r = Ok c -> matched c = true ->
  exists e, group c 0 = Some (0, e) /\ e <= List.length s.
Proof. exact starts_span. Qed.
Print Assumptions C04_starts_with_span.
Theorem C04_search_span : forall opt n s f r c, well_numbered r ->
  ctre_search opt n s f r = Ok c -> matched c = true ->
  exists b e, group c 0 = Some (b, e) /\ b <= e <= List.length s.
Proof. exact search_span. Qed.
Print Assumptions C04_search_span.
Example C04_ex : exists c, ctre_match true 60 (codes "abcbcxd") ex_flags ex_re = Ok c /\
  matched c = true /\ group c 0 = Some (0, 7) /\ group c 1 = Some (4, 6).
Proof. eexists. split; [vm_compute; reflexivity|]. repeat split. Qed.

(** C05: for patterns that the library does not treat as anchored, search succeeds at the smallest
    position where an attempt succeeds, and fails only when every attempt (including the one at the
    end of the subject) fails. *)
Theorem C05_search_leftmost : forall opt n s f r c, well_numbered r ->
  starts_with_anchor f r = false -> ctre_search opt n s f r = Ok c ->
  (matched c = true ->
     exists b e, group c 0 = Some (b, e) /\
       exec_starts_with opt n (arr_view s) (arr_view s) f r b = Ok c /\
       forall p, p < b -> exec_starts_with opt n (arr_view s) (arr_view s) f r p = Ok (fresh r)) /\
  (matched c = false ->
     forall p, p <= List.length s ->
       exec_starts_with opt n (arr_view s) (arr_view s) f r p = Ok (fresh r)).
Proof. exact search_leftmost. Qed.
Print Assumptions C05_search_leftmost.
Example C05_ex : starts_with_anchor ex_flags ex_re = false /\
  exists c, ctre_search true 60 (codes "aababdad") ex_flags ex_re = Ok c /\
    group c 0 = Some (3, 6).
Proof. split; [reflexivity|]. eexists. split; vm_compute; reflexivity. Qed.

(** C06 *)
Theorem C06_match_starts_with : forall opt n s f r c,
  ctre_match opt n s f r = Ok c -> matched c = true ->
  forall n', n' >= n + 2 ->
  exists c', ctre_starts_with opt n' s f r = Ok c' /\ matched c' = true.
Proof. exact match_starts. Qed.
Print Assumptions C06_match_starts_with.
Theorem C06_starts_with_search : forall opt n s f r c,
  ctre_starts_with opt n s f r = Ok c -> matched c = true ->
  forall n', n' >= n -> ctre_search opt n' s f r = Ok c.
Proof. exact starts_search. Qed.
Print Assumptions C06_starts_with_search.
(** Lazy and alternation patterns show that starts_with may report a shorter span. *)
Example C06_ex :
  let r := match re_of "(a+?)(b|bc)" with CRegex r => r | _ => RReject end in
  (exists c, ctre_match true 60 (codes "aabc") ex_flags r = Ok c /\ group c 0 = Some (0, 4)) /\
  (exists c, ctre_starts_with true 60 (codes "aabc") ex_flags r = Ok c /\ group c 0 = Some (0, 3)).
Proof. split; eexists; split; vm_compute; reflexivity. Qed.

(** C07 *)
Theorem C07_capture_spans : forall m opt n s f r c id sl, entry_point m -> well_numbered r ->
  m opt n s f r = Ok c -> matched c = true -> get_id id c = Some sl -> s_m sl = true ->
  exists b e, group c id = Some (b, e) /\ b <= e <= List.length s.
Proof. exact call_groups. Qed.
Print Assumptions C07_capture_spans.
Example C07_ex :
  let r := match re_of "(?:(a)|(b)(?=(c)))*" with CRegex r => r | _ => RReject end in
  exists c, ctre_starts_with true 60 (codes "abc") ex_flags r = Ok c /\
    group c 1 = Some (0, 1) /\ group c 2 = Some (1, 2) /\ group c 3 = Some (2, 3) /\ group c 0 = Some (0, 2).
Proof. eexists. split; [vm_compute; reflexivity|]. repeat split. Qed.

(** C08: undefined behaviour (a read outside the buffer, a step outside [begin, end], an access to an
    unset iterator) never happens on a contiguous subject. *)
Theorem C08_no_out_of_range : forall m opt n s f r, entry_point m -> well_numbered r ->
  m opt n s f r <> UB.
Proof. exact call_no_ub. Qed.
Print Assumptions C08_no_out_of_range.
(** [UB] is a real outcome of the model: a storage without terminating zero, searched as a C string. *)
Example C08_ex : exec_search true 60 (zt_view (codes "aabb")) (zt_view (codes "aabb")) ex_flags
    (RSeq [RCls (CChar 97); RCls (CChar 99)]) 0 = UB /\
  exists c, ctre_search true 60 (codes "aabb") ex_flags (RSeq [RCls (CChar 97); RCls (CChar 99)]) = Ok c.
Proof. split; [vm_compute; reflexivity|]. eexists. vm_compute. reflexivity. Qed.

(** C40 *)
Theorem C40_failed_is_empty : forall m opt n s f r c, entry_point m -> well_numbered r ->
  m opt n s f r = Ok c -> matched c = false -> forall id, group c id = None.
Proof. exact call_failed. Qed.
Print Assumptions C40_failed_is_empty.
(** Here the failing attempt has filled both captures before it fails. *)
Example C40_ex :
  let r := match re_of "(a)(b)c" with CRegex r => r | _ => RReject end in
  exists c, ctre_match true 60 (codes "abd") ex_flags r = Ok c /\ matched c = false.
Proof. eexists. split; vm_compute; reflexivity. Qed.
