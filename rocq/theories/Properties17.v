(** The ranges of iterators.hpp on every kind of subject: C08, C09, C10, C12, C19, C27.

    [range_array a], [range_pointer a], [range_u8 strict a] (RangeSim.v): search_all, tokenize or split ([a]) of a
    string view, of a NUL-terminated string, of a UTF-8 view, listed to the end. Running [n] rounds out is
    [Fuel]; reading outside of the subject, or using an iterator that was never set, is [UB]. *)
From Coq Require Import List ZArith NArith Bool Lia String.
From Verif Require Import Chars Syntax View Eval Api Actions Parser Spec CharProofs EvalInv ApiProofs Match Anchor Iter IterProofs
  Utf8Proofs Views RangeSim Numbering Properties2 Properties4 Properties6.
Import ListNotations.
Local Open Scope string_scope.

(** * C08 *)
Theorem C08_ranges : forall a opt n s f r, well_numbered r -> range_array a opt n s f r <> UB.
Proof. exact range_no_ub. Qed.
Print Assumptions C08_ranges.
Theorem C08_ranges_text : forall props input r a opt n s f, compile props input = CRegex r -> range_array a opt n s f r <> UB.
Proof. exact (fun props input r a opt n s f H => range_no_ub a opt n s f r (compiled_well_numbered props input r H)). Qed.
Print Assumptions C08_ranges_text.
(** The calls that a range makes: the search goes on behind the previous match. *)
Theorem C08_from_anywhere : forall a opt n s f r p, well_numbered r -> p <= List.length s -> a <> MMatch ->
  exec a opt n (arr_view s) (arr_view s) f r p <> UB.
Proof. exact exec_no_ub. Qed.
Print Assumptions C08_from_anywhere.
(** From a position beyond the end it is undefined. *)
Example C08_ranges_ex :
  spans (range_array GSplit true 60 (codes "a1b22c") plain_mode (rx "\d+")) = Some [Some (0, 1); Some (2, 3); Some (5, 6)] /\
  exec MSearch true 60 (arr_view (codes "ab")) (arr_view (codes "ab")) plain_mode (rx "a") 3 = UB.
Proof. vm_compute. repeat split. Qed.

(** * C09 *)
(** No difference to the string view that ends before the NUL, whatever follows. *)
Theorem C09_ranges : forall s rest, ~ In 0%Z s -> forall a opt n f r, well_numbered r ->
  range_pointer a opt n (s ++ 0%Z :: rest) f r = range_array a opt n s f r.
Proof. exact range_pointer_same. Qed.
Print Assumptions C09_ranges.
Example C09_ranges_ex : map (fun a => spans (range_pointer a true 60 (codes "a1b22c" ++ [0; 55; 55]%Z)%list plain_mode (rx "\w\d+")))
    [GSearchAll; GTokenize; GSplit] =
  [Some [Some (0, 2); Some (2, 5)]; Some [Some (0, 2); Some (2, 5)]; Some [Some (0, 0); Some (2, 2); Some (5, 6)]].
Proof. vm_compute. reflexivity. Qed.

(** * C10 *)
Theorem C10_ranges : forall t, wf_text t -> forall a opt n f r, well_numbered r -> u8_ok true r = true ->
  range_u8 true a opt n (encode t) f r = move_list (offset t) (range_array a opt n t f r).
Proof. exact range_text_same. Qed.
Print Assumptions C10_ranges.
(** Greek letters, taken out of "α€😀bω". *)
Definition greek_letters : re := RRep Greedy 1 0 [RCls (CRange 0x370 0x3ff)].
Example C10_ranges_ex : wf_text greek /\ u8_ok true greek_letters = true /\ numbered greek_letters = true /\
  spans (range_array GSearchAll true 60 greek plain_mode greek_letters) = Some [Some (0, 1); Some (4, 5)] /\
  spans (range_u8 true GSearchAll true 60 (encode greek) plain_mode greek_letters) = Some [Some (0, 2); Some (10, 12)] /\
  spans (range_u8 true GSplit true 60 (encode greek) plain_mode greek_letters) = Some [Some (0, 0); Some (2, 10); Some (12, 12)].
Proof. split; [unfold wf_text, greek, scalar; repeat constructor; lia|]. vm_compute. repeat split. Qed.

(** * C12 *)
Theorem C12_ranges : forall bs, Forall byte bs -> forall a opt n f r, well_numbered r -> u8_ok false r = true ->
  range_u8 false a opt n bs f r = move_list (reached bs) (range_array a opt n (decode bs) f r).
Proof. exact range_bytes_same. Qed.
Print Assumptions C12_ranges.
Theorem C12_ranges_read_inside : forall bs, Forall byte bs -> forall a opt n f r, well_numbered r -> u8_ok false r = true ->
  range_u8 false a opt n bs f r <> UB.
Proof. exact range_bytes_reads. Qed.
Print Assumptions C12_ranges_read_inside.
(** A truncated sequence at the end: the last match ends two units behind the view. *)
Example C12_ranges_ex : Forall byte [97; 0xE2]%Z /\
  spans (range_u8 false GSearchAll true 60 [97; 0xE2]%Z plain_mode RAny) = Some [Some (0, 1); Some (1, 4)] /\
  range_u8 true GSearchAll true 60 [97; 0xE2]%Z plain_mode RAny = UB.
Proof. split; [unfold byte; repeat constructor; lia|]. vm_compute. repeat split. Qed.

(** * C19 *)
Theorem C19_ranges : forall s s' f r, Forall2 case_variant s s' -> f_ci f = true -> folding r = true -> well_numbered r ->
  forall a opt n, range_array a opt n s' f r = range_array a opt n s f r.
Proof. exact range_flip_same. Qed.
Print Assumptions C19_ranges.
Example C19_ranges_ex : Forall2 case_variant (codes "xABaby") (codes "XaBABy") /\ folding (rx "a(b)") = true /\
  spans (range_array GSplit true 60 (codes "xABaby") (mkFlags false false true) (rx "a(b)")) = Some [Some (0, 1); Some (3, 3); Some (5, 6)] /\
  spans (range_array GSplit true 60 (codes "xABaby") plain_mode (rx "a(b)")) = Some [Some (0, 3); Some (5, 6)].
Proof.
  split; [cbn; repeat (apply Forall2_cons; [vm_compute; auto|]); apply Forall2_nil|]. vm_compute. repeat split.
Qed.

(** * C27 *)
(** On UTF-8, in code units. *)
Theorem C27_reassemble_utf8 : forall t opt f r n ps, wf_text t -> u8_ok true r = true -> well_numbered r -> zero_safe r = true ->
  starts_with_anchor f r = false -> no_empty opt t f r -> range_u8 true GSplit opt n (encode t) f r = Ok ps ->
  exists l, range_u8 true GSearchAll opt n (encode t) f r = Ok l /\ List.length ps = S (List.length l) /\
    weave (map (span_text (encode t)) ps) (map (span_text (encode t)) l) = encode t.
Proof. exact u8_reassembles. Qed.
Print Assumptions C27_reassemble_utf8.
Example C27_utf8_ex : exists ps l, range_u8 true GSplit true 60 (encode greek) plain_mode greek_letters = Ok ps /\
  range_u8 true GSearchAll true 60 (encode greek) plain_mode greek_letters = Ok l /\
  map (span_text (encode greek)) ps = [[]; encode [0x20ac; 0x1F600; 98]%Z; []] /\
  map (span_text (encode greek)) l = [encode [0x3b1]%Z; encode [0x3c9]%Z].
Proof. eexists. eexists. vm_compute. repeat split. Qed.
