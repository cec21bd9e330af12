(** A [ctre::utf8_range] as the subject: C70.

    [on_utf8_range], [range_utf8_range] (Utf8Subject.v): the calls; [u8_size], [u8_unit_size], [u8_string]: [size], [unit_size], [to_string]
    of a capture that holds [utf8_iterator]s. [offset t i]: where code point [i] of [t] begins in [encode t]; [reached bs i]: where the
    decoder of utf8.hpp stands after [i] steps over arbitrary bytes. *)
From Coq Require Import List ZArith NArith Bool Lia Arith String.
From Verif Require Import Chars Syntax First Utf8 View Eval Api Actions Parser Spec CharProofs EvalInv ApiProofs Checks Match Term
  Iter IterProofs Utf8Proofs Views RangeSim Mode ModeSem ModeCalls ModeTop Compiles Total Numbering RangeSpec RangeEnd
  Possess Committed CommittedRefine CommittedTop RangeExact Utf8Subject Properties2 Properties6 Properties28 Properties34 Properties39.
Import ListNotations.
Local Open Scope string_scope.
Local Open Scope list_scope.

(** * C70 *)
(** On the encoding of a text every pattern works as on the code points, lazy repetitions and back references too. *)
Theorem C70_text : forall props u r, compile props u = CRegex r -> forall t, wf_text t -> forall a opt n f,
  on_utf8_range true a opt n (encode t) f r = move_res (offset t) (on_array a opt n t f r).
Proof. exact (fun props u r H t wf a opt n f => utf8_range_text t wf a opt n f r (compiled_well_numbered props u r H)). Qed.
Print Assumptions C70_text.
Theorem C70_text_ranges : forall props u r, compile props u = CRegex r -> forall t, wf_text t -> forall a opt n f,
  range_utf8_range true a opt n (encode t) f r = move_list (offset t) (range_array a opt n t f r).
Proof. exact (fun props u r H t wf a opt n f => range_utf8_range_text t wf a opt n f r (compiled_well_numbered props u r H)). Qed.
Print Assumptions C70_text_ranges.
(** On any bytes: patterns that do not step back work as on what the decoder reads. *)
Theorem C70_bytes : forall props u r, compile props u = CRegex r -> u8_range_ok false r = true -> forall bs, Forall byte bs -> forall a opt n f,
  on_utf8_range false a opt n bs f r = move_res (reached bs) (on_array a opt n (decode bs) f r).
Proof. exact (fun props u r H K bs B a opt n f => utf8_range_bytes bs B a opt n f r (compiled_well_numbered props u r H) K). Qed.
Print Assumptions C70_bytes.
Theorem C70_bytes_ranges : forall props u r, compile props u = CRegex r -> u8_range_ok false r = true -> forall bs, Forall byte bs -> forall a opt n f,
  range_utf8_range false a opt n bs f r = move_list (reached bs) (range_array a opt n (decode bs) f r).
Proof. exact (fun props u r H K bs B a opt n f => range_utf8_range_bytes bs B a opt n f r (compiled_well_numbered props u r H) K). Qed.
Print Assumptions C70_bytes_ranges.
(** So nothing outside the subject is read. *)
Theorem C70_memory : forall props u r, compile props u = CRegex r -> forall a opt n f,
  (forall t, wf_text t -> on_utf8_range true a opt n (encode t) f r <> UB) /\
  (forall bs, Forall byte bs -> u8_range_ok false r = true -> on_utf8_range false a opt n bs f r <> UB).
Proof.
  intros props u r H a opt n f. pose proof (compiled_well_numbered props u r H) as Hw. split.
  - intros t wf. rewrite utf8_range_text by assumption. pose proof (on_array_no_ub a opt n t f r Hw) as N0.
    destruct (on_array a opt n t f r); cbn [move_res]; congruence.
  - intros bs B K. rewrite utf8_range_bytes by assumption. pose proof (on_array_no_ub a opt n (decode bs) f r Hw) as N0.
    destruct (on_array a opt n (decode bs) f r); cbn [move_res]; congruence.
Qed.
Print Assumptions C70_memory.

(** Captures: [size] counts code points, [unit_size] code units, and [to_string] is the encoding of the captured text. *)
Theorem C70_captures : forall props u r, compile props u = CRegex r -> forall t, wf_text t -> forall a opt n f c id sl,
  on_utf8_range true a opt n (encode t) f r = Ok c -> matched c = true -> get_id id c = Some sl -> s_m sl = true ->
  exists b e, b <= e <= List.length t /\ group c id = Some (offset t b, offset t e) /\
    (forall fuel, List.length t <= fuel -> u8_size (encode t) fuel sl = Ok (List.length (text t b e))) /\
    u8_unit_size sl = Ok (List.length (encode (text t b e))) /\ u8_string (encode t) sl = Ok (encode (text t b e)).
Proof. exact (fun props u r H t wf a opt n f c id sl => captures_text t wf a opt n f r c id sl (compiled_well_numbered props u r H)). Qed.
Print Assumptions C70_captures.
(** On any bytes [size] counts the characters the decoder reads; [to_string] is inside the bytes just when the end of the capture is. *)
Theorem C70_captures_bytes : forall props u r, compile props u = CRegex r -> u8_range_ok false r = true -> forall bs, Forall byte bs ->
  forall a opt n f c id sl,
  on_utf8_range false a opt n bs f r = Ok c -> matched c = true -> get_id id c = Some sl -> s_m sl = true ->
  exists b e, b <= e <= List.length (decode bs) /\ group c id = Some (reached bs b, reached bs e) /\
    (forall fuel, List.length (decode bs) <= fuel -> u8_size bs fuel sl = Ok (e - b)) /\
    u8_unit_size sl = Ok (reached bs e - reached bs b) /\
    u8_string bs sl = (if Nat.leb (reached bs e) (List.length bs) then Ok (text bs (reached bs b) (reached bs e)) else UB).
Proof.
  exact (fun props u r H K bs B a opt n f c id sl => captures_bytes bs B a opt n f r c id sl (compiled_well_numbered props u r H) K).
Qed.
Print Assumptions C70_captures_bytes.
(** That end can lie outside: a sequence cut short at the end of the bytes, and [to_string] reads beyond them. *)
Theorem C70_overread_refuted : exists u r bs c sl, compile no_props u = CRegex r /\ u8_range_ok false r = true /\ Forall byte bs /\
  on_utf8_range false MMatch true 50 bs plain_mode r = Ok c /\ matched c = true /\ get_id 0 c = Some sl /\ u8_string bs sl = UB.
Proof.
  exists (codes "."), (rx "."), [226%Z]. eexists. eexists. split; [vm_compute; reflexivity|]. split; [reflexivity|].
  split; [repeat constructor; unfold byte; lia|]. split; [vm_compute; reflexivity|]. repeat split; vm_compute; reflexivity.
Qed.
Print Assumptions C70_overread_refuted.

(** With the exact meaning of C64 and C69: no condition on lazy repetitions or back references beyond theirs. *)
Theorem C70_exact : forall props u r a opt t f, compile props u = CRegex r -> wf_text t -> meant_check f r = true ->
  terminating r = true -> compiles opt true r (tail_of a) = true ->
  exists c c', answers (fun n => on_utf8_range true a opt n (encode t) f r) c' /\ tells r c (hd_error (means a opt t f r)) /\
    matched c' = matched c /\ forall id, group c' id = option_map (move_span (offset t)) (group c id).
Proof.
  intros props u r a opt t f Hr Ht K T C. destruct (C64_exact props u r a opt t f Hr (scalars_ok t Ht) K T C) as (c & (N0 & A) & H).
  exists c, (move (offset t) c). split; [|split; [exact H|apply moved]]. exists N0. intros m Hm.
  rewrite (C70_text props u r Hr t Ht), A by exact Hm. reflexivity.
Qed.
Print Assumptions C70_exact.
Theorem C70_exact_ranges : forall props u r a opt t f, compile props u = CRegex r -> wf_text t -> exact_check opt f r = true ->
  if exact_ends a opt t f r then
    exists l N, (forall n, N <= n -> range_utf8_range true a opt n (encode t) f r = Ok (map (move (offset t)) l)) /\
      Forall2 (reports r) l (exact_list a opt t f r)
  else forall n, range_utf8_range true a opt n (encode t) f r = Fuel.
Proof.
  intros props u r a opt t f Hu Ht H. pose proof (C69_exact props u r a opt t f Hu (scalars_ok t Ht) H) as E.
  destruct (exact_ends a opt t f r).
  - destruct E as (l & N & L1 & L2). exists l, N. split; [|exact L2]. intros n Hn. rewrite (C70_text_ranges props u r Hu t Ht).
    rewrite L1 by exact Hn. reflexivity.
  - intros n. rewrite (C70_text_ranges props u r Hu t Ht), E. reflexivity.
Qed.
Print Assumptions C70_exact_ranges.

(** ** Examples *)
Definition ee : Z := 233%Z.
Definition shown8 (x : res caps) : option (bool * list (option (nat * nat))) :=
  match x with Ok c => Some (matched c, map (group c) [0; 1]) | _ => None end.
(** A back reference to a two-byte character, and a lazy repetition over one: not so on a [u8string_view], right here. *)
Example C70_ex_back :
  shown8 (on_utf8_range true MSearch true 80 (encode [ee; 120%Z; 120%Z; ee; ee]) plain_mode (rx "([^x])\1")) =
    Some (true, [Some (4, 8); Some (4, 6)]) /\
  on_array MSearch true 80 [ee; 120%Z; 120%Z; ee; ee] plain_mode (rx "([^x])\1") <> No /\
  shown8 (on_u8 true MSearch true 80 (encode [ee; 120%Z; 120%Z; ee; ee]) plain_mode (rx "([^x])\1")) <>
    Some (true, [Some (4, 8); Some (4, 6)]).
Proof. vm_compute. repeat split; discriminate. Qed.
Example C70_ex_lazy :
  shown8 (on_utf8_range true MStarts true 80 (encode [ee; ee; 98%Z; 98%Z]) plain_mode (rx "(.*?)b")) = Some (true, [Some (0, 5); Some (0, 4)]) /\
  shown8 (on_utf8_range true MMatch true 80 (encode [120%Z; ee]) plain_mode (RSeq [RRep Lazy 0 0 [RCls (CChar 120)]; RCls (CChar ee)])) =
    Some (true, [Some (0, 3); None]) /\
  shown8 (on_u8 true MMatch true 80 (encode [120%Z; ee]) plain_mode (RSeq [RRep Lazy 0 0 [RCls (CChar 120)]; RCls (CChar ee)])) =
    Some (false, [None; None]).
Proof. vm_compute. repeat split; reflexivity. Qed.
(** [size], [unit_size] and [to_string] of that group. *)
Example C70_ex_sizes :
  match on_utf8_range true MStarts true 80 (encode [ee; ee; 98%Z; 98%Z]) plain_mode (rx "(.*?)b") with
  | Ok c => match get_id 1 c with
            | Some sl => Some (u8_size (encode [ee; ee; 98%Z; 98%Z]) 9 sl, u8_unit_size sl, u8_string (encode [ee; ee; 98%Z; 98%Z]) sl)
            | None => None
            end
  | _ => None
  end = Some (Ok 2, Ok 4, Ok (encode [ee; ee])).
Proof. vm_compute. reflexivity. Qed.
Example C70_ex_ranges :
  spans (range_utf8_range true GSearchAll true 80 (encode [ee; ee; 98%Z; ee; 98%Z]) plain_mode (rx "[^b]+?b")) = Some [Some (0, 5); Some (5, 8)] /\
  spans (range_utf8_range true GSplit true 80 (encode [ee; 98%Z; 98%Z; ee]) plain_mode (rx "(b)\1")) = Some [Some (0, 2); Some (4, 6)].
Proof. vm_compute. split; reflexivity. Qed.
(** Cut short: one character, three units, one of them there. *)
Example C70_ex_cut :
  match on_utf8_range false MSearch true 80 [120%Z; 226%Z] plain_mode (rx "[^x]") with
  | Ok c => match get_id 0 c with
            | Some sl => Some (group c 0, u8_size [120%Z; 226%Z] 9 sl, u8_unit_size sl, u8_string [120%Z; 226%Z] sl)
            | None => None
            end
  | _ => None
  end = Some (Some (1, 4), Ok 1, Ok 3, UB).
Proof. vm_compute. reflexivity. Qed.
