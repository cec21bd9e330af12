(** Results and captures as subjects, pipes, structured bindings: C72.

    [on_part a opt n s b e f r] (Pipe.v): the call on the iterators [s + b], [s + e]; reading outside of these counts as undefined although
    the array goes on. [on_slot]/[on_result]/[range_slot]: on a capture, a result. [text s b e]: the characters between. [shift b x]: the
    outcome [x] on that text as one on [s]. *)
From Coq Require Import List ZArith NArith Bool Lia Arith String.
From Verif Require Import Chars Syntax First Utf8 View Eval Api Actions Parser Spec CharProofs EvalInv ApiProofs Checks Match Term
  Iter IterProofs Utf8Proofs Views RangeSim Mode ModeSem ModeCalls ModeTop Compiles Total Numbering Results Blank RangeSpec RangeEnd
  Possess Committed CommittedRefine CommittedTop RangeExact Utf8Subject Pipe Properties2 Properties6 Properties9 Properties27 Properties34 Properties39.
Import ListNotations.
Local Open Scope string_scope.
Local Open Scope list_scope.

(** * C72 *)
(** A call, or a range, on a part of an array is the one on its text alone, moved: neither anchors nor word boundaries nor lookarounds see
    what is around it. *)
Theorem C72_part : forall props u r, compile props u = CRegex r -> forall s b e, b <= e <= List.length s -> forall a opt n f,
  on_part a opt n s b e f r = move_res (Nat.add b) (on_array a opt n (text s b e) f r).
Proof. exact (fun props u r H s b e L a opt n f => part_same s b e L a opt n f r (compiled_well_numbered props u r H)). Qed.
Print Assumptions C72_part.
Theorem C72_part_ranges : forall props u r, compile props u = CRegex r -> forall s b e, b <= e <= List.length s -> forall a opt n f,
  range_part a opt n s b e f r = move_list (Nat.add b) (range_array a opt n (text s b e) f r).
Proof. exact (fun props u r H s b e L a opt n f => range_part_same s b e L a opt n f r (compiled_well_numbered props u r H)). Qed.
Print Assumptions C72_part_ranges.
(** So what is around does not matter, and is not read. *)
Theorem C72_surroundings : forall props u r, compile props u = CRegex r -> forall x t y a opt n f,
  on_part a opt n (x ++ t ++ y) (List.length x) (List.length x + List.length t) f r = move_res (Nat.add (List.length x)) (on_array a opt n t f r) /\
  on_part a opt n (x ++ t ++ y) (List.length x) (List.length x + List.length t) f r <> UB.
Proof.
  intros props u r H x t y a opt n f. pose proof (compiled_well_numbered props u r H) as Hw.
  assert (T : text (x ++ t ++ y) (List.length x) (List.length x + List.length t) = t).
  { unfold text. rewrite skipn_app, skipn_all, Nat.sub_diag. replace (List.length x + List.length t - List.length x) with (List.length t) by lia. cbn [skipn app].
    rewrite firstn_app, Nat.sub_diag, firstn_all. cbn [firstn]. apply app_nil_r. }
  assert (E : on_part a opt n (x ++ t ++ y) (List.length x) (List.length x + List.length t) f r = move_res (Nat.add (List.length x)) (on_array a opt n t f r)).
  { rewrite part_same; [rewrite T; reflexivity| |exact Hw]. rewrite !app_length. lia. }
  split; [exact E|]. rewrite E. pose proof (on_array_no_ub a opt n t f r Hw). destruct (on_array a opt n t f r); cbn [move_res]; congruence.
Qed.
Print Assumptions C72_surroundings.
(** A capture of a successful call as the subject of the next. *)
Theorem C72_capture : forall props u r u' r', compile props u = CRegex r -> compile props u' = CRegex r' ->
  forall m opt n s f c id sl, entry_point m -> m opt n s f r = Ok c -> matched c = true -> get_id id c = Some sl -> s_m sl = true ->
  exists b e, group c id = Some (b, e) /\ b <= e <= List.length s /\
    (forall a opt' n' f', on_slot a opt' n' s sl f' r' = move_res (Nat.add b) (on_array a opt' n' (text s b e) f' r')) /\
    (forall a opt' n' f', range_slot a opt' n' s sl f' r' = move_list (Nat.add b) (range_array a opt' n' (text s b e) f' r')).
Proof.
  intros props u r u' r' Hr Hr' m opt n s f c id sl Hm H Hc Hg Hs.
  destruct (call_groups m opt n s f r c id sl Hm (compiled_well_numbered _ _ _ Hr) H Hc Hg Hs) as (b & e & G & L). exists b, e.
  split; [exact G|]. split; [exact L|]. unfold group in G. rewrite Hg in G. destruct sl as [[x|] [y|] []]; try discriminate. injection G as -> ->.
  pose proof (compiled_well_numbered _ _ _ Hr') as Hw. unfold on_slot, range_slot. cbn [s_beg s_end].
  destruct (Nat.leb_spec b e); [|lia]. destruct (Nat.leb_spec e (List.length s)); [|lia]. cbn [andb].
  split; intros; [apply part_same|apply range_part_same]; auto; lia.
Qed.
Print Assumptions C72_capture.
(** A group that took no part: both iterators are value-initialised, it reads as the empty text, and as a subject it is the empty one. *)
Theorem C42_missing : forall props u r m opt n s f c id sl, compile props u = CRegex r -> entry_point m -> m opt n s f r = Ok c -> id <> 0 ->
  get_id id c = Some sl -> s_m sl = false ->
  sl = mkSlot None None false /\ to_view s sl = Ok [] /\ to_string s sl = Ok [] /\ slot_size sl = Ok 0 /\ to_optional_view s sl = Ok None.
Proof. exact (fun props u r m opt n s f c id sl H Hm => missing_reads m opt n s f r c id sl Hm (compiled_well_numbered props u r H)). Qed.
Print Assumptions C42_missing.
Theorem C72_missing : forall props u r m opt n s f c id sl, compile props u = CRegex r -> entry_point m -> m opt n s f r = Ok c -> id <> 0 ->
  get_id id c = Some sl -> s_m sl = false -> forall a opt' n' f' r',
  on_slot a opt' n' s sl f' r' = on_array a opt' n' [] f' r' /\
  forall a', range_slot a' opt' n' s sl f' r' = range_array a' opt' n' [] f' r'.
Proof.
  intros props u r m opt n s f c id sl H Hm Hc H0 Hg Hs a opt' n' f' r'.
  destruct (C42_missing props u r m opt n s f c id sl H Hm Hc H0 Hg Hs) as [-> _]. split; reflexivity.
Qed.
Print Assumptions C72_missing.
(** In a repetition: the second round goes the other way, and the group keeps the first; in a lookahead that must fail it is dropped. *)
Example C42_missing_ex :
  match on_array MMatch true 100 (codes "ab") plain_mode (rx "(?:(a)|(b))+(?!(c))(d)?") with
  | Ok c => map (fun i => option_map (fun sl => (group c i, to_view (codes "ab") sl)) (get_id i c)) [1; 2; 3; 4]
  | _ => []
  end = [Some (Some (0, 1), Ok (codes "a")); Some (Some (1, 2), Ok (codes "b")); Some (None, Ok []); Some (None, Ok [])].
Proof. vm_compute. reflexivity. Qed.
(** Searching in a capture is not searching in the subject: what is around would have counted. *)
Theorem C72_context_refuted : exists u r s b e c, compile no_props u = CRegex r /\ b <= e <= List.length s /\
  on_array MSearch true 80 s plain_mode r = Ok c /\ group c 0 = Some (b, e) /\
  exists c', on_part MSearch true 80 s b e plain_mode r = Ok c' /\ matched c' = false.
Proof.
  exists (codes "(?<=x)a"), (rx "(?<=x)a"), (codes "xa"), 1, 2. eexists. split; [vm_compute; reflexivity|]. split; [cbn; lia|].
  split; [vm_compute; reflexivity|]. split; [reflexivity|]. eexists. split; vm_compute; reflexivity.
Qed.
Print Assumptions C72_context_refuted.
Theorem C72_anchor_refuted : exists u r s b e c, compile no_props u = CRegex r /\ b <= e <= List.length s /\
  on_part MSearch true 80 s b e plain_mode r = Ok c /\ group c 0 = Some (b, e) /\
  exists c', on_array MSearch true 80 s plain_mode r = Ok c' /\ matched c' = false.
Proof.
  exists (codes "^b$"), (rx "^b$"), (codes "abc"), 1, 2. eexists. split; [vm_compute; reflexivity|]. split; [cbn; lia|].
  split; [vm_compute; reflexivity|]. split; [reflexivity|]. eexists. split; vm_compute; reflexivity.
Qed.
Print Assumptions C72_anchor_refuted.

(** ** Pipes *)
(** [source | re] for any source whose loop ends with the elements [l]: the results on [l] in turn, without the failures. *)
Theorem C72_pipe : forall src ex none l m cs k, gather src m = Ok l -> Forall2 (fun x c => ex x = Ok c) l cs -> List.length l < k ->
  gather (piped src ex none k) m = Ok (filter matched cs).
Proof. exact pipe_filter. Qed.
Print Assumptions C72_pipe.
(** [range | re1 | re2 | ...] where the range runs over the part [b], [e] of [s] and each stage is [match], [search] or [starts_with]: from
    some fuel on the loop ends, nothing is undefined, and the list is computed by the meaning of the patterns (C64, C69) alone: the pieces
    of the range, each replaced by the outcome of the stage on its text, or dropped. *)
Theorem C72_pipeline : forall props u r a opt s b e f gs, compile props u = CRegex r -> Forall (fun g => exists v, compile props v = CRegex (st_re g)) gs ->
  forallb val_ok s = true -> b <= e <= List.length s -> exact_check opt f r = true -> exact_ends a opt (text s b e) f r = true ->
  forallb (stage_ok opt) gs = true ->
  lists (fun n => gather (pipeline opt n s (range_source a opt n s b e f r) gs) n) (last_re r gs)
    (pipe_list opt s gs (map (shift b) (exact_list a opt (text s b e) f r))).
Proof.
  intros props u r a opt s b e f gs Hr Hgs V L K En C. pose proof (compiled_well_numbered _ _ _ Hr) as Hw.
  pose proof (C69_exact props u r a opt (text s b e) f Hr (val_text s b e V) K) as X. rewrite En in X. destruct X as (l & N & X1 & X2).
  apply (pipeline_means opt s V gs (fun n => range_source a opt n s b e f r) r).
  - exists (map (move (Nat.add b)) l), N. split.
    + intros n Hn. change (range_part a opt n s b e f r = Ok (map (move (Nat.add b)) l)). rewrite range_part_same by assumption.
      rewrite X1 by exact Hn. reflexivity.
    + clear X1. induction X2 as [|c x l' ms H _ IH]; [constructor|]. cbn [map]. constructor; [apply reports_move; exact H|exact IH].
  - apply (inside_shift s b e _ L). apply listed_inside. intros p e' lg. apply exact_range.
  - eapply Forall_impl; [|exact Hgs]. intros g (v & H). exact (compiled_well_numbered _ _ _ H).
  - exact C.
Qed.
Print Assumptions C72_pipeline.
(** On the whole subject. *)
Theorem C72_pipeline_whole : forall props u r a opt s f gs, compile props u = CRegex r -> Forall (fun g => exists v, compile props v = CRegex (st_re g)) gs ->
  forallb val_ok s = true -> exact_check opt f r = true -> exact_ends a opt s f r = true -> forallb (stage_ok opt) gs = true ->
  lists (fun n => gather (pipeline opt n s (range_source a opt n s 0 (List.length s) f r) gs) n) (last_re r gs)
    (pipe_list opt s gs (exact_list a opt s f r)).
Proof.
  intros props u r a opt s f gs Hr Hgs V K En C.
  pose proof (C72_pipeline props u r a opt s 0 (List.length s) f gs Hr Hgs V ltac:(lia) K) as X. rewrite text_all in X. specialize (X En C).
  replace (map (shift 0) (exact_list a opt s f r)) with (exact_list a opt s f r) in X; [exact X|].
  rewrite <- (map_id (exact_list a opt s f r)) at 1. apply map_ext. intros [p [q lg]]. unfold shift. cbn [fst snd plus]. do 2 f_equal.
  rewrite <- (map_id lg) at 1. apply map_ext. intros [i [x y]]. reflexivity.
Qed.
Print Assumptions C72_pipeline_whole.
(** [range | match<re>]: the pieces whose whole text matches. *)
Theorem C72_pipe_match : forall opt s f r l, let g := mkStage MMatch f r in
  forall x, In x (pipe_list opt s [g] l) ->
    exists y, In y l /\ fst x = fst y /\ narrowed opt s g y = Some x /\ hd_error (means MMatch opt (text s (fst y) (fst (snd y))) f r) <> None.
Proof.
  intros opt s f r l g x. cbn [pipe_list]. induction l as [|y l IH]; [contradiction|]. cbn [keep]. destruct (narrowed opt s g y) as [z|] eqn:E.
  - intros [->|H]; [|destruct (IH H) as (y' & I & R); exists y'; split; [right; exact I|exact R]]. exists y. split; [left; reflexivity|].
    unfold narrowed in E. cbn [g st_method st_flags st_re] in E.
    destruct (hd_error (means MMatch opt (text s (fst y) (fst (snd y))) f r)) as [w|] eqn:W; [|discriminate]. cbn [option_map] in E.
    split; [|split; [unfold narrowed; cbn [g st_method st_flags st_re]; rewrite W; exact E|discriminate]].
    injection E as <-. cbn [shift fst]. cbn [means] in W.
    destruct (filter (fun st => at_end (text s (fst y) (fst (snd y))) (fst st)) (committed opt tail_match (text s (fst y) (fst (snd y))) f r 0)); [discriminate|].
    cbn [map hd_error] in W. injection W as <-. cbn [fst]. lia.
  - intros H. destruct (IH H) as (y' & I & R). exists y'. split; [right; exact I|exact R].
Qed.
Print Assumptions C72_pipe_match.

(** ** Structured bindings *)
(** [auto [whole, g1, ...] = result;] (return_type.hpp lines 528-530, 559-566): [tuple_size] is [count()], element [i] is [get<i>()]. *)
Definition bindings (r : re) (c : caps) : list (option slot) := map (fun i => get_id i c) (seq 0 (result_count r)).
Definition binds (r : re) : bool := forallb (has_id r) (seq 0 (result_count r)).
(** They compile, and are the whole match and the groups in the order of their parentheses. *)
Theorem C72_bindings : forall props u r m opt n s f c, compile props u = CRegex r -> several_letters u = false -> hides r = false ->
  entry_point m -> m opt n s f r = Ok c ->
  binds r = true /\ List.length (bindings r c) = S (groups u) /\
  forall i, i <= groups u -> exists sl, nth_error (bindings r c) i = Some (Some sl) /\ get_id i c = Some sl.
Proof.
  intros props u r m opt n s f c H S Hh Hm Hc. destruct (C32_count props u r H S Hh) as [C1 C2]. split; [|split].
  - unfold binds. rewrite C1, forallb_forall. intros i I. apply in_seq in I. apply C2. lia.
  - unfold bindings. rewrite map_length, seq_length. exact C1.
  - intros i L. destruct (proj2 (C32_offered props u r m opt n s f c i H S Hh Hm Hc) L) as (sl & E). exists sl. split; [|exact E].
    unfold bindings. rewrite C1, nth_error_map. rewrite (nth_error_nth' _ 0) by (rewrite seq_length; lia). rewrite seq_nth by lia. cbn [option_map plus].
    rewrite E. reflexivity.
Qed.
Print Assumptions C72_bindings.
(** Not for every accepted pattern: a group lost in front of a switch of several letters leaves a gap. *)
Theorem C72_bindings_refuted : exists u r, compile no_props u = CRegex r /\ binds r = false /\
  exists c, ctre_match true 60 (codes "a") plain_mode r = Ok c /\ matched c = true /\ group c 2 = Some (0, 1).
Proof.
  exists (codes "(x)(?im)(a)"), (rx "(x)(?im)(a)"). split; [vm_compute; reflexivity|]. split; [vm_compute; reflexivity|].
  eexists. vm_compute. repeat split.
Qed.
Print Assumptions C72_bindings_refuted.

(** ** Examples *)
Definition shown_spans (x : res (list caps)) : option (list (option (nat * nat) * option (nat * nat))) :=
  match x with Ok l => Some (map (fun c => (group c 0, group c 1)) l) | _ => None end.
(** The fields that are numbers: "12", "345", "6"; not " 7" or "x8". *)
Example C72_ex_fields :
  let s := codes "12,x8,345, 7,,6" in let r := rx "," in let gs := [mkStage MMatch plain_mode (rx "([0-9])[0-9]*")] in
  shown_spans (gather (pipeline true 200 s (range_source GSplit true 200 s 0 15 plain_mode r) gs) 200) =
    Some [(Some (0, 2), Some (0, 1)); (Some (6, 9), Some (6, 7)); (Some (14, 15), Some (14, 15))] /\
  exact_check true plain_mode r = true /\ exact_ends GSplit true s plain_mode r = true /\ forallb (stage_ok true) gs = true /\
  map (fun x => (fst x, fst (snd x))) (pipe_list true s gs (exact_list GSplit true s plain_mode r)) = [(0, 2); (6, 9); (14, 15)].
Proof. vm_compute. repeat split. Qed.
(** Three stages: the words, those that begin with a capital, and in these a vowel; all in a part of a longer array. *)
Example C72_ex_stages :
  let s := codes "Xab Cde fgi Hjk Lom" in let r := rx "[A-Za-z]+" in
  let gs := [mkStage MStarts plain_mode (rx "[A-Z].*"); mkStage MSearch plain_mode (rx "([aeiou])")] in
  shown_spans (gather (pipeline true 300 s (range_source GSearchAll true 300 s 1 18 plain_mode r) gs) 300) =
    Some [(Some (6, 7), Some (6, 7)); (Some (17, 18), Some (17, 18))] /\
  exact_check true plain_mode r = true /\ exact_ends GSearchAll true (text s 1 18) plain_mode r = true /\ forallb (stage_ok true) gs = true /\
  map (fun x => (fst x, fst (snd x))) (pipe_list true s gs (map (shift 1) (exact_list GSearchAll true (text s 1 18) plain_mode r))) = [(6, 7); (17, 18)].
Proof. vm_compute. repeat split. Qed.
(** The capture of a match is searched again: only "ab" is seen, [\b] and [$] hold at its ends. *)
Example C72_ex_capture :
  match on_array MMatch true 100 (codes "xaby") plain_mode (rx "x(ab)y") with
  | Ok c => match get_id 1 c with
            | Some sl => match on_slot MSearch true 100 (codes "xaby") sl plain_mode (rx "\b[a-z]{2}$") with Ok c' => Some (group c' 0) | _ => None end
            | None => None
            end
  | _ => None
  end = Some (Some (1, 3)) /\
  match on_array MSearch true 100 (codes "xaby") plain_mode (rx "\b[a-z]{2}$") with Ok c' => Some (group c' 0) | _ => None end = Some None.
Proof. vm_compute. split; reflexivity. Qed.
(** A range inside a capture. *)
Example C72_ex_range :
  match on_array MMatch true 100 (codes "k=1,22,3;") plain_mode (rx "[a-z]=(.*);") with
  | Ok c => match get_id 1 c with Some sl => spans (range_slot GSearchAll true 100 (codes "k=1,22,3;") sl plain_mode (rx "[0-9]+")) | None => None end
  | _ => None
  end = Some [Some (2, 3); Some (4, 6); Some (7, 8)].
Proof. vm_compute. reflexivity. Qed.
(** Bindings: the whole match and three groups, of which one took no part. *)
Example C72_ex_bindings :
  match on_array MMatch true 100 (codes "ab") plain_mode (rx "(a)(?:(b)|(c))") with
  | Ok c => map (option_map (fun sl => (s_m sl, slot_size sl))) (bindings (rx "(a)(?:(b)|(c))") c)
  | _ => []
  end = [Some (true, Ok 2); Some (true, Ok 1); Some (true, Ok 1); Some (false, Ok 0)] /\ binds (rx "(a)(?:(b)|(c))") = true.
Proof. vm_compute. split; reflexivity. Qed.
