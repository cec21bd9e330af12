(** Ranges of matches, tokens and pieces, results compared with texts, ranges of subjects: C26, C27, C28, C33,
    C34, C41, C42.

    [attempt opt n s f r p] is [starts_with] at position [p]; [finds opt s f r p c]: it reports [c] there;
    [misses opt s f r p]: it reports nothing there, whatever the fuel. [zero_safe] as in C29.
    [no_empty opt s f r]: no match is empty; [no_empty_before_end]: none that begins before the end of [s]. *)
From Coq Require Import List ZArith NArith Bool Lia String.
From Verif Require Import Chars Syntax View Eval Api Parser Spec CharProofs ApiProofs Match Term Anchor Checks Iter IterProofs
  Results Properties2.
Import ListNotations.
Local Open Scope string_scope.

(** Decidable: the numbering, and that every match consumes. *)
Lemma numbered_check : forall opt f r, sound_check opt f r = true -> EvalInv.ids_ok [] r = true -> well_numbered r.
Proof. intros opt f r H Hi. apply sound_check_spec in H. exact (conj Hi (proj2 H)). Qed.

Definition spans (x : res (list caps)) : option (list (option (nat * nat))) :=
  match x with Ok l => Some (map (fun c => group c 0) l) | _ => None end.

(** * C26 *)
(** [listing opt s f r true 0 l]: each match of [l] is found at its beginning, nothing is found between the
    end of the previous one and its beginning, and nothing is left at the end of the list. *)
Theorem C26_leftmost_matches : forall opt n s f r l, well_numbered r -> zero_safe r = true ->
  ctre_search_all opt n s f r = Ok l -> listing opt s f r true 0 l.
Proof. exact (fun opt n s f r l Hw => search_all_listing opt s f r Hw n l). Qed.
Print Assumptions C26_leftmost_matches.
Theorem C26_ends : forall opt s f r, well_numbered r -> terminating r = true -> zero_safe r = true ->
  no_empty_before_end opt s f r -> settles (fun n => ctre_search_all opt n s f r).
Proof. exact search_all_ends. Qed.
Print Assumptions C26_ends.
Theorem C26_ends_checked : forall opt s f r, forallb val_ok s = true -> well_numbered r -> terminating r = true ->
  zero_safe r = true -> sound_check opt f r = true -> consuming r = true ->
  settles (fun n => ctre_search_all opt n s f r).
Proof.
  exact (fun opt s f r Hs Hw Ht Hz Hc Hn => search_all_ends opt s f r Hw Ht Hz
    (no_empty_weaken opt s f r (consuming_no_empty opt s f r Hs (sound_check_spec opt f r Hc) Hn Hw))).
Qed.
Print Assumptions C26_ends_checked.
(** When the iteration ends, every match but one at the end of the subject has consumed something. *)
Theorem C26_only_progress : forall opt n s f r l, well_numbered r -> zero_safe r = true ->
  ctre_search_all opt n s f r = Ok l ->
  Forall (fun c => forall b e, group c 0 = Some (b, e) -> b < e \/ e = List.length s) l.
Proof. exact (fun opt n s f r l Hw => search_all_advances opt s f r Hw n l). Qed.
Print Assumptions C26_only_progress.
Theorem C26_empty_never_ends : forall opt s f r n c, well_numbered r -> 0 < List.length s ->
  finds opt s f r 0 c -> group c 0 = Some (0, 0) -> ctre_search_all opt n s f r = Fuel.
Proof. exact (fun opt s f r n c Hw => search_all_stuck opt s f r Hw n c). Qed.
Print Assumptions C26_empty_never_ends.
Theorem C26_ending_refuted : forall opt n, ctre_search_all opt n (codes "b") plain_mode (rx "a*") = Fuel.
Proof.
  intros opt n. eapply search_all_stuck.
  - split; [vm_compute; reflexivity | vm_compute; repeat constructor; auto].
  - cbn. lia.
  - exists 40. destruct opt; vm_compute; reflexivity.
  - reflexivity.
Qed.
Print Assumptions C26_ending_refuted.
Example C26_ex : spans (ctre_search_all true 60 (codes "ab12c345") plain_mode (rx "[0-9]+")) = Some [Some (2, 4); Some (5, 8)] /\
  spans (ctre_search_all true 60 (codes "aab") plain_mode (rx "^a")) = Some [Some (0, 1)] /\
  forallb (fun t => terminating (rx t) && zero_safe (rx t) && sound_check true plain_mode (rx t) && consuming (rx t)
                    && EvalInv.ids_ok [] (rx t)) ["[0-9]+"; "(a|bc)+?(d)?"; "\b(?<w>\w+)\b"; "^a"] = true.
Proof. vm_compute. repeat split. Qed.

(** * C27 *)
(** [cuts s 0 ps l]: piece, separator, piece, ..., piece, adjacent, from 0 to the end of [s]; a piece carries
    the captures of the separator that ends it. *)
Theorem C27_pieces : forall opt n s f r ps, well_numbered r -> zero_safe r = true -> starts_with_anchor f r = false ->
  no_empty opt s f r -> ctre_split opt n s f r = Ok ps ->
  exists l, ctre_search_all opt n s f r = Ok l /\ cuts s 0 ps l.
Proof. exact (fun opt n s f r ps Hw => split_cuts opt s f r Hw n ps). Qed.
Print Assumptions C27_pieces.
Theorem C27_reassemble : forall opt n s f r ps, well_numbered r -> zero_safe r = true -> starts_with_anchor f r = false ->
  no_empty opt s f r -> ctre_split opt n s f r = Ok ps ->
  exists l, ctre_search_all opt n s f r = Ok l /\ List.length ps = S (List.length l) /\
    weave (map (span_text s) ps) (map (span_text s) l) = s.
Proof. exact (fun opt n s f r ps => split_reassembles opt s f r n ps). Qed.
Print Assumptions C27_reassemble.
Theorem C27_ends : forall opt s f r, well_numbered r -> terminating r = true -> zero_safe r = true ->
  starts_with_anchor f r = false -> no_empty opt s f r -> settles (fun n => ctre_split opt n s f r).
Proof. exact split_ends. Qed.
Print Assumptions C27_ends.
Theorem C27_reassemble_checked : forall opt n s f r ps, forallb val_ok s = true -> well_numbered r -> zero_safe r = true ->
  starts_with_anchor f r = false -> sound_check opt f r = true -> consuming r = true -> ctre_split opt n s f r = Ok ps ->
  exists l, ctre_search_all opt n s f r = Ok l /\ List.length ps = S (List.length l) /\
    weave (map (span_text s) ps) (map (span_text s) l) = s.
Proof.
  exact (fun opt n s f r ps Hs Hw Hz Ha Hc Hn => split_reassembles opt s f r n ps Hw Hz Ha
    (consuming_no_empty opt s f r Hs (sound_check_spec opt f r Hc) Hn Hw)).
Qed.
Print Assumptions C27_reassemble_checked.
Example C27_ex : spans (ctre_split true 60 (codes "a, b;c,") plain_mode (rx "[,;] *")) =
    Some [Some (0, 1); Some (3, 4); Some (5, 6); Some (7, 7)] /\
  spans (ctre_search_all true 60 (codes "a, b;c,") plain_mode (rx "[,;] *")) = Some [Some (1, 3); Some (4, 5); Some (6, 7)] /\
  spans (ctre_split true 60 (codes "") plain_mode (rx ",")) = Some [Some (0, 0)] /\
  spans (ctre_split true 60 (codes "xyz") plain_mode (rx ",")) = Some [Some (0, 3)].
Proof. vm_compute. repeat split. Qed.
(** An anchored pattern: after the first separator the failing search leaves its end mark at the current
    position, not at the end; pieces that are empty come for ever and the rest of the subject is lost. *)
Theorem C27_anchored_never_ends : forall opt n s f r ps, well_numbered r -> zero_safe r = true ->
  starts_with_anchor f r = true -> 0 < List.length s ->
  (forall c e, finds opt s f r 0 c -> group c 0 = Some (0, e) -> 0 < e < List.length s) ->
  ctre_split opt n s f r <> Ok ps.
Proof. exact (fun opt n s f r ps Hw => split_anchored_stuck opt s f r Hw n ps). Qed.
Print Assumptions C27_anchored_never_ends.
Theorem C27_anchored_refuted : forall opt n ps, ctre_split opt n (codes "ab") plain_mode (rx "^a") <> Ok ps.
Proof.
  intros opt n ps. apply split_anchored_stuck; try reflexivity.
  - split; [vm_compute; reflexivity | vm_compute; repeat constructor; auto].
  - cbn. lia.
  - intros c e H Hg. assert (K : finds opt (codes "ab") plain_mode (rx "^a") 0 (mkCaps (mkSlot (Some 0) (Some 1) true) [])).
    { exists 40. destruct opt; vm_compute; reflexivity. }
    rewrite (finds_fun _ _ _ _ _ _ _ H K) in Hg. injection Hg as <-. cbn. lia.
Qed.
Print Assumptions C27_anchored_refuted.
(** An empty separator: pieces without end, even on the empty subject. *)
Lemma empty_split_loop : forall opt n k c, matched c = true ->
  si_loop (exec_search opt n (arr_view []) (arr_view []) plain_mode (rx "a*")) (arr_view []) (rx "a*") k (mkSiter 0 c false) = Fuel.
Proof.
  intros opt n. assert (E : exec_search opt n (arr_view []) (arr_view []) plain_mode (rx "a*") 0 = Fuel \/
    exec_search opt n (arr_view []) (arr_view []) plain_mode (rx "a*") 0 = Ok (mkCaps (mkSlot (Some 0) (Some 0) true) [])).
  { do 12 (destruct n as [|n]; [destruct opt; vm_compute; auto|]). right. destruct opt; vm_compute; reflexivity. }
  induction k as [|k IH]; intros c Hm; [reflexivity|].
  cbn [si_loop]. unfold si_ne_end. cbn [si_match]. rewrite Hm. unfold si_next. cbn [si_cur si_last].
  change (vend (arr_view []) 0) with (Some true). cbn [or_ub andb].
  destruct E as [E|E]; rewrite E; [reflexivity|]. cbn [bind]. unfold si_take. cbn. rewrite IH by reflexivity. reflexivity.
Qed.
Theorem C27_empty_refuted : forall opt n ps, ctre_split opt n [] plain_mode (rx "a*") <> Ok ps.
Proof.
  intros opt n ps H. unfold ctre_split, range_split, si_all, si_begin in H.
  apply bind_ok in H as (it & H1 & H). apply bind_ok in H1 as (c & H1 & H2).
  assert (E : c = mkCaps (mkSlot (Some 0) (Some 0) true) []).
  { do 12 (destruct n as [|n]; [destruct opt; vm_compute in H1; congruence|]). destruct opt; vm_compute in H1; congruence. }
  subst c. cbn in H2. injection H2 as <-. rewrite empty_split_loop in H by reflexivity. discriminate.
Qed.
Print Assumptions C27_empty_refuted.

(** * C28 *)
(** [tokens opt s f r true 0 l]: the first token begins at 0, each begins where the one before ended, and
    after the last one either the subject is used up or nothing matches there. *)
Theorem C28_tokens : forall opt n s f r l, well_numbered r -> ctre_tokenize opt n s f r = Ok l ->
  tokens opt s f r true 0 l.
Proof. exact (fun opt n s f r l Hw => tokenize_tokens opt s f r Hw n l). Qed.
Print Assumptions C28_tokens.
Theorem C28_ends : forall opt s f r, well_numbered r -> terminating r = true -> no_empty_before_end opt s f r ->
  settles (fun n => ctre_tokenize opt n s f r).
Proof. exact tokenize_ends. Qed.
Print Assumptions C28_ends.
(** Without that condition it need not end: an empty match leaves the iterator where it was. *)
Lemma empty_token_loop : forall opt n k c, matched c = true ->
  ri_loop (exec_starts_with opt n (arr_view (codes "b")) (arr_view (codes "b")) plain_mode (rx "a*"))
    (arr_view (codes "b")) (rx "a*") k (mkRiter 0 c) = Fuel.
Proof.
  intros opt n. assert (E : exec_starts_with opt n (arr_view (codes "b")) (arr_view (codes "b")) plain_mode (rx "a*") 0 = Fuel \/
    exec_starts_with opt n (arr_view (codes "b")) (arr_view (codes "b")) plain_mode (rx "a*") 0 =
      Ok (mkCaps (mkSlot (Some 0) (Some 0) true) [])).
  { do 12 (destruct n as [|n]; [destruct opt; vm_compute; auto|]). right. destruct opt; vm_compute; reflexivity. }
  induction k as [|k IH]; intros c Hm; [reflexivity|].
  cbn [ri_loop]. unfold ri_ne_end. cbn [ri_match]. rewrite Hm. unfold ri_next. cbn [ri_cur].
  change (vend (arr_view (codes "b")) 0) with (Some false). cbn [or_ub].
  destruct E as [E|E]; rewrite E; [reflexivity|]. cbn [bind]. unfold ri_advance. cbn -[ri_loop rx].
  rewrite IH by reflexivity. reflexivity.
Qed.
Theorem C28_empty_refuted : forall opt n l, ctre_tokenize opt n (codes "b") plain_mode (rx "a*") <> Ok l.
Proof.
  intros opt n l H. unfold ctre_tokenize, range_tokenize, ri_all, ri_begin in H.
  apply bind_ok in H as (it & H1 & H). apply bind_ok in H1 as (c & H1 & H2).
  assert (E : c = mkCaps (mkSlot (Some 0) (Some 0) true) []).
  { do 12 (destruct n as [|n]; [destruct opt; vm_compute in H1; congruence|]). destruct opt; vm_compute in H1; congruence. }
  subst c. cbn in H2. injection H2 as <-. rewrite empty_token_loop in H by reflexivity. discriminate.
Qed.
Print Assumptions C28_empty_refuted.
Example C28_ex : spans (ctre_tokenize true 60 (codes "ab12c!34") plain_mode (rx "[a-z]+|[0-9]")) =
    Some [Some (0, 2); Some (2, 3); Some (3, 4); Some (4, 5)] /\
  spans (ctre_tokenize true 60 (codes "!34") plain_mode (rx "[a-z]+|[0-9]")) = Some [].
Proof. vm_compute. repeat split. Qed.

(** * C33 *)
(** [text_of s c id]: the text of capture [id], if it took part. *)
Theorem C33_capture_equal : forall m opt n s f r c id sl sv, entry_point m -> well_numbered r ->
  m opt n s f r = Ok c -> get_id id c = Some sl ->
  exists b, cap_eq s sl sv = Ok b /\ eq_cap s sv sl = Ok b /\ (b = true <-> text_of s c id = Some sv).
Proof. exact (fun m opt n s f r c id sl sv Hm Hw H => capture_eq m opt n s f r c Hm Hw H id sl sv). Qed.
Print Assumptions C33_capture_equal.
Theorem C33_capture_differs : forall m opt n s f r c id sl sv, entry_point m -> well_numbered r ->
  m opt n s f r = Ok c -> get_id id c = Some sl -> group c id <> None ->
  exists b, cap_ne s sl sv = Ok b /\ ne_cap s sv sl = Ok b /\ (b = true <-> text_of s c id <> Some sv).
Proof. exact (fun m opt n s f r c id sl sv Hm Hw H => capture_ne m opt n s f r c Hm Hw H id sl sv). Qed.
Print Assumptions C33_capture_differs.
Theorem C33_result_equal : forall m opt n s f r c sv, entry_point m -> well_numbered r -> m opt n s f r = Ok c ->
  exists b, result_eq s c sv = Ok b /\ eq_result s sv c = Ok b /\ (b = true <-> text_of s c 0 = Some sv).
Proof. exact (fun m opt n s f r c sv Hm Hw H => whole_eq m opt n s f r c Hm Hw H sv). Qed.
Print Assumptions C33_result_equal.
Theorem C33_result_differs : forall m opt n s f r c sv, entry_point m -> well_numbered r -> m opt n s f r = Ok c ->
  exists b, result_ne s c sv = Ok b /\ ne_result s sv c = Ok b /\ (b = true <-> text_of s c 0 <> Some sv).
Proof. exact (fun m opt n s f r c sv Hm Hw H => whole_ne m opt n s f r c Hm Hw H sv). Qed.
Print Assumptions C33_result_differs.
Example C33_ex : exists c sl, ctre_search true 60 (codes "xab") plain_mode (rx "(a)b|(c)") = Ok c /\ matched c = true /\
  get_id 1 c = Some sl /\ cap_eq (codes "xab") sl (codes "a") = Ok true /\ cap_ne (codes "xab") sl (codes "a") = Ok false /\
  result_eq (codes "xab") c (codes "ab") = Ok true /\ result_ne (codes "xab") c (codes "a") = Ok true.
Proof. eexists. eexists. vm_compute. repeat split. Qed.
(** A capture that took no part is neither equal to nor different from a text. *)
Theorem C33_differs_refuted : forall opt, exists s r n c sl sv, ctre_match opt n s plain_mode r = Ok c /\ matched c = true /\
  get_id 2 c = Some sl /\ text_of s c 2 <> Some sv /\ cap_eq s sl sv = Ok false /\ cap_ne s sl sv = Ok false /\
  ne_cap s sv sl = Ok false.
Proof.
  intros []; exists (codes "a"), (rx "(a)|(b)"), 60; eexists; eexists; exists (codes "zz"); vm_compute; repeat split; discriminate.
Qed.
Print Assumptions C33_differs_refuted.

(** * C42 *)
(** The optional conversions never read outside the subject and give the text of the capture; the plain ones
    do so for captures that took part. *)
Theorem C42_optional_view : forall m opt n s f r c id sl, entry_point m -> well_numbered r ->
  m opt n s f r = Ok c -> get_id id c = Some sl -> to_optional_view s sl = Ok (text_of s c id).
Proof. exact (fun m opt n s f r c id sl Hm Hw H => optional_view m opt n s f r c Hm Hw H id sl). Qed.
Print Assumptions C42_optional_view.
Theorem C42_view : forall m opt n s f r c id sl t, entry_point m -> well_numbered r ->
  m opt n s f r = Ok c -> get_id id c = Some sl -> text_of s c id = Some t ->
  to_view s sl = Ok t /\ to_string s sl = Ok t /\ slot_size sl = Ok (List.length t).
Proof. exact (fun m opt n s f r c id sl t Hm Hw H => plain_view m opt n s f r c Hm Hw H id sl t). Qed.
Print Assumptions C42_view.
Example C42_ex : exists c sl, ctre_search true 60 (codes "xab") plain_mode (rx "(a)b|(c)") = Ok c /\
  get_id 1 c = Some sl /\ to_view (codes "xab") sl = Ok (codes "a") /\ to_optional_view (codes "xab") sl = Ok (Some (codes "a")).
Proof. eexists. eexists. vm_compute. repeat split. Qed.
(** The whole match of a failed search has an end but no beginning: its view is no range. *)
Theorem C42_failed_search_refuted : forall opt, exists s r n c, ctre_search opt n s plain_mode r = Ok c /\ matched c = false /\
  to_view s (c0 c) = UB /\ slot_size (c0 c) = UB.
Proof. intros []; exists (codes "b"), (rx "a"), 60; eexists; vm_compute; repeat split. Qed.
Print Assumptions C42_failed_search_refuted.

(** * C34 *)
(** [answers subject exec l cs]: [cs] are the results of [exec] on the subjects [l], one by one. *)
Theorem C34_filter : forall subject (exec : subject -> res caps) none l cs, answers subject exec l cs ->
  forall m, List.length l < m -> mi_all subject exec none m l = Ok (filter matched cs).
Proof. exact multi_filter. Qed.
Print Assumptions C34_filter.
Example C34_ex : exists cs, mi_all (list Z) (fun s => ctre_match true 60 s plain_mode (rx "([a-z]+)[0-9]")) (fresh (rx "([a-z]+)[0-9]")) 9
    [codes "ab1"; codes "x"; codes "c2"; codes "d33"] = Ok cs /\
  map (fun c => group c 1) cs = [Some (0, 2); Some (0, 1)].
Proof. eexists. vm_compute. split; reflexivity. Qed.
(** A call that goes wrong on one subject makes the whole range go wrong in the same way. *)
Definition goes_like {A B} (a : res A) (b : res B) : Prop :=
  match a, b with No, No | Fuel, Fuel | UB, UB | Ill, Ill => True | _, _ => False end.
Lemma mi_all_cons : forall subject (exec : subject -> res caps) none m y l c, exec y = Ok c ->
  mi_all subject exec none (S m) (y :: l) =
  if matched c then bind (mi_all subject exec none m l) (fun cs => Ok (c :: cs)) else mi_all subject exec none (S m) l.
Proof.
  intros subject exec none m y l c H. unfold mi_all at 1, mi_begin. cbn [find_first]. rewrite H. cbn [bind].
  destruct (matched c); [|reflexivity]. cbn [bind mi_loop]. unfold mi_ne_end, at_last, mi_next. cbn [mi_first mi_result negb].
  unfold mi_all, mi_begin. destruct (find_first subject exec none l); reflexivity.
Qed.
Theorem C34_stops : forall subject (exec : subject -> res caps) none pre cs x post, answers subject exec pre cs ->
  (forall c, exec x <> Ok c) -> forall m, List.length pre < m -> goes_like (exec x) (mi_all subject exec none m (pre ++ x :: post)).
Proof.
  intros subject exec none pre cs x post H Hx. induction H as [|y c pre cs H1 H2 IH]; intros m Hm.
  - cbn [app]. unfold mi_all, mi_begin. cbn [find_first]. destruct (exec x) as [c| | | |]; [destruct (Hx c eq_refl)| | | |]; exact I.
  - destruct m as [|m]; [inversion Hm|]. cbn [app]. rewrite (mi_all_cons _ _ _ _ _ _ c H1).
    cbn [List.length] in Hm. destruct (matched c); [|apply IH; lia].
    specialize (IH m ltac:(lia)). destruct (exec x), (mi_all subject exec none m (pre ++ x :: post)); cbn in *; auto.
Qed.
Print Assumptions C34_stops.
Example C34_ex_stops : mi_all (option (list Z)) (fun s => match s with Some s => ctre_match true 60 s plain_mode (rx "a") | None => UB end)
    (fresh (rx "a")) 9 [Some (codes "a"); Some (codes "b"); None; Some (codes "a")] = UB /\
  mi_all (list Z) (fun s => ctre_match true 60 s plain_mode (rx "(?<=a+)b")) (fresh (rx "a")) 9 [codes "b"] = Ill.
Proof. split; vm_compute; reflexivity. Qed.
(** The end is not to be incremented. *)
Theorem C34_past_end : forall subject (exec : subject -> res caps) none it,
  mi_eq_end subject it = true -> mi_next subject exec none it = UB.
Proof. intros subject exec none [[|] c] H; [reflexivity|discriminate]. Qed.
Print Assumptions C34_past_end.
(** One of the four comparisons with the end is the negation of what it should be. *)
Theorem C34_end_consistent : forall subject (it : miter subject),
  end_eq_mi subject it = mi_eq_end subject it /\ mi_ne_end subject it = negb (mi_eq_end subject it).
Proof. exact (fun subject it => conj eq_refl eq_refl). Qed.
Print Assumptions C34_end_consistent.
Theorem C34_end_differs_refuted : exists (it : miter (list Z)), end_eq_mi (list Z) it = true /\ end_ne_mi (list Z) it = true.
Proof. exists (mkMiter (list Z) [] (fresh RReject)). split; reflexivity. Qed.
Print Assumptions C34_end_differs_refuted.

(** * C41 *)
(** Iterators of one match range that are not at the end are equal exactly after the same number of
    increments, and ordered by it. *)
Theorem C41_iterators : forall opt n s f r j k a b, well_numbered r -> zero_safe r = true ->
  no_empty_before_end opt s f r ->
  ri_nth (exec_search opt n (arr_view s) (arr_view s) f r) (arr_view s) r j = Ok a ->
  ri_nth (exec_search opt n (arr_view s) (arr_view s) f r) (arr_view s) r k = Ok b ->
  matched (ri_match a) = true -> matched (ri_match b) = true ->
  (ri_eq a b = true <-> j = k) /\ ri_ne a b = negb (ri_eq a b) /\ (ri_lt a b = true <-> j < k).
Proof. exact search_iterators_equal. Qed.
Print Assumptions C41_iterators.
(** The iterator at the last match equals the one behind it. *)
Theorem C41_last_refuted : forall opt, exists n a b,
  ri_nth (exec_search opt n (arr_view (codes "xa")) (arr_view (codes "xa")) plain_mode (rx "a")) (arr_view (codes "xa")) (rx "a") 0 = Ok a /\
  ri_nth (exec_search opt n (arr_view (codes "xa")) (arr_view (codes "xa")) plain_mode (rx "a")) (arr_view (codes "xa")) (rx "a") 1 = Ok b /\
  ri_ne_end a = true /\ ri_ne_end b = false /\ ri_eq a b = true.
Proof. intros []; exists 60; eexists; eexists; vm_compute; repeat split. Qed.
Print Assumptions C41_last_refuted.
Example C41_ex : exists a b,
  ri_nth (exec_search true 60 (arr_view (codes "xaya")) (arr_view (codes "xaya")) plain_mode (rx "a")) (arr_view (codes "xaya")) (rx "a") 0 = Ok a /\
  ri_nth (exec_search true 60 (arr_view (codes "xaya")) (arr_view (codes "xaya")) plain_mode (rx "a")) (arr_view (codes "xaya")) (rx "a") 1 = Ok b /\
  ri_ne_end a = true /\ ri_ne_end b = true /\ ri_eq a b = false /\ ri_lt a b = true.
Proof. eexists. eexists. vm_compute. repeat split. Qed.
