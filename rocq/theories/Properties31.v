(** Patterns with assertions, boundaries and lookarounds against regular expressions in a context: C61.

    [cexp], [cword x b w a], [caccepts] (Context.v): regular expressions with tests; [w] is a word of [x] when [b] is to its
    left (the nearest character first) and [a] to its right; derivatives that carry the context along. No positions,
    captures, preference, stack of things still to be matched.
    [contextual f r]: the expression that the AST [r] denotes in the mode [f]. [unreferring r]: no references. *)
From Coq Require Import List ZArith NArith Bool Lia Arith String.
From Verif Require Import Chars Syntax First View Eval Api Spec CharProofs EvalInv ApiProofs EvalTop Checks Match Views Term
  Mode ModeSem ModeScope ModeCalls ModeTop Compiles Total Grammar Actions Parser Literals Numbering Fusion FusionRuns Pattern PatternLink ModeText
  Lang Textbook AnySearch Context Anchor Utf8 Utf8Proofs Properties2 Properties10 Properties28.
Import ListNotations.
Local Open Scope string_scope.
Local Open Scope list_scope.
Local Open Scope nat_scope.

(** * C47, also for patterns that start with an anchor *)
(** [fair_anchor]: the pattern does not start with an anchor, or no anchor in it is under a repetition that may be empty
    (C29). *)
Theorem C47_search_any : forall props u r opt s f, compile props u = CRegex r -> forallb val_ok s = true -> terminating r = true ->
  msound_check opt f r = true -> right_check opt f r MSearch = true -> fair_anchor f r = true ->
  exists c, answers (fun n => ctre_search opt n s f r) c /\
    (matched c = true <-> exists b e lg, b <= List.length s /\ mderives s f r b e lg) /\
    (matched c = true -> exists b e lg, group c 0 = Some (b, e) /\ mderives s f r b e lg /\ captures_are r c lg /\
       forall b' e' lg', b' <= List.length s -> mderives s f r b' e' lg' -> b <= b').
Proof. exact (fun props u r opt s f H H1 => any_search_right opt s f r H1 (compiled_well_numbered _ _ _ H)). Qed.
Print Assumptions C47_search_any.
Theorem C47_text_search_any : forall props u r0 r, pattern_text props plain_builders u r0 -> compile props u = CRegex r -> fusible r0 = true ->
  forall opt s f, forallb val_ok s = true -> terminating r = true -> msound_check opt f r = true -> right_check opt f r MSearch = true ->
  fair_anchor f r = true ->
  exists c, answers (fun n => ctre_search opt n s f r) c /\
    (matched c = true <-> exists b e lg, b <= List.length s /\ mderives s f r0 b e lg) /\
    (matched c = true -> exists b e lg, group c 0 = Some (b, e) /\ mderives s f r0 b e lg /\ captures_are r0 c lg /\
       forall b' e' lg', b' <= List.length s -> mderives s f r0 b' e' lg' -> b <= b').
Proof. exact any_text_search. Qed.
Print Assumptions C47_text_search_any.
Example C47_ex_any : forallb (fun p => terminating (rx p) && msound_check true plain_mode (rx p) && right_check true plain_mode (rx p) MSearch &&
    starts_with_anchor plain_mode (rx p) && fair_anchor plain_mode (rx p))
  ["^\s*#(?:include|define)\b(.*)$"; "^([a-z]+):(?://)?"; "(?:\Ab|^c)d*"; "(^a)+b"] = true.
Proof. vm_compute. reflexivity. Qed.
(** * C61 *)
(** The derivatives decide what the words are; so do the walks that look for a word to the right and to the left. *)
Theorem C61_derivatives : forall w x b a, caccepts x b w a = true <-> cword x b w a.
Proof. exact caccepts_word. Qed.
Print Assumptions C61_derivatives.
Theorem C61_ahead : forall w x b, cprefix x b w = true <-> exists w1 w2, w = w1 ++ w2 /\ cword x b w1 w2.
Proof. exact cprefix_word. Qed.
Print Assumptions C61_ahead.
Theorem C61_behind : forall b x a, csuffix x [] b a = true <-> exists b1 b2, b = b1 ++ b2 /\ cword x b2 (rev b1) a.
Proof. intros b x a. rewrite csuffix_word. setoid_rewrite app_nil_r. reflexivity. Qed.
Print Assumptions C61_behind.
(** [cfirst]: the least position from which some piece is a word where it stands. *)
Theorem C61_first : forall s x k, cfirst x [] s = Some k <->
  (exists w1 w2 w3, s = w1 ++ w2 ++ w3 /\ List.length w1 = k /\ cword x (rev w1) w2 w3) /\
  (forall w1 w2 w3, s = w1 ++ w2 ++ w3 -> cword x (rev w1) w2 w3 -> k <= List.length w1).
Proof.
  intros s x k.
  assert (P : forall p, p <= List.length s -> (cprefix x (rev (firstn p s)) (skipn p s) = true <->
    exists w1 w2 w3, s = w1 ++ w2 ++ w3 /\ List.length w1 = p /\ cword x (rev w1) w2 w3)).
  { intros p Hp. rewrite cprefix_word. split.
    - intros (w2 & w3 & E & H). exists (firstn p s), w2, w3. rewrite <- E, firstn_skipn, firstn_length. split; [reflexivity|]. split; [lia|exact H].
    - intros (w1 & w2 & w3 & E & <- & H). exists w2, w3. subst s. rewrite firstn_app, firstn_all, Nat.sub_diag, app_nil_r, skipn_app, skipn_all, Nat.sub_diag.
      split; [reflexivity|exact H]. }
  pose proof (cfirst_least s x []) as F. split.
  - intros H. rewrite H in F. destruct F as (F1 & F2 & F3). rewrite app_nil_r in F2. split; [apply P; assumption|].
    intros w1 w2 w3 E W. destruct (Nat.le_gt_cases k (List.length w1)) as [L|L]; [exact L|exfalso]. specialize (F3 _ L). rewrite app_nil_r in F3.
    assert (X : cprefix x (rev (firstn (List.length w1) s)) (skipn (List.length w1) s) = true) by (apply P; [lia|eauto 6]). congruence.
  - intros ((w1 & w2 & w3 & E & L & W) & M).
    assert (K : k <= List.length s) by (subst s; rewrite app_length; lia).
    assert (X : cprefix x (rev (firstn k s)) (skipn k s) = true) by (apply P; [exact K|eauto 6]).
    destruct (cfirst x [] s) as [j|].
    + destruct F as (F1 & F2 & F3). rewrite app_nil_r in F2. apply P in F2 as (v1 & v2 & v3 & V1 & V2 & V3); [|exact F1].
      specialize (M v1 v2 v3 V1 V3). destruct (Nat.eq_dec j k) as [->|N]; [reflexivity|]. specialize (F3 k ltac:(lia)). rewrite app_nil_r in F3. congruence.
    + specialize (F k K). rewrite app_nil_r in F. congruence.
Qed.
Print Assumptions C61_first.
(** The derivations of a pattern are the words of its expression between what is to the left and to the right, at every place
    of every subject. *)
Theorem C61_language : forall s f r p e, unreferring r = true -> scope_check f r = true -> p <= List.length s ->
  ((exists lg, mderives s f r p e lg) <->
   (p <= e /\ e <= List.length s) /\ cword (contextual f r) (rev (firstn p s)) (firstn (e - p) (skipn p s)) (skipn e s)).
Proof. exact (fun s f r p e H1 H2 => derives_cword s f r H1 H2 p e). Qed.
Print Assumptions C61_language.

(** The answers of the calls, from the text of the pattern read without the parser. *)
Theorem C61_match : forall props u r0 r, pattern_text props plain_builders u r0 -> compile props u = CRegex r ->
  fusible r0 = true -> unreferring r0 = true -> forall opt s f, forallb val_ok s = true -> terminating r = true -> scope_check f r0 = true ->
  msound_check opt f r = true -> right_check opt f r MMatch = true ->
  exists c, answers (fun n => ctre_match opt n s f r) c /\ matched c = caccepts (contextual f r0) [] s [].
Proof. exact contextual_match. Qed.
Print Assumptions C61_match.
Theorem C61_starts_with : forall props u r0 r, pattern_text props plain_builders u r0 -> compile props u = CRegex r ->
  fusible r0 = true -> unreferring r0 = true -> forall opt s f, forallb val_ok s = true -> terminating r = true -> scope_check f r0 = true ->
  msound_check opt f r = true -> right_check opt f r MStarts = true ->
  exists c, answers (fun n => ctre_starts_with opt n s f r) c /\ matched c = cprefix (contextual f r0) [] s /\
    (matched c = true -> exists e, group c 0 = Some (0, e) /\ e <= List.length s /\
       caccepts (contextual f r0) [] (firstn e s) (skipn e s) = true).
Proof. exact contextual_starts. Qed.
Print Assumptions C61_starts_with.
Theorem C61_search : forall props u r0 r, pattern_text props plain_builders u r0 -> compile props u = CRegex r ->
  fusible r0 = true -> unreferring r0 = true -> forall opt s f, forallb val_ok s = true -> terminating r = true -> scope_check f r0 = true ->
  msound_check opt f r = true -> right_check opt f r MSearch = true -> fair_anchor f r = true ->
  exists c, answers (fun n => ctre_search opt n s f r) c /\
    match cfirst (contextual f r0) [] s with
    | None => matched c = false
    | Some b => matched c = true /\ exists e, group c 0 = Some (b, e) /\ b <= e /\ e <= List.length s /\
        caccepts (contextual f r0) (rev (firstn b s)) (firstn (e - b) (skipn b s)) (skipn e s) = true
    end.
Proof. exact contextual_search. Qed.
Print Assumptions C61_search.

(** On the encoding of a text; [offset t k]: the unit at which the code point [k] begins. *)
Theorem C61_search_utf8 : forall props u r0 r, pattern_text props plain_builders u r0 -> compile props u = CRegex r ->
  fusible r0 = true -> unreferring r0 = true -> forall opt t f, wf_text t -> terminating r = true -> scope_check f r0 = true ->
  msound_check opt f r = true -> right_check opt f r MSearch = true -> fair_anchor f r = true -> u8_ok true r = true ->
  exists c, answers (fun n => on_u8 true MSearch opt n (encode t) f r) c /\
    match cfirst (contextual f r0) [] t with
    | None => matched c = false
    | Some b => matched c = true /\ exists e, group c 0 = Some (offset t b, offset t e) /\ b <= e /\ e <= List.length t /\
        caccepts (contextual f r0) (rev (firstn b t)) (firstn (e - b) (skipn b t)) (skipn e t) = true
    end.
Proof.
  intros props u r0 r H0 Hu H1 H2 opt t f Ht H3 H4 H5 H6 H7 H8. pose proof (compiled_well_numbered _ _ _ Hu) as Hw.
  destruct (C61_search props u r0 r H0 Hu H1 H2 opt t f (scalars_ok t Ht) H3 H4 H5 H6 H7) as (c & C1 & C2).
  destruct (C47_utf8 t Ht MSearch opt f r c Hw H8 C1) as (c' & D1 & D2 & D3). exists c'. split; [exact D1|].
  destruct (cfirst (contextual f r0) [] t) as [b|]; [|congruence]. destruct C2 as (M & e & G & C2). split; [congruence|].
  exists e. split; [|exact C2]. rewrite D3, G. reflexivity.
Qed.
Print Assumptions C61_search_utf8.
Theorem C61_search_pointer : forall props u r0 r, pattern_text props plain_builders u r0 -> compile props u = CRegex r ->
  fusible r0 = true -> unreferring r0 = true -> forall opt s rest f, forallb val_ok s = true -> ~ In 0%Z s -> terminating r = true ->
  scope_check f r0 = true -> msound_check opt f r = true -> right_check opt f r MSearch = true -> fair_anchor f r = true ->
  exists c, answers (fun n => on_pointer MSearch opt n (s ++ 0%Z :: rest) f r) c /\
    match cfirst (contextual f r0) [] s with
    | None => matched c = false
    | Some b => matched c = true /\ exists e, group c 0 = Some (b, e) /\ b <= e /\ e <= List.length s /\
        caccepts (contextual f r0) (rev (firstn b s)) (firstn (e - b) (skipn b s)) (skipn e s) = true
    end.
Proof.
  intros props u r0 r H0 Hu H1 H2 opt s rest f Hs Hn H3 H4 H5 H6 H7. pose proof (compiled_well_numbered _ _ _ Hu) as Hw.
  destruct (C61_search props u r0 r H0 Hu H1 H2 opt s f Hs H3 H4 H5 H6 H7) as (c & C1 & C2).
  exists c. split; [|exact C2]. exact (C47_pointer s rest Hn MSearch opt f r c Hw C1).
Qed.
Print Assumptions C61_search_pointer.

(** The hypotheses hold for usual patterns. *)
Definition contextual_patterns : list string :=
  ["^\s*#(?:include|define)\b(.*)$"; "\bfoo\b"; "^[a-z]+$"; "[0-9]+(?=px)"; "(?<=\$)[0-9]+"; "(?<!a)b(?!c)"; "(?>[a-z]+)[0-9]";
   "\B-\B"; "(?i)\bend\b(?c)[.;]\Z"; "(?=.*[0-9])(?=.*[a-z])[a-z0-9]{6,}"; "(?:^|,)[^,]*(?=,|$)"].
Definition covered (p : string) : list bool := [negb (several_letters (codes p)); fusible (px p); unreferring (px p); scope_check plain_mode (px p);
    terminating (rx p); msound_check true plain_mode (rx p);
    forallb (right_check true plain_mode (rx p)) [MMatch; MStarts; MSearch]; fair_anchor plain_mode (rx p); u8_ok true (rx p)].
Example C61_ex_covered : forallb (fun p => forallb (fun b => b) (covered p)) contextual_patterns = true.
Proof. vm_compute. reflexivity. Qed.
Example C61_ex_texts : forall p, In p contextual_patterns -> exists r0 r,
  pattern_text no_props plain_builders (codes p) r0 /\ compile no_props (codes p) = CRegex r.
Proof.
  intros p H. assert (S : forall q, In q contextual_patterns -> several_letters (codes q) = false /\ compile no_props (codes q) = CRegex (rx q)).
  { intros q Hq. cbn in Hq. repeat (destruct Hq as [<-|Hq]; [split; vm_compute; reflexivity|]). destruct Hq. }
  destruct (S p H) as [S1 S2]. destruct (compiled_denotes no_props (codes p) _ S1 S2) as (r0 & T & _). eauto.
Qed.
Example C61_ex_match : map (fun t => caccepts (contextual plain_mode (px "(?=.*[0-9])(?=.*[a-z])[a-z0-9]{6,}")) [] (codes t) [])
    ["abc123"; "abcdef"; "123456"; "ab1"] = [true; false; false; false].
Proof. vm_compute. reflexivity. Qed.
Example C61_ex_search : map (fun t => cfirst (contextual plain_mode (px "\bfoo\b")) [] (codes t)) ["a foo."; "afoo foo"; "food"] = [Some 2; Some 5; None] /\
  map (fun t => cfirst (contextual plain_mode (px "(?<=\$)[0-9]+")) [] (codes t)) ["7 or $12"; "12"] = [Some 6; None] /\
  map (fun t => cfirst (contextual plain_mode (px "^[a-z]+$")) [] (codes t)) ["abc"; "a b"] = [Some 0; None].
Proof. repeat split; vm_compute; reflexivity. Qed.

(** ** Without [fair_anchor] it is false *)
(** The search of [(?:^a)*b] looks at the first position only (starts_with_anchor.hpp), though [b] may stand anywhere. *)
Theorem C61_search_refuted : exists p, several_letters (codes p) = false /\ fusible (px p) = true /\ unreferring (px p) = true /\
  compile no_props (codes p) = CRegex (rx p) /\ terminating (rx p) = true /\ scope_check plain_mode (px p) = true /\
  forall opt, msound_check opt plain_mode (rx p) = true /\ right_check opt plain_mode (rx p) MSearch = true /\
  exists s n c, ctre_search opt n s plain_mode (rx p) = Ok c /\ matched c = false /\ cfirst (contextual plain_mode (px p)) [] s = Some 1.
Proof.
  exists "(?:^a)*b". do 6 (split; [vm_compute; reflexivity|]). intros opt. split; [destruct opt; vm_compute; reflexivity|].
  split; [destruct opt; vm_compute; reflexivity|].
  exists (codes "cb"), 60. destruct opt; eexists; (split; [vm_compute; reflexivity|]); split; vm_compute; reflexivity.
Qed.
Print Assumptions C61_search_refuted.
