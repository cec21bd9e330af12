(** The pattern syntax: C43. Switches of several letters: C38.

    Pattern.v says, without the parser, which texts are patterns and which AST each one denotes:
    [pattern_text props B u r], where [B] says how the AST of a construct is made from the AST of its parts.
    [plain_builders] make no rewriting, [library_builders] are the ones of the library. *)
From Coq Require Import List ZArith NArith Bool Lia String.
From Verif Require Import Chars Syntax View Eval Api Grammar Actions Parser Literals Spec EvalInv EvalTop ApiProofs CharProofs Match Numbering Fusion FusionRuns
  Pattern PatternRead PatternParse PatternLink Switches Properties2 Properties10.
Import ListNotations.
Local Open Scope string_scope.
Local Open Scope list_scope.

(** * C43 *)
(** A pattern text compiles to exactly the AST it denotes. *)
Theorem C43_compiled : forall props u r, pattern_text props library_builders u r -> compile props u = CRegex r.
Proof. exact text_compiles. Qed.
Print Assumptions C43_compiled.
(** And nothing else compiles, mode switches of several letters apart. *)
Theorem C43_syntax : forall props u r, several_letters u = false ->
  (compile props u = CRegex r <-> pattern_text props library_builders u r).
Proof. intros props u r H. split; [apply compiled_text; assumption|apply text_compiles]. Qed.
Print Assumptions C43_syntax.
(** The syntax is unambiguous, however the AST is made. *)
Theorem C43_unambiguous : forall props B u r r', pattern_text props B u r -> pattern_text props B u r' -> r = r'.
Proof. exact text_unique. Qed.
Print Assumptions C43_unambiguous.
(** Every text that compiles denotes an unrewritten AST with the same groups and the same language. *)
Theorem C43_language : forall props u r, several_letters u = false -> compile props u = CRegex r ->
  exists r0, pattern_text props plain_builders u r0 /\ find_captures r0 = find_captures r /\
    (fusible r0 = true -> forall s f p e lg, derives s f r0 p e lg <-> derives s f r p e lg).
Proof.
  intros props u r S H. destruct (compiled_denotes props u r S H) as (r0 & T & _). exists r0. split; [assumption|].
  pose proof (text_rel _ _ _ _ T H) as R. split; [apply R|]. intros G. exact (rel_derives _ _ R G).
Qed.
Print Assumptions C43_language.
(** From the text of the pattern to the answer: [match] says whether the subject is in the language denoted. *)
Theorem C43_match : forall props u r0 r opt n s f c, pattern_text props plain_builders u r0 -> compile props u = CRegex r -> fusible r0 = true ->
  forallb val_ok s = true -> sound_check opt f r = true -> complete_check opt f r tail_match = true -> ctre_match opt n s f r = Ok c ->
  (matched c = true <-> exists lg, derives s f r0 0 (List.length s) lg) /\
  (matched c = true -> exists lg, derives s f r0 0 (List.length s) lg /\ captures_are r0 c lg).
Proof. exact text_match. Qed.
Print Assumptions C43_match.
(** [search] finds the leftmost piece in the language denoted. *)
Theorem C43_search : forall props u r0 r opt n s f c, pattern_text props plain_builders u r0 -> compile props u = CRegex r -> fusible r0 = true ->
  forallb val_ok s = true -> starts_with_anchor f r = false -> sound_check opt f r = true -> complete_check opt f r tail_starts = true ->
  ctre_search opt n s f r = Ok c ->
  (matched c = true <-> exists b e lg, b <= List.length s /\ derives s f r0 b e lg) /\
  (matched c = true -> exists b e lg, group c 0 = Some (b, e) /\ derives s f r0 b e lg /\ captures_are r0 c lg /\
     forall b' e' lg', b' <= List.length s -> derives s f r0 b' e' lg' -> b <= b').
Proof. exact text_search. Qed.
Print Assumptions C43_search.

(** A reading by hand. *)
Definition chr (c : Z) : re := RCls (CChar c).
Example C43_ex_reading : forall B, b_lazy B (b_rep B 2 3 (b_ncap B 1 (codes "n") (b_alt B (chr 97) REmpty))) = Some (chr 120) ->
  pattern_text no_props B (codes "(?<n>a|){2,3}?[^b-d\n]\g{n}")
    (b_seq B (chr 120) (b_seq B (RCls (CNeg [CRange 98 100; CChar 10])) (RNBack (codes "n")))).
Proof.
  intros B HB. exists 1.
  assert (PL : forall c, existsb (Z.eqb c) metas = false -> ~ In c metas).
  { intros c E I. assert (existsb (Z.eqb c) metas = true) by (apply existsb_exists; exists c; split; [assumption|apply Z.eqb_refl]). congruence. }
  assert (IT : forall z k u r k', atom_text no_props B z k u r k' -> item_text no_props B z k u r k').
  { intros z k u r k' H. rewrite <- (app_nil_r u). econstructor; [exact H|constructor]. }
  assert (D : forall l, l <> [] -> forallb (fun c => (48 <=? c)%Z && (c <=? 57)%Z) l = true -> is_number l).
  { intros l N H. split; [assumption|]. apply Forall_forall. rewrite forallb_forall in H. intros c I. specialize (H c I). unfold is_digit. lia. }
  assert (NM : is_name (codes "n")).
  { exists 110%Z, []. split; [reflexivity|]. split; [left; right; lia|constructor]. }
  apply al_branch. change (codes "(?<n>a|){2,3}?[^b-d\n]\g{n}") with (codes "(?<n>a|){2,3}?" ++ codes "[^b-d\n]" ++ codes "\g{n}").
  apply bt_cons with (k1 := 1); [|apply bt_cons with (k1 := 1); [|apply bt_one]].
  - change (codes "(?<n>a|){2,3}?") with (codes "(?<n>a|)" ++ codes "{2,3}" ++ codes "?"). econstructor.
    + change (codes "(?<n>a|)") with (codes "(?<" ++ codes "n" ++ codes ">" ++ codes "a|" ++ codes ")"). apply at_named; [exact NM|].
      change (codes "a|") with (codes "a" ++ codes "|" ++ []). eapply al_more; [|apply rt_empty].
      apply bt_one, IT, at_leaf. apply (lt_plain no_props 1 97). apply PL. reflexivity.
    + eapply qu_lazy; [|exact HB]. apply (qb_between B (codes "2") (codes "3")); apply D; solve [discriminate | reflexivity].
  - apply IT, at_leaf. change (codes "[^b-d\n]") with (codes "[^" ++ codes "b-d\n" ++ codes "]"). apply (lt_not_set no_props 1 _ [CRange 98 100; CChar 10]).
    change (codes "b-d\n") with (codes "b-d" ++ codes "\n" ++ []). constructor; [|constructor; [|constructor]].
    + apply (si_range no_props [98%Z] 98 [100%Z] 100); constructor; cbn; intuition discriminate.
    + apply si_char. apply sc_escape. apply ce_control. cbn. auto 10.
  - apply IT. apply (at_name no_props B 1 (codes "n") NM).
Qed.
Example C43_ex :
  let p := "(?<n>a|){2,3}?[^b-d\n]\g{n}" in
  rx p = RSeq [RRep Lazy 2 3 [RNCap 1 (codes "n") [RSelect [chr 97; REmpty]]]; RCls (CNeg [CRange 98 100; CChar 10]); RNBack (codes "n")] /\
  several_letters (codes p) = false /\ fusible (px p) = true.
Proof. cbn zeta. split; [vm_compute; reflexivity|]. split; vm_compute; reflexivity. Qed.
Example C43_ex_match :
  let p := "(?:ab|(c))+?[^\d\x41-\x43]{1,2}|\x{61}$" in let s := codes "abc~~" in
  several_letters (codes p) = false /\ fusible (px p) = true /\ sound_check true plain_mode (rx p) = true /\
  complete_check true plain_mode (rx p) tail_match = true /\ complete_check true plain_mode (rx p) tail_starts = true /\
  starts_with_anchor plain_mode (rx p) = false /\
  (exists c, ctre_match true 200 s plain_mode (rx p) = Ok c /\ matched c = true /\ group c 1 = Some (2, 3)) /\
  exists c, ctre_search true 200 (codes "zab~") plain_mode (rx p) = Ok c /\ group c 0 = Some (1, 4).
Proof.
  cbn zeta. do 6 (split; [vm_compute; reflexivity|]). split; eexists; [split; [vm_compute; reflexivity|]; split; vm_compute; reflexivity|].
  split; vm_compute; reflexivity.
Qed.

(** ** Outside of the syntax *)
(** A mode switch of several letters compiles; here it even makes the text before it disappear. *)
Theorem C43_switch_refuted : exists u r, compile no_props u = CRegex r /\ forall B r', ~ pattern_text no_props B u r'.
Proof.
  exists (codes "x(?im)a"). eexists. split; [vm_compute; reflexivity|]. intros B r'.
  apply (no_text no_props B 60 _ PIll); [vm_compute; reflexivity|discriminate|intros c; discriminate].
Qed.
Print Assumptions C43_switch_refuted.
(** A reference by name at the very beginning of a named group: the name is taken for a part of the group's name. *)
Theorem C43_name_refuted : exists u v, compile no_props u = CIll /\ (exists r, compile no_props v = CRegex r) /\
  u = codes "(?<a>x)(?<b>" ++ codes "\g{a}" ++ codes ")" /\ v = codes "(?<a>x)(?<b>" ++ codes "(?=)\g{a}" ++ codes ")".
Proof. do 2 eexists. split; [|split; [|split; reflexivity]]; [vm_compute; reflexivity|eexists; vm_compute; reflexivity]. Qed.
Print Assumptions C43_name_refuted.
(** Texts other engines read and this library does not. *)
Theorem C43_elsewhere_refuted : forall p, In p ["a||b"; "||a"; "a{2}?"; "a{2}+"; "a{,3}"; "[a-]"; "[-a]"; "a{"; "]}"; "[]a]"; "(?i:a)"; "(?P<n>a)"; "\k<n>"; "(?#c)"; "a**"] ->
  compile no_props (codes p) = CReject.
Proof. intros p H. cbn [In] in H. repeat (destruct H as [<-|H]; [vm_compute; reflexivity|]). contradiction. Qed.
Print Assumptions C43_elsewhere_refuted.

(** * C38: several letters *)
(** At the beginning of the pattern all letters but the last are lost, whatever follows. *)
Theorem C38_last_letter : forall props cs c v r, Forall (fun d => exists m, In (d, m) mode_letters) (cs ++ [c]) ->
  compile props (codes "(?" ++ [c] ++ codes ")" ++ v) = CRegex r -> compile props (codes "(?" ++ (cs ++ [c]) ++ codes ")" ++ v) = CRegex r.
Proof. exact last_letter. Qed.
Print Assumptions C38_last_letter.
Example C38_ex_last :
  rx "(?ims)a+|(?<n>b)" = RSelect [RSeq [RMode ModeSL; RRep Greedy 1 0 [RCls (CChar 97)]]; RNCap 1 (codes "n") [RCls (CChar 98)]] /\
  rx "(?s)a+|(?<n>b)" = rx "(?ims)a+|(?<n>b)".
Proof. split; vm_compute; reflexivity. Qed.
