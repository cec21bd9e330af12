(** Exact answers from the text alone: C79.

    The check of the characters of C78 replaced by conditions on the text: every character is between 0 and 2^31, no eight hexadecimal digits in a row, no minus sign. *)
From Coq Require Import List ZArith NArith Bool Lia Arith String.
From Verif Require Import Chars Syntax First Utf8 View Eval Api EvalInv ApiProofs EvalTop Views Compiles Total Term Grammar Actions Parser Numbering Utf8Proofs HardError Programs
  CharProofs ModeCalls CommittedTop Full Neat Utf8Proofs Anchor Properties2 Properties14 Properties28 Properties34 Properties39 Properties45 Properties46 Properties47 Properties48 Properties49.
Import ListNotations.
Local Open Scope string_scope.
Local Open Scope list_scope.

(** The tables of the Unicode properties are in the range of the characters. *)
Definition in_tables (props : list Z -> option (list Z) -> option (list (Z * Z))) : Prop :=
  forall n x t, props n x = Some t -> forall a b, In (a, b) t -> (0 <= a /\ b < 2147483648)%Z.
Definition plain_characters (u : list Z) : Prop := forall v, In v u -> (0 <= v < 2147483648)%Z.
Definition long_hex : word := repeat set12 8.
Definition no_minus (u : list Z) : Prop := ~ In 45%Z u.

Lemma tables_lit : forall props, in_tables props -> forall n x t, props n x = Some t -> lit_cls (CProp t) = true.
Proof. intros props H n x t E. apply forallb_forall. intros [a b] I. specialize (H n x t E a b I). cbn [fst snd]. lia. Qed.
Lemma characters_lit : forall u, plain_characters u -> forallb lit_ok u = true.
Proof. intros u H. apply forallb_forall. intros v I. specialize (H v I). unfold lit_ok. lia. Qed.

(** Whatever the text: the literals of the regex are characters below 2^31 ... *)
Theorem C79_literals : forall props u r, in_tables props -> plain_characters u -> ~ occurs long_hex u -> compile props u = CRegex r -> every lit_cls r = true.
Proof.
  intros props u r T C O E. apply (text_lits props u r (tables_lit props T)); [|exact (characters_lit u C)|exact E].
  destruct (short 0 u) eqn:S; [reflexivity|]. exfalso. apply O. exact (short_word u 0 [] S eq_refl (Forall_nil _)).
Qed.
Print Assumptions C79_literals.
(** ... and without a minus sign all ranges are those of the named classes: in order, and closed under the change of case where that matters. *)
Theorem C79_ranges : forall props u r ci, no_minus u -> compile props u = CRegex r -> every (range_cls ci) r = true.
Proof. exact (fun props u r ci H E => text_ranges ci props u r H E). Qed.
Print Assumptions C79_ranges.

(** Everyday texts: what remains to be checked of the regex is that its ranges are in order. *)
Theorem C79_everyday : forall props u, everyday u -> ~ occurs group_repeat u -> fits u -> in_tables props -> plain_characters u -> ~ occurs long_hex u -> compile props u = CReject \/
  exists r, compile props u = CRegex r /\ forall f, every (range_cls (f_ci f)) r = true ->
    forall opt a s, forallb val_ok s = true -> exists c, answers (fun n => on_array a opt n s f r) c /\ tells r c (hd_error (means a opt s f r)).
Proof.
  intros props u H G L T C O. destruct (C78_everyday props u H G L) as [E|(r & E & K)]; [left; exact E|right]. exists r. split; [exact E|].
  intros f R. apply K. apply tree_both; [exact (C79_literals props u r T C O E)|]. intros m I.
  assert (S : HardError.simple r = true).
  { destruct (no_hard_error props false true true false u) as [(r' & E' & _ & S & _)|E']; [|rewrite E in E'; injection E' as <-; auto|congruence].
    intros w J. apply H. unfold more_words, words. cbn [excluded app In] in *. intuition. }
  rewrite (modes_single f r S m I). exact R.
Qed.
Print Assumptions C79_everyday.

(** Nothing to be checked but the text: rejected, or every call answers with the best outcome, under all flags, with the optimisation and without. *)
Theorem C79_text : forall props u, everyday u -> ~ occurs group_repeat u -> fits u -> in_tables props -> plain_characters u -> ~ occurs long_hex u -> no_minus u -> compile props u = CReject \/
  exists r, compile props u = CRegex r /\
    forall f opt a s, forallb val_ok s = true -> exists c, answers (fun n => on_array a opt n s f r) c /\ tells r c (hd_error (means a opt s f r)).
Proof.
  intros props u H G L T C O M. destruct (C79_everyday props u H G L T C O) as [E|(r & E & K)]; [left; exact E|right]. exists r. split; [exact E|].
  intros f. apply K. exact (C79_ranges props u r (f_ci f) M E).
Qed.
Print Assumptions C79_text.

(** The same for the other kinds of subject and for ranges: the checks of C64, C69 and C70 hold (C69 has one more, for patterns that start with an anchor). *)
Theorem C79_checks : forall props u r f, everyday u -> ~ occurs group_repeat u -> fits u -> in_tables props -> plain_characters u -> ~ occurs long_hex u -> no_minus u -> compile props u = CRegex r ->
  meant_check f r = true /\ terminating r = true /\ forall opt a, compiles opt true r (tail_of a) = true.
Proof.
  intros props u r f H G L T C O M E. destruct (simple_text props u H) as [(r' & E' & P & A)|E']; rewrite E in E'; [injection E' as <-|discriminate E'].
  assert (Tm : terminating r = true).
  { apply (C77_ends props u r); [|left; apply H; cbn; tauto|exact L|exact E]. intros w [<-|J]; [exact G|]. apply H. apply in_or_app. right. do 3 right. exact J. }
  split; [|split; [exact Tm|intros opt a; apply plain_compiles; auto]]. apply (plain_meant props u r f E P Tm). apply tree_both; [exact (C79_literals props u r T C O E)|].
  intros m _. exact (C79_ranges props u r (snd m) M E).
Qed.
Print Assumptions C79_checks.
Theorem C79_calls : forall props u r f, everyday u -> ~ occurs group_repeat u -> fits u -> in_tables props -> plain_characters u -> ~ occurs long_hex u -> no_minus u -> compile props u = CRegex r ->
  forall opt a,
    (forall s rest, forallb val_ok s = true -> ~ In 0%Z s -> exists c, answers (fun n => on_pointer a opt n (s ++ 0%Z :: rest) f r) c /\ tells r c (hd_error (means a opt s f r))) /\
    (forall t, wf_text t -> u8_ok true r = true -> exists c c', answers (fun n => on_u8 true a opt n (encode t) f r) c' /\ tells r c (hd_error (means a opt t f r)) /\
       matched c' = matched c /\ forall id, group c' id = option_map (move_span (offset t)) (group c id)) /\
    (zero_safe r = true -> exact_check opt f r = true).
Proof.
  intros props u r f H G L T C O M E opt a. destruct (C79_checks props u r f H G L T C O M E) as (K & Tm & Cp). split; [|split].
  - intros s rest V N0. eapply C64_pointer; try eassumption. apply Cp.
  - intros t Ht Hu. eapply C64_utf8; try eassumption. apply Cp.
  - intros Z0. unfold exact_check. rewrite K, Tm, Z0. exact (Cp opt MStarts).
Qed.
Print Assumptions C79_calls.

(** No condition can be left out: with the minus sign there is a call that misses an outcome; with eight digits, or a character from 2^31 on, one that succeeds without one. *)
Definition all_but (u : list Z) : Prop := everyday u /\ ~ occurs group_repeat u /\ fits u.
Definition all_butb (u : list Z) : bool := shortb u && (N.of_nat (List.length u) <? 2 ^ 58)%N.
Lemma all_but_spec : forall u, all_butb u = true -> all_but u.
Proof.
  intros u H. unfold all_butb, shortb in H. apply andb_true_iff in H as [H L]. apply andb_true_iff in H as [H G]. split; [apply everyday_spec; exact H|]. split.
  - intros O. apply stands_spec in O. rewrite O in G. discriminate G.
  - apply N.ltb_lt. exact L.
Qed.
Lemma hex_spec : forall u, stands long_hex u = false -> ~ occurs long_hex u.
Proof. intros u H O. apply stands_spec in O. congruence. Qed.
Lemma characters_spec : forall u, forallb lit_ok u = true -> plain_characters u.
Proof. intros u H v I. rewrite forallb_forall in H. specialize (H v I). unfold lit_ok in H. lia. Qed.
Theorem C79_needed :
  (exists u r f s c, all_but u /\ plain_characters u /\ ~ occurs long_hex u /\ compile no_props u = CRegex r /\ forallb val_ok s = true /\
     answers (fun n => on_array MMatch false n s f r) c /\ matched c = false /\ means MMatch false s f r <> []) /\
  (exists u r f s c, all_but u /\ plain_characters u /\ no_minus u /\ compile no_props u = CRegex r /\ forallb val_ok s = true /\
     answers (fun n => on_array MMatch false n s f r) c /\ matched c = true /\ means MMatch false s f r = []) /\
  (exists u r f s c, all_but u /\ ~ occurs long_hex u /\ no_minus u /\ compile no_props u = CRegex r /\ forallb val_ok s = true /\
     answers (fun n => on_array MMatch false n s f r) c /\ matched c = true /\ means MMatch false s f r = []).
Proof.
  split; [|split].
  - exists (codes "[Z-a]"). eexists. exists (mkFlags false false true), (codes "A"). eexists. split; [apply all_but_spec; vm_compute; reflexivity|].
    split; [apply characters_spec; vm_compute; reflexivity|]. split; [apply hex_spec; vm_compute; reflexivity|]. split; [vm_compute; reflexivity|]. split; [vm_compute; reflexivity|].
    split; [exists 20; intros m Hm; do 20 (destruct m as [|m]; [exfalso; lia|]); vm_compute; reflexivity|]. split; [vm_compute; reflexivity|vm_compute; discriminate].
  - exists (codes "\x{80000000}"). eexists. exists plain_mode, [(-2147483648)%Z]. eexists. split; [apply all_but_spec; vm_compute; reflexivity|].
    split; [apply characters_spec; vm_compute; reflexivity|]. split; [vm_compute; intuition discriminate|]. split; [vm_compute; reflexivity|]. split; [vm_compute; reflexivity|].
    split; [exists 20; intros m Hm; do 20 (destruct m as [|m]; [exfalso; lia|]); vm_compute; reflexivity|]. split; [vm_compute; reflexivity|vm_compute; reflexivity].
  - exists [2147483648%Z]. eexists. exists plain_mode, [(-2147483648)%Z]. eexists. split; [apply all_but_spec; vm_compute; reflexivity|].
    split; [apply hex_spec; vm_compute; reflexivity|]. split; [vm_compute; intuition discriminate|]. split; [vm_compute; reflexivity|]. split; [vm_compute; reflexivity|].
    split; [exists 20; intros m Hm; do 20 (destruct m as [|m]; [exfalso; lia|]); vm_compute; reflexivity|]. split; [vm_compute; reflexivity|vm_compute; reflexivity].
Qed.
Print Assumptions C79_needed.

(** Not vacuous. *)
Definition neatb (u : list Z) : bool := all_butb u && forallb lit_ok u && negb (stands long_hex u) && negb (existsb (Z.eqb 45) u).
Lemma neatb_spec : forall u, neatb u = true -> all_but u /\ plain_characters u /\ ~ occurs long_hex u /\ no_minus u.
Proof.
  intros u H. unfold neatb in H. apply andb_true_iff in H as [H M]. apply andb_true_iff in H as [H X]. apply andb_true_iff in H as [H C].
  split; [apply all_but_spec; exact H|]. split; [apply characters_spec; exact C|]. split; [apply hex_spec; apply negb_true_iff; exact X|].
  intros I. apply negb_true_iff in M. assert (E : existsb (Z.eqb 45) u = true) by (apply existsb_exists; exists 45%Z; split; [exact I|reflexivity]). congruence.
Qed.
Example C79_ex : forallb (fun t => neatb (codes t) && negb (re_eqb (rx t) RReject))
  ["(\d{4})/(\d{1,2})/(\d{1,2})"; "([^@]+)@(\w+\.\w+)"; "^\s*#(?:include|define)\b(.*)$"; "x(?=y)[yz]|(?!q)x[^\d]*"; "(?<key>[[:alpha:]_]\w*)\s*=\s*(?<value>[^;]*);";
   "\x{1F600}|é[\x41\x{fffffff}]"; "0x[[:xdigit:]]+"] = true.
Proof. vm_compute. reflexivity. Qed.
Example C79_ex_words : forallb (fun t => negb (neatb (codes t)) && everydayb (codes t)) ["[a-z]"; "\x{80000000}"; "(?:ab)+"; "deadbeef"] && neatb (codes "\x{7fffff}deadbee") = true.
Proof. vm_compute. reflexivity. Qed.
Example C79_ex_tables : in_tables no_props.
Proof. intros n x t E. discriminate E. Qed.
Example C79_ex_call : forall f opt a s, forallb val_ok s = true ->
  exists c, answers (fun n => on_array a opt n s f (rx "(\d{4})/(\d{1,2})")) c /\ tells (rx "(\d{4})/(\d{1,2})") c (hd_error (means a opt s f (rx "(\d{4})/(\d{1,2})"))).
Proof.
  assert (N : neatb (codes "(\d{4})/(\d{1,2})") = true) by (vm_compute; reflexivity). apply neatb_spec in N as ((H & G & L) & C & O & M).
  assert (E : exists r, compile no_props (codes "(\d{4})/(\d{1,2})") = CRegex r /\ rx "(\d{4})/(\d{1,2})" = r) by (eexists; split; vm_compute; reflexivity).
  destruct E as (r & E & ->). destruct (C79_text no_props _ H G L C79_ex_tables C O M) as [E'|(r' & E' & A)]; rewrite E in E'; [discriminate E'|]. injection E' as <-. exact A.
Qed.
(** The two further conditions of C79_calls hold of the patterns above. *)
Example C79_ex_calls : forallb (fun t => neatb (codes t) && zero_safe (rx t) && u8_ok true (rx t))
  ["(\d{4})/(\d{1,2})/(\d{1,2})"; "([^@]+)@(\w+\.\w+)"; "^\s*#(?:include|define)\b(.*)$"; "(?<key>[[:alpha:]_]\w*)\s*=\s*(?<value>[^;]*);"] = true.
Proof. vm_compute. reflexivity. Qed.
