(** The shape of compiled trees, and exact answers of ordinary and everyday texts: C78.

    In a compiled tree nothing is empty. For ordinary texts (C75) the check of C64 then comes down to the characters: [chars_ok], each below 2^31, each range in order,
    and a range of the case-insensitive mode either of letters of one case or closed under the change of case. *)
From Coq Require Import List ZArith NArith Bool Lia Arith String.
From Verif Require Import Chars Syntax First Utf8 View Eval Api EvalInv ApiProofs EvalTop Views Compiles Total Term Grammar Actions Parser Numbering Utf8Proofs HardError Programs
  CharProofs ModeCalls CommittedTop Full Properties2 Properties14 Properties34 Properties45 Properties46 Properties47 Properties48.
Import ListNotations.
Local Open Scope string_scope.
Local Open Scope list_scope.

(** Whatever the text: every sequence, alternative, repetition, group, lookaround and atomic group of the compiled tree has content. *)
Theorem C78_full : forall props u r, compile props u = CRegex r -> full r = true.
Proof. exact compiled_full. Qed.
Print Assumptions C78_full.

(** Ordinary texts: exact answers without the optimisation. *)
Theorem C78_ordinary : forall props u r f, ordinary u -> compile props u = CRegex r -> terminating r = true -> chars_ok (modes_in f r) r = true ->
  forall a s, forallb val_ok s = true -> exists c, answers (fun n => on_array a false n s f r) c /\ tells r c (hd_error (means a false s f r)).
Proof.
  intros props u r f H E T C a s V. destruct (plain_text props u H) as [(r' & E' & P)|E']; rewrite E in E'; [injection E' as <-|discriminate E'].
  eapply C64_exact; try eassumption; [eapply plain_meant; eassumption|]. apply plain_compiles; [exact P|discriminate].
Qed.
Print Assumptions C78_ordinary.

(** Everyday texts without repetitions of groups: every call is exact, with the optimisation and without. *)
Theorem C78_everyday : forall props u, everyday u -> ~ occurs group_repeat u -> fits u -> compile props u = CReject \/
  exists r, compile props u = CRegex r /\ forall f, chars_ok (modes_in f r) r = true ->
    forall opt a s, forallb val_ok s = true -> exists c, answers (fun n => on_array a opt n s f r) c /\ tells r c (hd_error (means a opt s f r)).
Proof.
  intros props u H G L. destruct (simple_text props u H) as [(r & E & P & _)|E]; [right|left; exact E]. exists r. split; [exact E|].
  assert (T : terminating r = true).
  { apply (C77_ends props u r); [|left; apply H; cbn; tauto|exact L|exact E]. intros w [<-|J]; [exact G|]. apply H. apply in_or_app. right. do 3 right. exact J. }
  intros f C opt a s V. apply (C76_exact props u r H E T a opt s f V). eapply plain_meant; eassumption.
Qed.
Print Assumptions C78_everyday.

(** The condition on the characters cannot be left out: an everyday text, case-insensitive, with an outcome that the call does not find. *)
Theorem C78_needed : exists u r f s, everyday u /\ ~ occurs group_repeat u /\ fits u /\ compile no_props u = CRegex r /\ forallb val_ok s = true /\
  means MMatch false s f r <> [] /\ exists c, answers (fun n => on_array MMatch false n s f r) c /\ matched c = false.
Proof.
  exists (codes "[Z-a]"). eexists. exists (mkFlags false false true), (codes "A"). split; [apply everyday_spec; vm_compute; reflexivity|].
  split; [intros O; apply stands_spec in O; assert (X : stands group_repeat (codes "[Z-a]") = false) by (vm_compute; reflexivity); congruence|].
  split; [vm_compute; reflexivity|]. split; [vm_compute; reflexivity|]. split; [vm_compute; reflexivity|]. split; [vm_compute; discriminate|].
  eexists. split; [|shelve]. exists 20. intros m Hm.
  do 20 (destruct m as [|m]; [exfalso; lia|]). vm_compute. reflexivity.
  Unshelve. vm_compute. reflexivity.
Qed.
Print Assumptions C78_needed.

(** Not vacuous: texts that meet the conditions, in both cases; trees with every kind of list. *)
Definition either_case (r : re) : bool := chars_ok (modes_in plain_mode r) r && chars_ok (modes_in (mkFlags false false true) r) r.
Example C78_ex : forallb (fun t => shortb (codes t) && either_case (rx t))
  ["[a-zA-Z_][a-zA-Z0-9_]*"; "([0-9]{4})/([0-9]{1,2})/([0-9]{1,2})"; "([^@]+)@([a-z]+\.[a-z]+)"; "^\s*#(?:include|define)\b(.*)$"; "x(?=y)[yz]|(?!q)x[^\d]*"; "(?<year>\d{4})-(?<month>\d\d)";
   "\x{1F600}[[:alnum:]\-]+|é"; "[[:punct:]\w]?\n{2,3}"] = true.
Proof. vm_compute. reflexivity. Qed.
Example C78_ex_chars : forallb (fun t => shortb (codes t) && negb (either_case (rx t))) ["[Z-a]"; "[z-a]"; "\x{80000000}"; "a[b_-q]"] = true.
Proof. vm_compute. reflexivity. Qed.
Example C78_ex_full : forallb (fun t => full (rx t)) ["(?<=ab|(c))(?>d|)e*"; "()(|)[](?:)*"; "(?<n>)(?=)(?!x)(?<!yz*)"; "a*+a++"] &&
  negb (full (RCap 1 [])) && negb (full (RSeq [RSelect []])) && negb (full (RBehind true [])) = true.
Proof. vm_compute. reflexivity. Qed.
