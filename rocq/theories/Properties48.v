(** Texts all of whose calls answer: C77.

    [group_repeat]: a closing parenthesis followed by a star, a plus or an opening brace. Without it the bodies of the repetitions written in the text are single
    characters, classes and assertions. The conditions are about the characters of the text alone. *)
From Coq Require Import List ZArith NArith Bool Lia Arith String.
From Verif Require Import Chars Syntax First Utf8 View Eval Api EvalInv ApiProofs EvalTop Views Compiles Total Term Grammar Actions Parser Numbering Utf8Proofs HardError Programs
  CharProofs CommittedTop Properties2 Properties3 Properties14 Properties34 Properties45 Properties46 Properties47.
Import ListNotations.
Local Open Scope string_scope.
Local Open Scope list_scope.

(** Texts that fit into memory: the number of characters is less than 2^58. *)
Definition fits (u : list Z) : Prop := (N.of_nat (List.length u) < 2 ^ 58)%N.

(** The repetitions of such a text end: the check of C31 holds, also after the fusion of repetitions. *)
Theorem C77_ends : forall props u r, (forall w, In w (group_repeat :: hazards) -> ~ occurs w u) -> ~ occurs lookbehind u \/ ~ occurs switch u -> fits u ->
  compile props u = CRegex r -> terminating r = true.
Proof. exact quick_text. Qed.
Print Assumptions C77_ends.

(** Ordinary texts (C75) without repetitions of groups: rejected, or every call without the optimisation answers on every subject. *)
Theorem C77_ordinary : forall props u, ordinary u -> ~ occurs group_repeat u -> fits u -> compile props u = CReject \/
  exists r, compile props u = CRegex r /\ forall a f, (forall s, exists c, answers (fun n => on_array a false n s f r) c) /\
    (forall s rest, ~ In 0%Z s -> exists c, answers (fun n => on_pointer a false n (s ++ 0%Z :: rest) f r) c) /\
    (forall bs, u8_ok false r = true -> Forall byte bs -> exists c, answers (fun n => on_u8 false a false n bs f r) c).
Proof.
  intros props u H G L. destruct (plain_text props u H) as [(r & E & _)|E]; [right|left; exact E]. exists r. split; [exact E|].
  assert (T : terminating r = true).
  { apply (C77_ends props u r); [|left; apply H; left; reflexivity|exact L|exact E]. intros w [<-|J]; [exact G|]. apply H. do 3 right. exact J. }
  exact (C75_answers props u r H E T false ltac:(discriminate)).
Qed.
Print Assumptions C77_ordinary.

(** Everyday texts (C76) without repetitions of groups: rejected, or every call answers on every subject, with the optimisation and without. *)
Theorem C77_everyday : forall props u, everyday u -> ~ occurs group_repeat u -> fits u -> compile props u = CReject \/
  exists r, compile props u = CRegex r /\ forall opt a f, (forall s, exists c, answers (fun n => on_array a opt n s f r) c) /\
    (forall s rest, ~ In 0%Z s -> exists c, answers (fun n => on_pointer a opt n (s ++ 0%Z :: rest) f r) c) /\
    (forall bs, u8_ok false r = true -> Forall byte bs -> exists c, answers (fun n => on_u8 false a opt n bs f r) c) /\
    (forall s, forallb val_ok s = true -> meant_check f r = true -> exists c, answers (fun n => on_array a opt n s f r) c /\ tells r c (hd_error (means a opt s f r))).
Proof.
  intros props u H G L. destruct (simple_text props u H) as [(r & E & _)|E]; [right|left; exact E]. exists r. split; [exact E|].
  assert (T : terminating r = true).
  { apply (C77_ends props u r); [|left; apply H; cbn; tauto|exact L|exact E]. intros w [<-|J]; [exact G|]. apply H. apply in_or_app. right. do 3 right. exact J. }
  intros opt a f. destruct (C76_answers props u r H E T opt a f) as (A1 & A2 & A3). split; [exact A1|]. split; [exact A2|]. split; [exact A3|].
  intros s V K. exact (C76_exact props u r H E T a opt s f V K).
Qed.
Print Assumptions C77_everyday.

(** The word cannot be left out: an everyday text with a call that never answers. *)
Theorem C77_needed : exists u r s, everyday u /\ compile no_props u = CRegex r /\ forall opt n, ctre_match opt n s plain_mode r = Fuel.
Proof.
  exists (codes "(?:a*[a]?)*"), loop_re, [98%Z]. split; [apply everyday_spec; vm_compute; reflexivity|]. split; [vm_compute; reflexivity|].
  intros opt n. exact (proj1 (loop_forever opt n false)).
Qed.
Print Assumptions C77_needed.

(** Not vacuous: everyday texts, among them fused options of groups; texts with the word, and near misses. *)
Definition shortb (u : list Z) : bool := everydayb u && negb (stands group_repeat u).
Example C77_ex : forallb (fun t => shortb (codes t) && terminating (rx t))
  ["[a-zA-Z_][a-zA-Z0-9_]*"; "([0-9]{4})/([0-9]{1,2})/([0-9]{1,2})"; "([^@]+)@([a-z]+\.[a-z]+)"; "^\s*#(?:include|define)\b(.*)$"; "x(?=y)[yz]|(?!q)x[^\d]*"; "(?<year>\d{4})-(?<month>\d\d)";
   "-?[0-9]+(?:\.[0-9]+)?(?:[eE][+\-]?[0-9]+)?"; "(?:a*)?(?:a*)?(?:a*)?b"; "^*a$+\b{2,}"; "(a|b*)??c{3,}"] = true.
Proof. vm_compute. reflexivity. Qed.
Example C77_ex_fused : rx "(?:a*)?(?:a*)?b" = RSeq [RRep Greedy 0 2 [RRep Greedy 0 0 [RCls (CChar 97)]]; RCls (CChar 98)].
Proof. vm_compute. reflexivity. Qed.
Example C77_ex_words : forallb (fun t => everydayb (codes t) && stands group_repeat (codes t)) ["(a)*"; "(?:ab)+?c"; "(a){2}"] &&
  forallb (fun t => shortb (codes t)) ["(a)?"; "(a*)b*"; "\(a+b{2}"] = true.
Proof. vm_compute. reflexivity. Qed.
Example C77_ex_call : forall opt a s, exists c, answers (fun n => on_array a opt n s plain_mode (rx "(?:a*)?(?:a*)?b")) c.
Proof.
  intros opt a s. assert (H : everyday (codes "(?:a*)?(?:a*)?b")) by (apply everyday_spec; vm_compute; reflexivity).
  assert (G : ~ occurs group_repeat (codes "(?:a*)?(?:a*)?b")).
  { intros O. apply stands_spec in O. assert (X : stands group_repeat (codes "(?:a*)?(?:a*)?b") = false) by (vm_compute; reflexivity). congruence. }
  assert (L : fits (codes "(?:a*)?(?:a*)?b")) by (vm_compute; reflexivity).
  assert (E : exists r, compile no_props (codes "(?:a*)?(?:a*)?b") = CRegex r /\ rx "(?:a*)?(?:a*)?b" = r) by (eexists; split; vm_compute; reflexivity).
  destruct E as (r & E & ->). destruct (C77_everyday no_props _ H G L) as [E'|(r' & E' & A)]; rewrite E in E'; [discriminate E'|]. injection E' as <-. exact (proj1 (A opt a plain_mode) s).
Qed.
