(** Everyday texts: C76.

    [everyday u]: an ordinary text (C75) in which no switch, no possessive repetition and no complement other than [[^...]] stands. The condition
    is about the characters of the text alone. *)
From Coq Require Import List ZArith NArith Bool Lia Arith String.
From Verif Require Import Chars Syntax First Utf8 View Eval Api EvalInv ApiProofs EvalTop Views Compiles Total Term Grammar Actions Parser Numbering Utf8Proofs HardError Programs
  CharProofs CommittedTop Properties2 Properties14 Properties34 Properties45 Properties46.
Import ListNotations.
Local Open Scope string_scope.
Local Open Scope list_scope.

Definition more_words : list word := [switch; possessive; complement; other_named].
Definition everyday (u : list Z) : Prop := forall w, In w (more_words ++ words) -> ~ occurs w u.
Definition everydayb (u : list Z) : bool := forallb (fun w => negb (stands w u)) (more_words ++ words).
Lemma everyday_spec : forall u, everydayb u = true <-> everyday u.
Proof.
  intros u. unfold everydayb, everyday. rewrite forallb_forall. split; intros H w J.
  - intros O. apply stands_spec in O. specialize (H w J). rewrite O in H. discriminate H.
  - apply negb_true_iff. destruct (stands w u) eqn:E; [|reflexivity]. exfalso. apply (H w J), stands_spec, E.
Qed.

(** Such a text is rejected, or every call of the regex is a program, with the optimisation and without, on arrays, pointers and UTF-8. *)
Theorem C76_programs : forall props u, everyday u -> compile props u = CReject \/
  exists r, compile props u = CRegex r /\ forall opt a n f,
    (forall s, on_array a opt n s f r <> Ill) /\ (forall mem, on_pointer a opt n mem f r <> Ill) /\ (forall strict mem, on_u8 strict a opt n mem f r <> Ill).
Proof.
  intros props u H. destruct (simple_text props u H) as [(r & E & P & A)|E]; [right|left; exact E]. exists r. split; [exact E|].
  intros opt a n f. split; [|split]; intros; [apply C47_well_formed|apply C47_well_formed_pointer|apply C47_well_formed_u8]; apply plain_compiles; auto.
Qed.
Print Assumptions C76_programs.

(** And if every repetition ends (the check of C31), every call answers. *)
Theorem C76_answers : forall props u r, everyday u -> compile props u = CRegex r -> terminating r = true ->
  forall opt a f, (forall s, exists c, answers (fun n => on_array a opt n s f r) c) /\
    (forall s rest, ~ In 0%Z s -> exists c, answers (fun n => on_pointer a opt n (s ++ 0%Z :: rest) f r) c) /\
    (forall bs, u8_ok false r = true -> Forall byte bs -> exists c, answers (fun n => on_u8 false a opt n bs f r) c).
Proof.
  intros props u r H E T opt a f. destruct (simple_text props u H) as [(r' & E' & P & A)|E']; rewrite E in E'; [injection E' as <-|discriminate E'].
  split; [|split]; intros.
  - eapply C47_answers; try eassumption. apply plain_compiles; auto.
  - eapply C47_answers_pointer; try eassumption. apply plain_compiles; auto.
  - eapply C47_answers_u8; try eassumption. apply plain_compiles; auto.
Qed.
Print Assumptions C76_answers.

(** The answer is the best of the outcomes that C64 lists, if the characters of the regex are those of the tables and no group refers to itself ([meant_check]). *)
Theorem C76_exact : forall props u r, everyday u -> compile props u = CRegex r -> terminating r = true -> forall a opt s f, forallb val_ok s = true -> meant_check f r = true ->
  exists c, answers (fun n => on_array a opt n s f r) c /\ tells r c (hd_error (means a opt s f r)).
Proof.
  intros props u r H E T a opt s f V K. destruct (simple_text props u H) as [(r' & E' & P & A)|E']; rewrite E in E'; [injection E' as <-|discriminate E'].
  eapply C64_exact; try eassumption. apply plain_compiles; auto.
Qed.
Print Assumptions C76_exact.

(** None of the four words can be left out: with the optimisation there is a call without overload. *)
Theorem C76_needed : forall w, In w more_words -> exists u r, (forall w', In w' (more_words ++ words) -> occurs w' u -> w' = w) /\ compile no_props u = CRegex r /\
  exists s n, ctre_match true n s plain_mode r = Ill.
Proof.
  assert (G : forall i t, forallb (fun j => Bool.eqb (stands (nth j (more_words ++ words) []) (codes t)) (Nat.eqb j i)) (seq 0 12) = true ->
    forall w', In w' (more_words ++ words) -> occurs w' (codes t) -> w' = nth i (more_words ++ words) []).
  { intros i t H w' J O. rewrite forallb_forall in H. apply stands_spec in O. destruct (In_nth _ _ [] J) as (j & Hj & <-). change (List.length (more_words ++ words)) with 12 in Hj.
    specialize (H j (proj2 (in_seq 12 0 j) (conj (Nat.le_0_l _) Hj))). apply eqb_prop in H.
    assert (Q : Nat.eqb j i = true) by (rewrite <- H; exact O). apply Nat.eqb_eq in Q as ->. reflexivity. }
  intros w [<-|[<-|[<-|[<-|[]]]]].
  - exists (codes "a*(?i)b"). eexists. split; [apply (G 0 "a*(?i)b"); vm_compute; reflexivity|]. split; [vm_compute; reflexivity|]. exists (codes "ab"), 50. vm_compute. reflexivity.
  - exists (codes "b*a*+a++"). eexists. split; [apply (G 1 "b*a*+a++"); vm_compute; reflexivity|]. split; [vm_compute; reflexivity|]. exists (codes "ab"), 50. vm_compute. reflexivity.
  - exists (codes "a*[^\D]"). eexists. split; [apply (G 2 "a*[^\D]"); vm_compute; reflexivity|]. split; [vm_compute; reflexivity|]. exists (codes "ab"), 50. vm_compute. reflexivity.
  - exists (codes "a*[[:^alpha:]]"). eexists. split; [apply (G 3 "a*[[:^alpha:]]"); vm_compute; reflexivity|]. split; [vm_compute; reflexivity|]. exists (codes "ab"), 50. vm_compute. reflexivity.
Qed.
Print Assumptions C76_needed.

(** Not vacuous: everyday texts that are regexes and end; near misses that are not everyday texts. *)
Example C76_ex : forallb (fun t => everydayb (codes t) && terminating (rx t) && analysable (rx t) && meant_check plain_mode (rx t))
  ["[a-zA-Z_][a-zA-Z0-9_]*"; "([0-9]{4})/([0-9]{1,2})/([0-9]{1,2})"; "(?:ab|cd)+?e"; "([^@]+)@([a-z]+\.[a-z]+)"; "^\s*#(?:include|define)\b(.*)$"; "x(?=y)[yz]|(?!q)x[^\d]*";
   "(?<year>\d{4})-(?<month>\d\d)"; "-?[0-9]+(?:\.[0-9]+)?(?:[eE][+\-]?[0-9]+)?"; "([^&=]+)=([^&]*)(?:&([^&=]+)=([^&]*))*"; """(?:[^""\\]|\\.)*"""; "\x41é?[[:alpha:]_]{2,}\B"] = true.
Proof. vm_compute. reflexivity. Qed.
Example C76_ex_words : forallb (fun t => ordinaryb (codes t) && negb (everydayb (codes t)))
  ["(?i)a"; "a(?m)^b"; "a++"; "a?+"; "a{2}+"; "a*+"; "\D"; "\N"; "[[:^alpha:]]"] && forallb (fun t => everydayb (codes t)) ["(?:i)a"; "a+?b"; "a+\+"; "\d"; "[^[:alpha:]]"; "[:alpha:^]"] = true.
Proof. vm_compute. reflexivity. Qed.
Example C76_ex_call : exists c, answers (fun n => on_array MSearch true n (codes "see #include <x>") plain_mode (rx "\s*#(?:include|define)\b(.*)$")) c.
Proof.
  assert (O : everyday (codes "\s*#(?:include|define)\b(.*)$")) by (apply everyday_spec; vm_compute; reflexivity).
  assert (E : exists r, compile no_props (codes "\s*#(?:include|define)\b(.*)$") = CRegex r /\ rx "\s*#(?:include|define)\b(.*)$" = r /\ terminating r = true)
    by (eexists; split; [vm_compute; reflexivity|]; split; vm_compute; reflexivity).
  destruct E as (r & E & -> & T). exact (proj1 (C76_answers no_props _ r O E T true MSearch plain_mode) _).
Qed.
