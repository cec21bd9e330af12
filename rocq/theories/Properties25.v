(** Counted repetition of any body (C20). *)
From Coq Require Import List ZArith NArith Bool Lia Arith String.
From Verif Require Import Chars Syntax First View Eval Api Spec CharProofs ApiProofs EvalTop Match Views Term Mode ModeSem ModeScope ModeCalls ModeTop
  Compiles Total Grammar Actions Parser Numbering Lang Properties2.
Import ListNotations.
Local Open Scope string_scope.
Local Open Scope list_scope.
Local Open Scope nat_scope.

(** The conditions of C47 and C48, all decidable on the pattern: no references, assertions, lookarounds and atomic groups,
    switches in their textual scope, and the sound, complete, terminating and well-formed fragments. *)
Definition exact_check (opt : bool) (f : flags) (r : re) : bool :=
  regular r && scope_check f r && terminating r && msound_check opt f r && right_check opt f r MMatch.

Lemma exact_match : forall opt s f r, forallb val_ok s = true -> well_numbered r -> exact_check opt f r = true ->
  exists c, answers (fun n => ctre_match opt n s f r) c /\ (matched c = true <-> word (textbook f r) s).
Proof.
  intros opt s f r Hs Hw H. unfold exact_check in H. repeat (apply andb_true_iff in H as [H ?]).
  destruct (match_right opt s f r Hs Hw) as (c & A & D & _); try assumption. exists c. split; [exact A|].
  rewrite D, whole_accepts by assumption. apply accepts_word.
Qed.
Lemma power_words : forall x k w, word (power k x) w <-> exists ws, w = List.concat ws /\ List.length ws = k /\ Forall (word x) ws.
Proof.
  intros x. induction k as [|k IH]; intros w; cbn [power].
  - split; [intros H; inversion H; exists []; auto|]. intros (ws & -> & L & _). destruct ws; [constructor|discriminate].
  - split.
    + intros H. inversion H as [| | | |x' y' w1 w2 H1 H2 E1 E2| |]; subst. apply IH in H2 as (ws & -> & L & F). exists (w1 :: ws). cbn. auto.
    + intros (ws & -> & L & F). destruct ws as [|u ws]; [discriminate|]. inversion F; subst. cbn. constructor; [assumption|].
      apply IH. exists ws. auto.
Qed.

(** A subject is matched by [x{a,b}] exactly if it is a concatenation of between [a] and [b] words of [x], for all kinds of
    repetition. [word] (Lang.v): the textbook meaning of a regular expression. *)
Theorem C20_body : forall opt s f kd a b x, forallb val_ok s = true -> well_numbered (RRep kd a b [x]) -> exact_check opt f (RRep kd a b [x]) = true ->
  exists c, answers (fun n => ctre_match opt n s f (RRep kd a b [x])) c /\
    (matched c = true <-> exists ws, s = List.concat ws /\ (a <= N.of_nat (List.length ws))%N /\ (b = 0%N \/ (N.of_nat (List.length ws) <= b)%N) /\
       Forall (word (textbook f x)) ws).
Proof.
  intros opt s f kd a b x Hs Hw H. destruct (exact_match opt s f _ Hs Hw H) as (c & A & E). exists c. split; [exact A|].
  rewrite E. change (textbook f (RRep kd a b [x])) with (between a b (denotes (mode_of f) [x])). rewrite between_power.
  assert (G : forall w, word (denotes (mode_of f) [x]) w <-> word (textbook f x) w).
  { intros w. destruct x; try (split; [intros X; inversion X as [| | | |x' y' w1 w2 X1 X2 E1 E2| |]; subst; inversion X2; rewrite app_nil_r; exact X1|
      intros X; rewrite <- (app_nil_r w); exact (w_cat _ _ _ _ X w_eps)]). reflexivity. }
  split.
  - intros (k & Ha & Hb & Hp). apply power_words in Hp as (ws & -> & <- & F).
    exists ws. split; [reflexivity|]. split; [exact Ha|]. split; [exact Hb|]. eapply Forall_impl; [|exact F]. intros w. apply G.
  - intros (ws & -> & Ha & Hb & F). exists (List.length ws). split; [exact Ha|]. split; [exact Hb|]. apply power_words.
    exists ws. split; [reflexivity|]. split; [reflexivity|]. eapply Forall_impl; [|exact F]. intros w. apply G.
Qed.
Print Assumptions C20_body.
(** The same between calls: each of the words is one that [match] with [x] accepts. *)
Theorem C20_body_calls : forall opt s f kd a b x, forallb val_ok s = true -> well_numbered (RRep kd a b [x]) -> well_numbered x ->
  exact_check opt f (RRep kd a b [x]) = true -> exact_check opt f x = true ->
  exists c, answers (fun n => ctre_match opt n s f (RRep kd a b [x])) c /\
    (matched c = true <-> exists ws, s = List.concat ws /\ (a <= N.of_nat (List.length ws))%N /\ (b = 0%N \/ (N.of_nat (List.length ws) <= b)%N) /\
       Forall (fun w => exists c', answers (fun n => ctre_match opt n w f x) c' /\ matched c' = true) ws).
Proof.
  intros opt s f kd a b x Hs Hw Hx H1 H2. destruct (C20_body opt s f kd a b x Hs Hw H1) as (c & A & D). exists c. split; [exact A|].
  rewrite D.
  assert (G : forall ws, s = List.concat ws -> forall w, In w ws -> (word (textbook f x) w <->
    exists c', answers (fun n => ctre_match opt n w f x) c' /\ matched c' = true)).
  { intros ws E w Hin.
    assert (Hv : forallb val_ok w = true).
    { apply forallb_forall. intros v Hv. rewrite forallb_forall in Hs. apply Hs. rewrite E. apply in_concat. exists w. auto. }
    destruct (exact_match opt w f x Hv Hx H2) as (c' & A' & E'). split.
    - intros Ha. exists c'. split; [exact A'|apply E'; exact Ha].
    - intros (c2 & (n2 & A2) & M2). destruct A' as (n1 & A1). specialize (A1 (n1 + n2) ltac:(lia)). specialize (A2 (n1 + n2) ltac:(lia)). cbn in *.
      apply E'. congruence. }
  split; intros (ws & E & Ha & Hb & F); exists ws; (split; [exact E|]); (split; [exact Ha|]); (split; [exact Hb|]);
    specialize (G ws E); rewrite Forall_forall in *; intros w Hin; apply (G w Hin); apply F; exact Hin.
Qed.
Print Assumptions C20_body_calls.
Example C20_body_ex : rx "(?:(a[0-9])|bc){2,3}" = RRep Greedy 2 3 [RSelect [RCap 1 [RCls (CChar 97); RCls (CSet [CRange 48 57])]; RStr [98; 99]]]%Z /\
  forallb (fun o => exact_check o plain_mode (rx "(?:(a[0-9])|bc){2,3}") && exact_check o plain_mode (rx "(a[0-9])|bc")) [true; false] = true /\
  numbered (rx "(?:(a[0-9])|bc){2,3}") = true /\ numbered (rx "(a[0-9])|bc") = true /\
  map (fun t => match ctre_match true 100 (codes t) plain_mode (rx "(?:(a[0-9])|bc){2,3}") with Ok c => matched c | _ => false end)
    ["a1"; "a1bc"; "bca2a3"; "bcbcbcbc"; "a1b"] = [false; true; true; false; false].
Proof. vm_compute. repeat split. Qed.
