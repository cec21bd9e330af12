(** Texts all of whose calls are programs: C75.

    [ordinary u]: none of the hazard words of C74, no lookbehind, no atomic group, no backreference stands in the text. [analysable r]: the analysis of
    first characters has an overload for every node: no switch, no fused possessive repetitions that cannot match, no complement below a complement. *)
From Coq Require Import List ZArith NArith Bool Lia Arith String.
From Verif Require Import Chars Syntax First Utf8 View Eval Api EvalInv ApiProofs EvalTop Views Compiles Total Term Grammar Actions Parser Numbering Utf8Proofs HardError Programs
  Properties2 Properties14 Properties45.
Import ListNotations.
Local Open Scope string_scope.
Local Open Scope list_scope.

Definition words : list word := lookbehind :: atomic_start :: reference :: hazards.
Definition ordinary (u : list Z) : Prop := forall w, In w words -> ~ occurs w u.
Definition ordinaryb (u : list Z) : bool := forallb (fun w => negb (stands w u)) words.
Lemma ordinary_spec : forall u, ordinaryb u = true <-> ordinary u.
Proof.
  intros u. unfold ordinaryb, ordinary. rewrite forallb_forall. split; intros H w J.
  - intros O. apply stands_spec in O. specialize (H w J). rewrite O in H. discriminate H.
  - apply negb_true_iff. destruct (stands w u) eqn:E; [|reflexivity]. exfalso. apply (H w J), stands_spec, E.
Qed.

(** Such a text is rejected, or every call of the regex is a program, on arrays, pointers and UTF-8: without the optimisation always, with it if the regex
    can be analysed. *)
Theorem C75_programs : forall props u, ordinary u -> compile props u = CReject \/
  exists r, compile props u = CRegex r /\ forall opt, (opt = true -> analysable r = true) -> forall a n f,
    (forall s, on_array a opt n s f r <> Ill) /\ (forall mem, on_pointer a opt n mem f r <> Ill) /\ (forall strict mem, on_u8 strict a opt n mem f r <> Ill).
Proof.
  intros props u H. destruct (plain_text props u H) as [(r & E & P)|E]; [right|left; exact E]. exists r. split; [exact E|].
  intros opt A a n f. split; [|split]; intros; [apply C47_well_formed|apply C47_well_formed_pointer|apply C47_well_formed_u8]; apply plain_compiles; assumption.
Qed.
Print Assumptions C75_programs.

(** And if every repetition ends (the check of C31), every call answers. *)
Theorem C75_answers : forall props u r, ordinary u -> compile props u = CRegex r -> terminating r = true -> forall opt, (opt = true -> analysable r = true) ->
  forall a f, (forall s, exists c, answers (fun n => on_array a opt n s f r) c) /\
    (forall s rest, ~ In 0%Z s -> exists c, answers (fun n => on_pointer a opt n (s ++ 0%Z :: rest) f r) c) /\
    (forall bs, u8_ok false r = true -> Forall byte bs -> exists c, answers (fun n => on_u8 false a opt n bs f r) c).
Proof.
  intros props u r H E T opt A a f. destruct (plain_text props u H) as [(r' & E' & P)|E']; rewrite E in E'; [injection E' as <-|discriminate E'].
  split; [|split]; intros.
  - eapply C47_answers; try eassumption. apply plain_compiles; assumption.
  - eapply C47_answers_pointer; try eassumption. apply plain_compiles; assumption.
  - eapply C47_answers_u8; try eassumption. apply plain_compiles; assumption.
Qed.
Print Assumptions C75_answers.

(** None of the three words that are no hard errors can be left out, nor the check of the analysis. *)
Theorem C75_needed :
  (forall w, In w [lookbehind; atomic_start; reference] -> exists u r, (forall w', In w' words -> occurs w' u -> w' = w) /\ compile no_props u = CRegex r /\
     forall opt, exists s n, ctre_search opt n s plain_mode r = Ill) /\
  (exists u r, ordinary u /\ compile no_props u = CRegex r /\ exists s n, ctre_match true n s plain_mode r = Ill).
Proof.
  split.
  - assert (G : forall i t, nth_error words i <> None -> forallb (fun j => Bool.eqb (stands (nth j words []) (codes t)) (Nat.eqb j i)) (seq 0 8) = true ->
      forall w', In w' words -> occurs w' (codes t) -> w' = nth i words []).
    { intros i t _ H w' J O. rewrite forallb_forall in H. apply stands_spec in O. destruct (In_nth _ _ [] J) as (j & Hj & <-). change (List.length words) with 8 in Hj.
      specialize (H j (proj2 (in_seq 8 0 j) (conj (Nat.le_0_l _) Hj))). apply eqb_prop in H.
      assert (Q : Nat.eqb j i = true) by (rewrite <- H; exact O). apply Nat.eqb_eq in Q as ->. reflexivity. }
    intros w [<-|[<-|[<-|[]]]].
    + exists (codes "(?<=a+)b"). eexists. split; [apply (G 0 "(?<=a+)b"); [discriminate|vm_compute; reflexivity]|]. split; [vm_compute; reflexivity|].
      intros []; exists (codes "ab"), 50; vm_compute; reflexivity.
    + exists (codes "(?>(a))b"). eexists. split; [apply (G 1 "(?>(a))b"); [discriminate|vm_compute; reflexivity]|]. split; [vm_compute; reflexivity|].
      intros []; exists (codes "ab"), 50; vm_compute; reflexivity.
    + exists (codes "a\g{-0}"). eexists. split; [apply (G 2 "a\g{-0}"); [discriminate|vm_compute; reflexivity]|]. split; [vm_compute; reflexivity|].
      intros []; exists (codes "ab"), 50; vm_compute; reflexivity.
  - exists (codes "a*(?i)b"). eexists. split; [apply ordinary_spec; vm_compute; reflexivity|]. split; [vm_compute; reflexivity|]. exists (codes "ab"), 50. vm_compute. reflexivity.
Qed.
Print Assumptions C75_needed.

(** Not vacuous: ordinary texts that are regexes, end and can be analysed. *)
Example C75_ex : forallb (fun t => ordinaryb (codes t) && terminating (rx t) && analysable (rx t))
  ["[a-zA-Z_][a-zA-Z0-9_]*"; "([0-9]{4})/([0-9]{1,2})/([0-9]{1,2})"; "(?:ab|cd)+?e"; "([^@]+)@([a-z]+\.[a-z]+)"; "^\s*#(?:include|define)\b(.*)$"; "x(?=y)[yz]|(?!q)x\D*+";
   "(?<year>\d{4})-(?<month>\d\d)"; "-?[0-9]+(?:\.[0-9]+)?(?:[eE][+\-]?[0-9]+)?"; "([^&=]+)=([^&]*)(?:&([^&=]+)=([^&]*))*"; """(?:[^""\\]|\\.)*"""; "\x41\u00e9?[[:alpha:]_]{2,}"; "a\0b"] = true.
Proof. vm_compute. reflexivity. Qed.
Example C75_ex_call : exists c, answers (fun n => on_array MSearch true n (codes "on 2026-11 too") plain_mode (rx "(?<year>\d{4})-(?<month>\d\d)")) c.
Proof.
  assert (O : ordinary (codes "(?<year>\d{4})-(?<month>\d\d)")) by (apply ordinary_spec; vm_compute; reflexivity).
  assert (E : exists r, compile no_props (codes "(?<year>\d{4})-(?<month>\d\d)") = CRegex r /\ rx "(?<year>\d{4})-(?<month>\d\d)" = r /\ terminating r = true /\ analysable r = true)
    by (eexists; split; [vm_compute; reflexivity|]; split; [vm_compute; reflexivity|]; split; vm_compute; reflexivity).
  destruct E as (r & E & -> & T & A). exact (proj1 (C75_answers no_props _ r O E T true (fun _ => A) MSearch plain_mode) _).
Qed.
