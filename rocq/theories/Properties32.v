(** The fold over the characters of a pattern, and the literals that run it (C62).

    [ctre_parse] is the fold of parser.hpp with the library's actions, [ctre_test] with none. The other side of the
    statements is the loop of Parser.v and ErrorPos.v, the grammar file (C53) and [compile] (C43). *)
From Coq Require Import List ZArith NArith Bool Lia String.
From Verif Require Import Chars Syntax Grammar GramFile Actions Parser ParserProofs Numbering ErrorPos Gram Trampoline.
Import ListNotations.
Local Open Scope string_scope.
Local Open Scope Z_scope.

(** The fold decides what the loop decides: the same subject, or the same position. *)
Theorem C62_same : forall props u, match placed_parse props u with
  | LAccept c => ctre_parse props u = Result (mkResults (List.length u) [] c d_accept)
  | LReject p _ => exists st c, ctre_parse props u = Result (mkResults p st c d_reject)
  | LIll => ctre_parse props u = HardError
  | LFuel => False
  end.
Proof. exact parse_same. Qed.
Print Assumptions C62_same.

(** One placeholder per character is enough, for any actions; [b] bounds the symbols popped by one call. *)
Theorem C62_enough : forall T (f : action -> option Z -> T -> applied T) u b k s, (8 * List.length u + 3 <= b)%nat -> (List.length u <= k)%nat ->
  trampoline_with f u b k s = trampoline f u b s.
Proof. exact fold_enough. Qed.
Print Assumptions C62_enough.
(** The fold never ends undecided; it accepts at the end of the text, with nothing on the stack. *)
Theorem C62_decided : forall T (f : action -> option Z -> T -> applied T) u b s, (8 * List.length u + 3 <= b)%nat ->
  trampoline f u b s = HardError \/
  exists r, trampoline f u b s = Result r /\ r_decision r <> d_undecided /\ (r_pos r <= List.length u)%nat /\
    (r_decision r = d_accept -> r_pos r = List.length u /\ r_stack r = []).
Proof. exact fold_decided. Qed.
Print Assumptions C62_decided.
(** An accepted text needs every one of them: after fewer, it is undecided. *)
Theorem C62_needed : forall T (f : action -> option Z -> T -> applied T) u b s k, (8 * List.length u + 3 <= b)%nat ->
  is_correct (trampoline f u b s) = true -> (k < List.length u)%nat ->
  exists r, trampoline_with f u b k s = Result r /\ r_decision r = d_undecided /\ r_pos r = S k /\ is_correct (trampoline_with f u b k s) = false.
Proof.
  intros T f u b s k B C K. destruct (fold_needed T f u b s k B C K) as (r & E & D & P). exists r. rewrite E. cbn. rewrite D. auto.
Qed.
Print Assumptions C62_needed.
(** The parser looks one character ahead: [k] placeholders depend on the first [k + 1] characters. *)
Theorem C62_ahead : forall T (f : action -> option Z -> T -> applied T) u v b k s, firstn (S k) u = firstn (S k) v ->
  trampoline_with f u b k s = trampoline_with f v b k s.
Proof. exact fold_ahead. Qed.
Print Assumptions C62_ahead.

(** [_ctre_test]: the texts of the grammar. *)
Theorem C62_test : forall u, ctre_test u = true <-> exists t, sentence t /\ chars t = u.
Proof. exact test_sentence. Qed.
Print Assumptions C62_test.
(** [_ctre_syntax]: the texts the parser accepts; all are texts of the grammar. *)
Theorem C62_syntax : forall props u b, ctre_syntax props u = Some b <->
  if b then exists c, parse_ctx props u = PAccept c else parse_ctx props u = PReject.
Proof. exact syntax_parse. Qed.
Print Assumptions C62_syntax.
Theorem C62_syntax_test : forall props u, ctre_syntax props u = Some true -> ctre_test u = true.
Proof. exact syntax_test. Qed.
Print Assumptions C62_syntax_test.
(** [_ctre]: the regex of [compile]. *)
Theorem C62_literal : forall props u r, ctre_literal props u = Some r <-> compile props u = CRegex r.
Proof. exact literal_compile. Qed.
Print Assumptions C62_literal.
(** [_ctre_gen]: a list of that regex alone, switches of several letters apart. *)
Theorem C62_gen : forall props u l, several_letters u = false -> ctre_gen props u = Some l -> exists r, l = [IRe r] /\ compile props u = CRegex r.
Proof. exact gen_stack. Qed.
Print Assumptions C62_gen.

(** * Examples *)
Definition show (o : outcome ctx) : option (nat * list sym * decision) :=
  match o with Result r => Some (r_pos r, r_stack r, r_decision r) | _ => None end.
(** [a*|b] character by character; a rejection in the middle and one by an action; no overload. *)
Example C62_ex_steps : map (fun k => show (trampoline_with (pcre_apply no_props) (codes "a*|b") 100 k (mkCtx [] 0))) [0; 1; 2; 3; 4; 9]%nat =
  [Some (1%nat, [Act A_push_character; NT N_repeat; NT N_string2; NT N_content2], d_undecided);
   Some (2%nat, [Act A_repeat_star; NT N_mod; NT N_string2; NT N_content2], d_undecided);
   Some (3%nat, [NT N_a], d_undecided);
   Some (4%nat, [Act A_push_character; NT N_repeat; NT N_string2; NT N_content2; Act A_make_alternate], d_undecided);
   Some (4%nat, [], d_accept); Some (4%nat, [], d_accept)].
Proof. vm_compute. reflexivity. Qed.
Example C62_ex_same : map (fun t => option_map (fun x => (fst (fst x), snd x)) (show (ctre_parse no_props (codes t)))) ["a**b"; "x\2y"; "(?<n>x)\g{n}"; "(?<a>x)(?<b>\g{a})"] =
  [Some (2%nat, d_reject); Some (3%nat, d_reject); Some (12%nat, d_accept); None].
Proof. vm_compute. reflexivity. Qed.
(** The literals on texts that are in the grammar and are not patterns. *)
Example C62_ex_literals : map (fun t => (ctre_test (codes t), ctre_syntax no_props (codes t), ctre_literal no_props (codes t)))
  ["ab"; "a**"; "\2"; "(?<a>x)(?<b>\g{a})"] =
  [(true, Some true, Some (RStr [97; 98])); (false, Some false, None); (true, Some false, None); (true, None, None)].
Proof. vm_compute. reflexivity. Qed.
(** So the test without actions says less. *)
Theorem C62_test_refuted : exists u v, ctre_test u = true /\ ctre_syntax no_props u = Some false /\ ctre_test v = true /\ ctre_syntax no_props v = None.
Proof. exists (codes "\2"), (codes "(?<a>x)(?<b>\g{a})"). split; [|split; [|split]]; vm_compute; reflexivity. Qed.
Print Assumptions C62_test_refuted.
(** A switch of several letters leaves all but the last on the stack, and they are lost. *)
Theorem C62_gen_refuted : exists u r x, ctre_gen no_props u = Some [IRe r; IRe x] /\ x <> r /\ ctre_literal no_props u = Some r.
Proof.
  exists (codes "(?im)a"). do 2 eexists. split; [vm_compute; reflexivity|]. split; [discriminate|vm_compute; reflexivity].
Qed.
Print Assumptions C62_gen_refuted.
