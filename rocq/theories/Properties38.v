(** Lexers: C68.

    tokenize with a choice of rules: a character, a run of characters, a name, a text. The tokens are those of the relation [lexes]
    (Tokens.v), which knows nothing of patterns and positions: the first rule that applies is taken, and takes as much as it can. *)
From Coq Require Import List ZArith NArith Bool Lia Arith String ZifyBool.
From Verif Require Import Chars Syntax First Utf8 View Eval Api Actions Parser Spec CharProofs ApiProofs Checks Views EvalTop Match Term Iter Utf8Proofs RangeSim Anchor Mode ModeSem ModeCalls
  ModeTop Compiles Total Numbering RangeSpec Words Tokens Properties2 Properties27 Properties28 Properties37.
Import ListNotations.
Local Open Scope string_scope.
Local Open Scope list_scope.
Local Open Scope nat_scope.

(** * C68 *)
(** The result [c] is the token [w] of rule [i]: its text is [w], and of the groups of the rules only that of rule [i] is set. *)
Definition shows (s : list Z) (rules : list rule) (out : list Z -> list Z) (c : caps) (y : nat * list Z) : Prop :=
  shown s 0 c = Some (out (snd y)) /\
  forall j x id nm, nth_error rules j = Some x -> r_group x = Some (id, nm) -> shown s id c = if Nat.eqb j (fst y) then Some (out (snd y)) else None.

Lemma lexer_groups : forall rules, find_captures (lexer_re rules) = flat_map (fun x => match r_group x with Some g => [g] | None => [] end) rules.
Proof.
  intros rules. unfold lexer_re. cbn [find_captures]. induction rules as [|x l IH]; [reflexivity|]. cbn [map flat_map]. rewrite IH. f_equal.
  destruct x as [[[id [nm|]]|] [c|c|c d|t]]; reflexivity.
Qed.
Lemma group_in : forall rules j x id nm, nth_error rules j = Some x -> r_group x = Some (id, nm) -> In id (map fst (find_captures (lexer_re rules))).
Proof.
  intros rules j x id nm H1 H2. rewrite lexer_groups. apply in_map_iff. exists (id, nm). split; [reflexivity|]. apply in_flat_map. exists x.
  split; [exact (nth_error_In _ _ H1)|]. rewrite H2. left. reflexivity.
Qed.
Lemma group_once : forall rules, NoDup (map fst (find_captures (lexer_re rules))) -> forall i j x y id nm nm', nth_error rules i = Some x -> nth_error rules j = Some y ->
  r_group x = Some (id, nm) -> r_group y = Some (id, nm') -> i = j.
Proof.
  induction rules as [|z l IH]; intros D i j x y id nm nm' Hi Hj Hx Hy; [destruct i; discriminate|].
  assert (D2 : NoDup (map fst (find_captures (lexer_re l))) /\ forall k, option_map fst (r_group z) = Some k -> ~ In k (map fst (find_captures (lexer_re l)))).
  { rewrite lexer_groups in *. cbn [flat_map] in D. rewrite map_app in D. destruct (r_group z) as [g|]; cbn [map app option_map] in *.
    - inversion_clear D as [|? ? D1 D3]. split; [exact D3|]. intros k E. injection E as <-. exact D1.
    - split; [exact D|discriminate]. }
  destruct D2 as [D1 D2]. destruct i as [|i], j as [|j]; cbn [nth_error] in *; [reflexivity| | |f_equal; eapply IH; eassumption].
  - injection Hi as ->. exfalso. apply (D2 id); [rewrite Hx; reflexivity|]. eapply group_in; eassumption.
  - injection Hj as ->. exfalso. apply (D2 id); [rewrite Hy; reflexivity|]. eapply group_in; eassumption.
Qed.

(** On a text. *)
Theorem C68_lexer : forall props u rules opt s f, compile props u = CRegex (lexer_re rules) -> Forall proper rules -> forallb val_ok s = true ->
  range_check opt f (lexer_re rules) = true ->
  exists cs N l rest, (forall n, N <= n -> range_array GTokenize opt n s f (lexer_re rules) = Ok cs) /\ lexes (f_ci f) rules s l rest /\
    Forall2 (shows s rules (fun w => w)) cs l.
Proof.
  intros props u rules opt s f Hu Hp V K.
  destruct (C57_text props u _ GTokenize opt s f Hu V K (lexer_consuming rules Hp) ltac:(discriminate)) as (cs & N & H1 & H2). exists cs, N.
  destruct (lexer_tokens s f rules Hp (S (List.length s)) true [] s eq_refl ltac:(lia)) as (l & rest & L1 & L2). exists l, rest.
  split; [exact H1|]. split; [exact L1|]. destruct (compiled_well_numbered props u _ Hu) as [_ D].
  cbn [meant] in H2. change (tokens_from s f (lexer_re rules) (S (List.length s)) true (List.length (@nil Z))) with (all_tokens s f (lexer_re rules)) in L2.
  revert l L1 L2. generalize (all_tokens s f (lexer_re rules)) as ms, H2. clear H1 H2. intros ms H2.
  assert (G : forall l, Forall2 (token_of s rules) ms l -> (forall y, In y l -> exists x, nth_error rules (fst y) = Some x) -> Forall2 (shows s rules (fun w => w)) cs l).
  { induction H2 as [|c m cs ms [R1 R2] F IH]; intros l L2 I; inversion L2 as [|? y ? l' [T1 T2] L3]; subst; [constructor|]. constructor.
    - split.
      + unfold shown. rewrite R1. cbn [option_map fst snd]. rewrite T1. reflexivity.
      + intros j x id nm Hj Hx. unfold shown. rewrite (R2 id) by (eapply group_in; eassumption). rewrite T2. unfold rule_group.
        destruct (I y (or_introl eq_refl)) as (z & Hz). rewrite Hz. destruct (Nat.eqb j (fst y)) eqn:Ej.
        * apply Nat.eqb_eq in Ej. subst j. rewrite Hz in Hj. injection Hj as ->. rewrite Hx. cbn [option_map fst lookup]. rewrite Nat.eqb_refl. cbn [option_map fst snd]. rewrite T1. reflexivity.
        * destruct (r_group z) as [[id' nm']|] eqn:Gz; cbn [option_map fst lookup]; [|reflexivity]. destruct (Nat.eqb id id') eqn:Ei.
          -- apply Nat.eqb_eq in Ei. subst id'. apply Nat.eqb_neq in Ej. exfalso. apply Ej. eapply group_once; eassumption.
          -- rewrite ?(Nat.eqb_sym id' id), Ei. reflexivity.
    - apply IH; [exact L3|]. intros z J. apply I. right. exact J. }
  intros l L1 L2. apply (G l L2). clear - L1. induction L1 as [w H|i x w u l v H1 H2 H3 H4 IH]; intros y J; [destruct J|]. destruct J as [<-|J]; [eauto|exact (IH y J)].
Qed.
Print Assumptions C68_lexer.
(** On the encoding of a text the tokens are the encodings of those of the text. *)
Theorem C68_lexer_utf8 : forall props u rules opt t f, compile props u = CRegex (lexer_re rules) -> Forall proper rules -> wf_text t -> forallb val_ok t = true ->
  range_check opt f (lexer_re rules) = true -> u8_ok true (lexer_re rules) = true ->
  exists cs N l rest, (forall n, N <= n -> range_u8 true GTokenize opt n (encode t) f (lexer_re rules) = Ok cs) /\ lexes (f_ci f) rules t l rest /\
    Forall2 (shows (encode t) rules encode) cs l.
Proof.
  intros props u rules opt t f Hu Hp Ht V K U. destruct (C68_lexer props u rules opt t f Hu Hp V K) as (cs & N & l & rest & H1 & H2 & H3).
  exists (map (move (offset t)) cs), N, l, rest. split; [|split; [exact H2|]].
  - intros n Hn. rewrite range_text_same; try assumption; [|exact (compiled_well_numbered props u _ Hu)]. rewrite (H1 n Hn). reflexivity.
  - clear - H3. induction H3 as [|c y cs l [S1 S2] F IH]; [constructor|]. cbn [map]. constructor; [|exact IH].
    assert (M : forall id, shown (encode t) id (move (offset t) c) = option_map encode (shown t id c)).
    { intros id. unfold shown. destruct (moved (offset t) c) as [_ M]. rewrite M. destruct (group c id) as [[b e]|]; [|reflexivity]. cbn [option_map move_span fst snd].
      rewrite text_encode. reflexivity. }
    split; [rewrite M, S1; reflexivity|]. intros j x id nm Hj Hx. rewrite M, (S2 j x id nm Hj Hx). destruct (Nat.eqb j (fst y)); reflexivity.
Qed.
Print Assumptions C68_lexer_utf8.
(** There is one list of tokens, it covers the text up to the rest, and no rule applies to the rest. *)
Theorem C68_tokens : forall ci rules s l rest, lexes ci rules s l rest ->
  s = List.concat (map snd l) ++ rest /\ (forall x, In x rules -> forall w v, rest = w ++ v -> ~ takes ci (r_token x) w v) /\
  forall l' rest', lexes ci rules s l' rest' -> l' = l /\ rest' = rest.
Proof.
  intros ci rules s l rest H. split; [exact (lexes_all _ _ _ _ _ H)|]. split; [|exact (lexes_unique _ _ _ _ _ H)].
  induction H as [u H|i x w u l v H1 H2 H3 H4 IH]; [exact H|exact IH].
Qed.
Print Assumptions C68_tokens.

(** A small language: keywords, names, numbers, operators, white space. *)
Definition language : list Z := codes "(if)|(else)|([a-z_][a-z0-9_]*)|(?<number>[0-9]+)|([\-+*/=;(])|\s+".
Definition language_rules : list rule :=
  let lower := CRange 97 122 in let digit := CRange 48 57 in
  [ mkRule (Some (1, None)) (TText (codes "if")); mkRule (Some (2, None)) (TText (codes "else"));
    mkRule (Some (3, None)) (TName (CSet [lower; CChar 95]) (CSet [lower; digit; CChar 95]));
    mkRule (Some (4, Some (codes "number"))) (TRun (CSet [digit]));
    mkRule (Some (5, None)) (TOne (CSet (map CChar (codes "-+*/=;("))));
    mkRule None (TRun (CSet [CEnum [32; 9; 10; 11; 12; 13]%Z])) ].
Theorem C68_language : forall opt s, forallb val_ok s = true ->
  exists r cs N l rest, compile no_props language = CRegex r /\ (forall n, N <= n -> range_array GTokenize opt n s plain_mode r = Ok cs) /\
    lexes false language_rules s l rest /\ Forall2 (shows s language_rules (fun w => w)) cs l.
Proof.
  intros opt s V. exists (lexer_re language_rules).
  assert (Hu : compile no_props language = CRegex (lexer_re language_rules)) by (vm_compute; reflexivity).
  destruct (C68_lexer no_props language language_rules opt s plain_mode Hu) as (cs & N & l & rest & H).
  - repeat constructor; discriminate.
  - exact V.
  - destruct opt; vm_compute; reflexivity.
  - exists cs, N, l, rest. split; [exact Hu|exact H].
Qed.
Print Assumptions C68_language.

(** The tokens of a text of it; the rule of the keyword is taken although the name would be longer. *)
Example C68_example : forall opt,
  let go t := match compile no_props language with
              | CRegex r => match range_array GTokenize opt 400 (codes t) plain_mode r with
                            | Ok cs => map (fun c => map (fun id => shown (codes t) id c) [0; 1; 2; 3; 4; 5]) cs | _ => [] end
              | _ => [] end in
  let tok i w := Some (codes w) :: map (fun id => if Nat.eqb id i then Some (codes w) else None) [1; 2; 3; 4; 5] in
  go "if x1=42" = [tok 1 "if"; tok 9 " "; tok 3 "x1"; tok 5 "="; tok 4 "42"] /\
  go "iffy!if" = [tok 1 "if"; tok 3 "fy"] /\ go "" = [] /\ go "12else" = [tok 4 "12"; tok 2 "else"].
Proof. intros [|]; vm_compute; auto. Qed.
Example C68_lexes_example : exists l rest, lexes false language_rules (codes "iffy!if") l rest /\ l = [(0, codes "if"); (2, codes "fy")] /\ rest = codes "!if".
Proof.
  assert (R : forall u, (forall x, In x language_rules -> taken false (r_token x) u = None) -> lexes false language_rules u [] u)
    by (intros u H; constructor; intros x I; apply refuses_taken; exact (H x I)).
  exists [(0, codes "if"); (2, codes "fy")], (codes "!if"). split; [|auto].
  apply (lexes_take false language_rules 0 _ (codes "if") (codes "fy!if") [(2, codes "fy")] (codes "!if") eq_refl).
  - cbn. repeat constructor.
  - intros j y L. lia.
  - apply (lexes_take false language_rules 2 _ (codes "fy") (codes "!if") [] (codes "!if") eq_refl).
    + cbn. exists 102%Z, [121%Z]. repeat split; [repeat constructor|]. discriminate.
    + intros j y L Hj. apply refuses_taken. destruct j as [|[|j]]; [| |lia]; injection Hj as <-; reflexivity.
    + apply R. intros x I. repeat (destruct I as [<-|I]; [vm_compute; reflexivity|]). destruct I.
Qed.
Example C68_check_example : forall opt,
  forallb (fun p => match compile no_props (codes p) with CRegex r => range_check opt plain_mode r && consuming r | _ => false end)
    ["([a-z]+)|([0-9]+)"; "(==)|(=)|(\s+)"; "(\w+)|(\s+)|([^\w\s])"; "(?<word>[A-Za-z]+)|(?<digit>[0-9])"] = true.
Proof. intros [|]; vm_compute; reflexivity. Qed.
