(** The constructs of the pattern language, one by one: C18, C20, C21, C22, C23, C24, C25, C29, C36.

    [eval opt n v v p f c (AR r :: tl)] is the call of the matcher at position [p] with the pattern [r] in
    front of the continuation [tl]; [attempt opt n s f r p] is [starts_with] at position [p]. *)
From Coq Require Import List ZArith NArith Bool Lia String.
From Verif Require Import Chars Syntax View Eval Api Actions Parser Spec CharProofs EvalSem ApiProofs Match Anchor Tail
  Constructs Repeat Behind Classes Properties2.
Import ListNotations.
Local Open Scope string_scope.

(** * C18 *)
(** Pattern text, negated or not, documented ranges of values. *)
Definition class_table : list (string * bool * list (Z * Z)) := [
  ("\d", false, [(48, 57)]); ("\D", true, [(48, 57)]); ("[\d]", false, [(48, 57)]); ("[^\d]", true, [(48, 57)]);
  ("[\D]", true, [(48, 57)]); ("[^\D]", false, [(48, 57)]);
  ("\w", false, [(48, 57); (65, 90); (95, 95); (97, 122)]); ("\W", true, [(48, 57); (65, 90); (95, 95); (97, 122)]);
  ("[^\w]", true, [(48, 57); (65, 90); (95, 95); (97, 122)]); ("[^\W]", false, [(48, 57); (65, 90); (95, 95); (97, 122)]);
  ("\s", false, [(9, 13); (32, 32)]); ("\S", true, [(9, 13); (32, 32)]);
  ("\h", false, [(9, 9); (32, 32); (160, 160); (5760, 5760); (6158, 6158); (8192, 8202); (8239, 8239); (8287, 8287); (12288, 12288)]);
  ("\H", true, [(9, 9); (32, 32); (160, 160); (5760, 5760); (6158, 6158); (8192, 8202); (8239, 8239); (8287, 8287); (12288, 12288)]);
  ("\v", false, [(10, 13); (133, 133); (8232, 8233)]); ("\V", true, [(10, 13); (133, 133); (8232, 8233)]);
  ("\N", true, [(10, 10)]);
  ("[[:alnum:]]", false, [(48, 57); (65, 90); (97, 122)]); ("[[:^alnum:]]", true, [(48, 57); (65, 90); (97, 122)]);
  ("[^[:alnum:]]", true, [(48, 57); (65, 90); (97, 122)]); ("[^[:^alnum:]]", false, [(48, 57); (65, 90); (97, 122)]);
  ("[[:alpha:]]", false, [(65, 90); (97, 122)]); ("[[:^alpha:]]", true, [(65, 90); (97, 122)]);
  ("[[:ascii:]]", false, [(0, 127)]); ("[[:^ascii:]]", true, [(0, 127)]);
  ("[[:blank:]]", false, [(9, 9); (32, 32)]); ("[[:^blank:]]", true, [(9, 9); (32, 32)]);
  ("[[:cntrl:]]", false, [(0, 31); (127, 127)]); ("[[:^cntrl:]]", true, [(0, 31); (127, 127)]);
  ("[[:digit:]]", false, [(48, 57)]); ("[[:^digit:]]", true, [(48, 57)]);
  ("[[:graph:]]", false, [(33, 126)]); ("[[:^graph:]]", true, [(33, 126)]);
  ("[[:lower:]]", false, [(97, 122)]); ("[[:^lower:]]", true, [(97, 122)]);
  ("[[:print:]]", false, [(32, 126)]); ("[[:^print:]]", true, [(32, 126)]);
  ("[[:punct:]]", false, [(33, 47); (58, 64); (91, 96); (123, 126)]); ("[[:^punct:]]", true, [(33, 47); (58, 64); (91, 96); (123, 126)]);
  ("[[:space:]]", false, [(9, 13); (32, 32)]); ("[[:^space:]]", true, [(9, 13); (32, 32)]);
  ("[[:upper:]]", false, [(65, 90)]); ("[[:^upper:]]", true, [(65, 90)]);
  ("[[:word:]]", false, [(48, 57); (65, 90); (95, 95); (97, 122)]); ("[[:^word:]]", true, [(48, 57); (65, 90); (95, 95); (97, 122)]);
  ("[[:xdigit:]]", false, [(48, 57); (65, 70); (97, 102)]); ("[[:^xdigit:]]", true, [(48, 57); (65, 70); (97, 102)]);
  ("[a-cx0-9]", false, [(97, 99); (120, 120); (48, 57)]); ("[^a-cx0-9]", true, [(97, 99); (120, 120); (48, 57)]);
  ("[\d\s]", false, [(48, 57); (9, 13); (32, 32)]); ("[^\d\s]", true, [(48, 57); (9, 13); (32, 32)]);
  ("[[:^digit:]5]", true, [(48, 52); (54, 57)]); ("[\W_]", true, [(48, 57); (65, 90); (97, 122)])]%Z.
(** Matching one value of a C++ character type, in all modes. *)
Theorem C18_documented : forall opt n f t neg rs x, In (t, neg, rs) class_table -> val_ok x = true ->
  exists r c, re_of t = CRegex r /\ ctre_match opt (6 + n) [x] f r = Ok c /\
    matched c = xorb neg (in_ranges rs x || (f_ci f && in_ranges rs (swap_case x))).
Proof.
  intros opt n f t neg rs x H Hx. apply stands_match; [|assumption].
  assert (A : forallb (fun e => stands_for false (fst (fst e)) (snd (fst e)) (snd e) &&
                                stands_for true (fst (fst e)) (snd (fst e)) (snd e)) class_table = true) by (vm_compute; reflexivity).
  rewrite forallb_forall in A. specialize (A _ H). cbn [fst snd] in A. apply andb_true_iff in A as [A B].
  destruct (f_ci f); assumption.
Qed.
Print Assumptions C18_documented.
Example C18_ex : existsb (fun e => String.eqb (fst (fst e)) "\w") class_table = true /\
  in_ranges [(48, 57); (65, 90); (95, 95); (97, 122)]%Z 95 = true /\ in_ranges [(48, 57); (65, 90); (95, 95); (97, 122)]%Z 45 = false.
Proof. vm_compute. repeat split. Qed.
(** Every class atom accepts its set, and matches one character only. *)
Theorem C18_class : forall opt n f k x, cls_ok (f_ci f) k = true -> val_ok x = true ->
  exists c, ctre_match opt (6 + n) [x] f (RCls k) = Ok c /\ matched c = cls_has (f_ci f) k x.
Proof.
  intros opt n f k x Hk Hx. destruct (one_char opt n f k x) as (c & A & B). exists c. split; [exact A|].
  rewrite B. apply match_cls_spec; assumption.
Qed.
Print Assumptions C18_class.
Theorem C18_one_character : forall opt n s f k c, ctre_match opt n s f (RCls k) = Ok c -> matched c = true -> List.length s = 1.
Proof. exact one_char_only. Qed.
Print Assumptions C18_one_character.
(** A bracket set, filled item by item, accepts what one of its items accepts; its negation the rest. *)
Theorem C18_union : forall ci xs x0 v,
  cls_has ci (CSet (fold_left (fun l x => push_into_set x l) xs [x0])) v = existsb (fun x => cls_has ci x v) (x0 :: xs) /\
  cls_has ci (CNeg (fold_left (fun l x => push_into_set x l) xs [x0])) v = negb (existsb (fun x => cls_has ci x v) (x0 :: xs)).
Proof. exact (fun ci xs x0 v => conj (set_union ci xs x0 v) (f_equal negb (set_union ci xs x0 v))). Qed.
Print Assumptions C18_union.
Example C18_ex_union : rx "[b-dx\db-d]" = RCls (CSet (fold_left (fun l x => push_into_set x l)
  [CChar 120; CSet [digit_chars]; CRange 98 100]%Z [CRange 98 100]%Z)).
Proof. vm_compute. reflexivity. Qed.

(** * C20 *)
(** [r{A,B}] for a class [r], greedy, lazy or possessive, in all modes; [B = 0] stands for no upper limit. *)
Theorem C20_count : forall opt n s f kd k a b c, forallb val_ok s = true -> cls_ok (f_ci f) k = true ->
  ctre_match opt n s f (RRep kd a b [RCls k]) = Ok c ->
  (matched c = true <-> Forall (fun x => cls_has (f_ci f) k x = true) s /\
     (a <= N.of_nat (List.length s))%N /\ (b = 0%N \/ (N.of_nat (List.length s) <= b)%N)).
Proof. exact rep_counts. Qed.
Print Assumptions C20_count.
Example C20_ex : rx "[a-c]{2,3}" = RRep Greedy 2 3 [RCls (CSet [CRange 97 99]%Z)] /\ rx "x{2,}?" = RRep Lazy 2 0 [RCls (CChar 120)] /\
  rx "\d{3}" = RRep Greedy 3 3 [RCls (CSet [digit_chars])] /\
  map (fun t => match ctre_match true 60 (codes t) plain_mode (rx "[a-c]{2,3}") with Ok c => matched c | _ => false end)
    ["a"; "ab"; "abc"; "abca"; "xb"; ""] = [false; true; true; false; false; false].
Proof. vm_compute. repeat split. Qed.
(** [{0}], [{0,0}] and [{A,0}] with [A > 0] are read as no upper limit. *)
Theorem C20_zero_refuted : forall opt, exists n c, rx "a{0}" = rx "a*" /\ rx "a{0,0}" = rx "a*" /\ rx "a{2,0}" = rx "a{2,}" /\
  ctre_match opt n (codes "aaa") plain_mode (rx "a{0}") = Ok c /\ matched c = true.
Proof. intros []; exists 60; eexists; vm_compute; repeat split. Qed.
Print Assumptions C20_zero_refuted.
(** An inverted pair of bounds matches nothing. *)
Theorem C20_inverted : forall opt n s f kd k a b c, b <> 0%N -> (b < a)%N ->
  ctre_match opt n s f (RRep kd a b [RCls k]) = Ok c -> matched c = false.
Proof.
  intros opt n s f kd k a b c Hb Hab H. apply rep_matches in H. destruct (matched c); [|reflexivity].
  destruct H as [H _]. destruct (H eq_refl) as (_ & H1 & H2). lia.
Qed.
Print Assumptions C20_inverted.
Example C20_ex_inverted : rx "a{3,2}" = RRep Greedy 3 2 [RCls (CChar 97)].
Proof. vm_compute. reflexivity. Qed.

(** * C21 *)
(** [first_match opt s f l p c q c']: the first match of the body at [p] ends in [q]; [runs]: a chain of
    such matches. The continuation is entered at most once, after the chain that goes on as long as
    possible, and this chain depends on nothing that follows. *)
Theorem C21_possessive : forall opt s n p f c a b l tl x,
  eval opt n (arr_view s) (arr_view s) p f c (AR (RRep Possessive a b l) :: tl) = x -> x = No \/ (exists c', x = Ok c') ->
  (b <> 0%N /\ (b < a)%N /\ x = No) \/
  exists j q c1, runs opt s f l j p c q c1 /\ (b <> 0 -> j <= b)%N /\ stops opt s f l b j q c1 /\
    ((x = No /\ (j < a)%N) \/
     ((a <= j)%N /\ exists n', eval opt n' (arr_view s) (arr_view s) q (consumed_something f (negb (Nat.eqb p q))) c1 tl = x)).
Proof. exact possessive_first. Qed.
Print Assumptions C21_possessive.
Theorem C21_possessive_end_unique : forall opt s f l b i p c q c', runs opt s f l i p c q c' -> (b <> 0 -> i <= b)%N -> stops opt s f l b i q c' ->
  forall i2 q2 c2, runs opt s f l i2 p c q2 c2 -> (b <> 0 -> i2 <= b)%N -> stops opt s f l b i2 q2 c2 -> i = i2 /\ q = q2 /\ c' = c2.
Proof. exact runs_fun. Qed.
Print Assumptions C21_possessive_end_unique.
Theorem C21_atomic : forall opt s n p f c l tl x,
  eval opt n (arr_view s) (arr_view s) p f c (AR (RAtomic l) :: tl) = x -> x = No \/ (exists c', x = Ok c') ->
  (no_match opt s f l p c /\ x = No) \/
  exists q c1, first_match opt s f l p c q c1 /\
    exists n', eval opt n' (arr_view s) (arr_view s) q (consumed_something f (negb (Nat.eqb p q))) c1 tl = x.
Proof. exact atomic_first. Qed.
Print Assumptions C21_atomic.
Theorem C21_atomic_unique : forall opt s f l p c q1 c1 q2 c2, first_match opt s f l p c q1 c1 -> first_match opt s f l p c q2 c2 ->
  q1 = q2 /\ c1 = c2.
Proof. exact first_match_fun. Qed.
Print Assumptions C21_atomic_unique.
(** So [X*+X...], [X++X...] and [(?>X* )X...] match nowhere in any subject. *)
Theorem C21_nothing_given_back : forall opt n s f k x xs p c, p <= List.length s ->
  (exists a, x = RRep Possessive a 0 [RCls k]) \/ x = RAtomic [RRep Greedy 0 0 [RCls k]] ->
  attempt opt n s f (RSeq (x :: RCls k :: xs)) p <> Ok c.
Proof. exact starved. Qed.
Print Assumptions C21_nothing_given_back.
Example C21_ex : rx "a*+a" = RSeq [RRep Possessive 0 0 [RCls (CChar 97)]; RCls (CChar 97)] /\
  rx "(?>\d*)\dx" = RSeq [RAtomic [RRep Greedy 0 0 [RCls (CSet [digit_chars])]]; RCls (CSet [digit_chars]); RCls (CChar 120)] /\
  exists c c', ctre_match true 60 (codes "aaa") plain_mode (rx "a*+a") = Ok c /\ matched c = false /\
    ctre_match true 60 (codes "aaa") plain_mode (rx "a*a") = Ok c' /\ matched c' = true.
Proof. split; [vm_compute; reflexivity|]. split; [vm_compute; reflexivity|]. eexists; eexists; vm_compute; repeat split. Qed.
(** An atomic group does not succeed with an empty preferred match. *)
Theorem C21_empty_atomic_refuted : exists n c, ctre_match true n (codes "b") plain_mode (rx "(?>a?)b") = Ok c /\ matched c = false /\
  exists lg, derives (codes "b") plain_mode (rx "(?>a?)b") 0 1 lg.
Proof.
  exists 60. eexists. split; [vm_compute; reflexivity|]. split; [reflexivity|]. exists [].
  apply outcome_derives; [vm_compute; reflexivity | cbn; lia | vm_compute; auto].
Qed.
Print Assumptions C21_empty_atomic_refuted.

(** * C22 *)
(** For every content [r]: what [(?=r)] and [(?!r)] do at [p], given what [r] does at [p]. *)
Theorem C22_lookahead : forall opt n n' s f r p neg, well_numbered r -> p <= List.length s ->
  attempt opt n s f r p <> Fuel -> attempt opt n' s f (RAhead neg [r]) p <> Fuel ->
  match attempt opt n s f r p with
  | Ok c => if neg then attempt opt n' s f (RAhead neg [r]) p = No
            else exists c', attempt opt n' s f (RAhead neg [r]) p = Ok c' /\ group c' 0 = Some (p, p) /\
                            forall id, id <> 0 -> group c' id = group c id
  | No => if neg then exists c', attempt opt n' s f (RAhead neg [r]) p = Ok c' /\ group c' 0 = Some (p, p) /\
                                 forall id, id <> 0 -> group c' id = None
          else attempt opt n' s f (RAhead neg [r]) p = No
  | y => attempt opt n' s f (RAhead neg [r]) p = y
  end.
Proof. exact ahead_whole. Qed.
Print Assumptions C22_lookahead.
Example C22_ex : exists c c', rx "(?=(a+)b)" = RAhead false [RCap 1 [RRep Greedy 1 0 [RCls (CChar 97)]]; RCls (CChar 98)] /\
  well_numbered (RSeq [RCap 1 [RRep Greedy 1 0 [RCls (CChar 97)]]; RCls (CChar 98)]) /\
  attempt true 60 (codes "xaab") plain_mode (RSeq [RCap 1 [RRep Greedy 1 0 [RCls (CChar 97)]]; RCls (CChar 98)]) 1 = Ok c /\
  group c 0 = Some (1, 4) /\ group c 1 = Some (1, 3) /\
  attempt true 60 (codes "xaab") plain_mode (rx "(?=(a+)b)") 1 = Ok c' /\ group c' 0 = Some (1, 1) /\ group c' 1 = Some (1, 3).
Proof.
  eexists; eexists. split; [vm_compute; reflexivity|]. split.
  { split; [reflexivity|]. cbn. constructor; [intros []|constructor]. }
  vm_compute. repeat split.
Qed.
(** Before any continuation: a negative lookahead goes on at the same position with the same flags and the
    same captures, a positive one at the same position with the captures of its content. *)
Theorem C22_continuation : forall opt s n p f c l tl x, x <> No ->
  (eval opt (S n) (arr_view s) (arr_view s) p f c (AR (RAhead true l) :: tl) = x ->
     eval opt n (arr_view s) (arr_view s) p f c [AR (RSeq l); AEndAhead] = No ->
     eval opt n (arr_view s) (arr_view s) p f c tl = x) /\
  (forall c', eval opt (S n) (arr_view s) (arr_view s) p f c (AR (RAhead false l) :: tl) = x ->
     eval opt n (arr_view s) (arr_view s) p f c [AR (RSeq l); AEndAhead] = Ok c' ->
     eval opt n (arr_view s) (arr_view s) p f (unmatch c') tl = x).
Proof.
  intros opt s n p f c l tl x Hx. split; [|intros c']; intros H1 H2; cbn [eval] in H1; rewrite H2 in H1; assumption.
Qed.
Print Assumptions C22_continuation.

(** * C23 *)
(** [preceded s f r p]: some text of [s] that ends in [p] is in the language of [r]. [bwf]: characters,
    classes, strings, boundaries, sequences, alternatives. [behind_content r] is what the parser makes of
    the content [r] (it turns it around). *)
Theorem C23_lookbehind : forall opt s n p f c neg r l tl, forallb val_ok s = true ->
  bwf (f_ci f) r = true -> behind_content r = Some l -> p <= List.length s -> Term.size (RSeq l) + 1 < n ->
  (preceded s f r p -> eval opt (S n) (arr_view s) (arr_view s) p f c (AR (RBehind neg l) :: tl) =
     if neg then No else eval opt n (arr_view s) (arr_view s) p f (unmatch (set_matched c)) tl) /\
  (~ preceded s f r p -> eval opt (S n) (arr_view s) (arr_view s) p f c (AR (RBehind neg l) :: tl) =
     if neg then eval opt n (arr_view s) (arr_view s) p f c tl else No).
Proof. exact (fun opt s n p f c neg r l tl Hs => behind_step opt s Hs n p f c neg r l tl). Qed.
Print Assumptions C23_lookbehind.
(** For every such [r] the parser's rotation is defined and keeps the language, read backwards. *)
Theorem C23_rotation : forall s ml ci r, bwf ci r = true ->
  exists l, behind_content r = Some l /\ l <> [] /\
    forall names p q lg, In q (bseq s ml ci l p) <-> sem s ml ci names r (q, lg) (p, lg).
Proof.
  intros s ml ci r H. destruct (content_wf ci r H) as (l & H1 & _ & H2). exists l. split; [assumption|]. split; [assumption|].
  intros names p q lg. apply behind_language; [|assumption]. eapply bwf_simple. eassumption.
Qed.
Print Assumptions C23_rotation.
Example C23_ex : rx "(?<=ab|c[de]f)x" = RSeq [RBehind false
     [RSelect [RStr [98; 97]; RSeq [RCls (CChar 102); RCls (CSet [CChar 100; CChar 101]); RCls (CChar 99)]]]; RCls (CChar 120)]%Z /\
  behind_content (RSelect [RStr [97; 98]; RSeq [RCls (CChar 99); RCls (CSet [CChar 100; CChar 101]); RCls (CChar 102)]]%Z) =
    Some [RSelect [RStr [98; 97]; RSeq [RCls (CChar 102); RCls (CSet [CChar 100; CChar 101]); RCls (CChar 99)]]]%Z /\
  map (fun t => match ctre_search true 60 (codes t) plain_mode (rx "(?<=ab|c[de]f)x") with Ok c => group c 0 | _ => None end)
    ["abx"; "bax"; "cefx"; "fecx"; "x"] = [Some (2, 3); None; Some (3, 4); None; None].
Proof. vm_compute. repeat split. Qed.
(** Anchors inside look at the wrong end, and lookarounds inside in the wrong direction. *)
Theorem C23_anchor_refuted : forall opt, exists n c,
  ctre_search opt n (codes "ab") plain_mode (rx "(?<=^a)b") = Ok c /\ matched c = false /\
  (exists lg, derives (codes "ab") plain_mode (RSeq [RAssert ALineBegin; RCls (CChar 97)]) 0 1 lg) /\
  behind_content (RSeq [RAssert ALineBegin; RCls (CChar 97)]) = Some [RCls (CChar 97); RAssert ALineBegin] /\
  rx "(?<=^a)b" = RSeq [RBehind false [RCls (CChar 97); RAssert ALineBegin]; RCls (CChar 98)].
Proof.
  intros []; exists 60; eexists; (split; [vm_compute; reflexivity|]; split; [reflexivity|]; split;
    [exists []; apply outcome_derives; [vm_compute; reflexivity | cbn; lia | vm_compute; auto] | vm_compute; split; reflexivity]).
Qed.
Print Assumptions C23_anchor_refuted.
Theorem C23_nested_refuted : forall opt, exists n c,
  ctre_search opt n (codes "ab") plain_mode (rx "(?<=(?=ab)a)b") = Ok c /\ matched c = false /\
  exists lg, derives (codes "ab") plain_mode (RSeq [RAhead false [RStr [97; 98]]; RCls (CChar 97)])%Z 0 1 lg.
Proof.
  intros []; exists 60; eexists; (split; [vm_compute; reflexivity|]; split; [reflexivity|];
    exists []; apply outcome_derives; [vm_compute; reflexivity | cbn; lia | vm_compute; auto]).
Qed.
Print Assumptions C23_nested_refuted.

(** * C24 *)
Definition word_value (x : Z) : Prop := (48 <= x <= 57 \/ 65 <= x <= 90 \/ x = 95 \/ 97 <= x <= 122)%Z.
Lemma word_has : forall ci x, cls_has ci word_chars x = true <-> word_value x.
Proof.
  intros ci x. unfold word_value, word_chars. cbn [cls_has existsb]. unfold lit_has, fold_test, swap_case.
  destruct ci; cbn [andb orb]; rewrite ?orb_false_r; [|lia].
  destruct ((65 <=? x) && (x <=? 90))%Z eqn:E1; [lia|]. destruct ((97 <=? x) && (x <=? 122))%Z eqn:E2; lia.
Qed.
(** [before s P p], [after s P p]: there is a value before (at) the position and it satisfies [P]. *)
Theorem C24_word_boundary : forall opt s n p f c tl, p <= List.length s -> (forall x, In x s -> val_ok x = true) ->
  (exactly_one (before s word_value p) (after s word_value p) ->
     eval opt (S n) (arr_view s) (arr_view s) p f c (AR (rx "\b") :: tl) = eval opt n (arr_view s) (arr_view s) p f c tl) /\
  (~ exactly_one (before s word_value p) (after s word_value p) ->
     eval opt (S n) (arr_view s) (arr_view s) p f c (AR (rx "\b") :: tl) = No).
Proof.
  intros opt s n p f c tl Hp Hs. replace (rx "\b") with (RBound word_chars) by (vm_compute; reflexivity).
  apply bound_step; auto; [destruct f as [? ? []]; reflexivity|]. intros x. apply word_has.
Qed.
Print Assumptions C24_word_boundary.
Example C24_ex : exactly_one (before (codes "ab c") word_value 2) (after (codes "ab c") word_value 2) /\
  ~ exactly_one (before (codes "ab c") word_value 1) (after (codes "ab c") word_value 1) /\
  ~ exactly_one (before (codes "") word_value 0) (after (codes "") word_value 0).
Proof.
  unfold exactly_one, before, after, word_value. split; [|split].
  - left. split.
    + exists 1, 98%Z. repeat split. lia.
    + intros (x & H & H1). vm_compute in H. injection H as <-. lia.
  - intros [[_ H]|[_ H]]; apply H.
    + exists 98%Z. split; [reflexivity|]. lia.
    + exists 0, 97%Z. split; [reflexivity|]. split; [reflexivity|]. lia.
  - intros [[(q & x & H & _) _]|[(x & H & _) _]]; discriminate.
Qed.
(** [\B] is the boundary of the complement: exactly one neighbour exists and is no word character. *)
Theorem C24_what_B_does : forall opt s n p f c tl, p <= List.length s -> (forall x, In x s -> val_ok x = true) ->
  (exactly_one (before s (fun x => ~ word_value x) p) (after s (fun x => ~ word_value x) p) ->
     eval opt (S n) (arr_view s) (arr_view s) p f c (AR (rx "\B") :: tl) = eval opt n (arr_view s) (arr_view s) p f c tl) /\
  (~ exactly_one (before s (fun x => ~ word_value x) p) (after s (fun x => ~ word_value x) p) ->
     eval opt (S n) (arr_view s) (arr_view s) p f c (AR (rx "\B") :: tl) = No).
Proof.
  intros opt s n p f c tl Hp Hs. replace (rx "\B") with (RBound (CNeg [word_chars])) by (vm_compute; reflexivity).
  apply bound_step; auto; [destruct f as [? ? []]; reflexivity|]. intros x.
  cbn [cls_has existsb]. rewrite orb_false_r. rewrite <- (word_has (f_ci f)). destruct (cls_has (f_ci f) word_chars x); cbn; intuition congruence.
Qed.
Print Assumptions C24_what_B_does.
(** So there are positions where both succeed and positions where both fail. *)
Theorem C24_B_refuted : forall opt, exists n c c',
  attempt opt n (codes "a-") plain_mode (rx "\b") 1 = Ok c /\ attempt opt n (codes "a-") plain_mode (rx "\B") 1 = Ok c' /\
  attempt opt n (codes "ab") plain_mode (rx "\b") 1 = No /\ attempt opt n (codes "ab") plain_mode (rx "\B") 1 = No /\
  attempt opt n (codes "") plain_mode (rx "\b") 0 = No /\ attempt opt n (codes "") plain_mode (rx "\B") 0 = No.
Proof. intros []; exists 60; eexists; eexists; vm_compute; repeat split. Qed.
Print Assumptions C24_B_refuted.

(** * C25 *)
(** [anchor_holds s ml a p] (Constructs.v) spells out the five conditions. *)
Theorem C25_anchors : forall opt s n p f c a tl, p <= List.length s ->
  (anchor_holds s (f_ml f) a p ->
     eval opt (S n) (arr_view s) (arr_view s) p f c (AR (RAssert a) :: tl) = eval opt n (arr_view s) (arr_view s) p f c tl) /\
  (~ anchor_holds s (f_ml f) a p -> eval opt (S n) (arr_view s) (arr_view s) p f c (AR (RAssert a) :: tl) = No).
Proof. exact anchor_step. Qed.
Print Assumptions C25_anchors.
Example C25_ex_texts : map rx ["^"; "$"; "\A"; "\z"; "\Z"] =
  [RAssert ALineBegin; RAssert ALineEnd; RAssert ASubjectBegin; RAssert ASubjectEnd; RAssert ASubjectEndLine].
Proof. vm_compute. reflexivity. Qed.
Example C25_ex : anchor_holds [97; 10; 98; 10]%Z true ALineBegin 2 /\ ~ anchor_holds [97; 10; 98; 10]%Z false ALineBegin 2 /\
  anchor_holds [97; 10; 98; 10]%Z true ALineEnd 1 /\ anchor_holds [97; 10; 98; 10]%Z true ASubjectEndLine 3 /\
  ~ anchor_holds [97; 10; 98; 10]%Z true ASubjectEndLine 1.
Proof.
  cbn [anchor_holds]. unfold before, after. split; [|split; [|split; [|split]]].
  - right. split; [reflexivity|]. exists 1, 10%Z. repeat split.
  - intros [H|[H _]]; discriminate.
  - right. split; [reflexivity|]. exists 10%Z. split; reflexivity.
  - right. split; [reflexivity|]. split; [|reflexivity]. exists 10%Z. split; reflexivity.
  - intros [H|(_ & _ & H)]; discriminate.
Qed.

(** * C29 *)
(** [try_all]: the search that tries every position. [zero_safe]: no [^] or [\A] under a repetition that
    may run zero times. *)
Theorem C29_same : forall opt n s f r c, well_numbered r -> zero_safe r = true ->
  ctre_search opt n s f r = Ok c ->
  if matched c then try_all opt n s f r = Ok c
  else forall c', try_all opt n s f r <> Ok c'.
Proof. exact shortcut_same. Qed.
Print Assumptions C29_same.
Theorem C29_nowhere_else : forall opt n s f r p c, zero_safe r = true -> starts_with_anchor f r = true -> 0 < p ->
  attempt opt n s f r p <> Ok c.
Proof. exact (fun opt n s f r p c H1 H2 H3 => anchored_nowhere_else opt n s f r p c H1 H2 H3). Qed.
Print Assumptions C29_nowhere_else.
Example C29_ex : forallb (fun t => zero_safe (rx t) && starts_with_anchor plain_mode (rx t)) ["^a+b"; "(?:\Ax|^(?:y|z))*?q|\A"; "(^a)+b"] = false /\
  forallb (fun t => zero_safe (rx t) && starts_with_anchor plain_mode (rx t)) ["^a+b"; "(?:\Ax|^(?:y|z))q|\A"; "(^a)+b"] = true.
Proof. vm_compute. repeat split. Qed.
Theorem C29_zero_times_refuted : forall opt, exists n c c',
  ctre_search opt n (codes "xb") plain_mode (rx "(^a)*b") = Ok c /\ matched c = false /\
  try_all opt n (codes "xb") plain_mode (rx "(^a)*b") = Ok c' /\ matched c' = true.
Proof. intros []; exists 60; eexists; eexists; vm_compute; repeat split. Qed.
Print Assumptions C29_zero_times_refuted.

(** * C36 *)
(** [repeats s b e p]: the text at [p] starts with the text of the span [b, e). *)
Theorem C36_backreference : forall opt n s p f c id b e tl, p <= List.length s -> b <= e <= List.length s -> e - b < n ->
  group c id = Some (b, e) ->
  (repeats s b e p -> eval opt (S n) (arr_view s) (arr_view s) p f c (AR (RBack id) :: tl) =
     eval opt n (arr_view s) (arr_view s) (p + (e - b)) (consumed_something f (negb (Nat.eqb b e))) c tl) /\
  (~ repeats s b e p -> eval opt (S n) (arr_view s) (arr_view s) p f c (AR (RBack id) :: tl) = No).
Proof. exact back_step. Qed.
Print Assumptions C36_backreference.
Theorem C36_unset : forall opt n s p f c id sl tl, get_id id c = Some sl -> s_m sl = false ->
  eval opt (S n) (arr_view s) (arr_view s) p f c (AR (RBack id) :: tl) = No.
Proof. exact back_unset. Qed.
Print Assumptions C36_unset.
Theorem C36_named : forall opt n s p f c nm id sl tl, get_name nm (cl c) = Some sl -> get_id id c = Some sl ->
  eval opt (S n) (arr_view s) (arr_view s) p f c (AR (RNBack nm) :: tl) =
  eval opt (S n) (arr_view s) (arr_view s) p f c (AR (RBack id) :: tl).
Proof. exact nback_same. Qed.
Print Assumptions C36_named.
Example C36_ex : rx "(a+)\1" = rx "(a+)\g{1}" /\ rx "(?<n>a+)\g{n}" = RSeq [RNCap 1 [110%Z] [RRep Greedy 1 0 [RCls (CChar 97)]]; RNBack [110%Z]] /\
  repeats (codes "abcabx") 0 2 3 /\ ~ repeats (codes "abcabx") 0 3 3 /\
  map (fun t => match ctre_match true 90 (codes t) plain_mode (rx "(?:(a|b)-\1,)+") with Ok c => group c 1 | _ => None end)
    ["a-a,b-b,"; "a-b,"; "b-b,"] = [Some (4, 5); None; Some (0, 1)].
Proof.
  split; [vm_compute; reflexivity|]. split; [vm_compute; reflexivity|]. split; [reflexivity|]. split; [discriminate|].
  vm_compute. reflexivity.
Qed.
