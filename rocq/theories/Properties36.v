(** What the README promises: C66.

    /repo/README.md says what is not a pattern (lines 25-46) and shows programs (lines 164-241). Here: every pattern passes a scanner
    of fourteen kinds of states (Lexical.v), so that the things that are not supported are rejected wherever they occur, and the
    programs are right for every subject. Two things that the README calls unsupported are accepted. *)
From Coq Require Import List ZArith NArith Bool Lia Arith String.
From Verif Require Import Chars Syntax First Utf8 View Eval Api Actions Parser Spec CharProofs Views EvalTop Match Term ModeSem Mode ModeCalls ModeTop Compiles Total
  ErrorPos Lexical Fields ReadMe Properties2 Properties14.
Import ListNotations.
Local Open Scope string_scope.
Local Open Scope list_scope.
Local Open Scope nat_scope.

(** * C66 *)
Theorem C66_shape : forall props u r, compile props u = CRegex r -> scan Plain 0 u = Some (Plain, 0%Z).
Proof. exact (fun props u r H => shaped_lexical u (compiled_shaped props u r H)). Qed.
Print Assumptions C66_shape.
(** "unknown escaped character is a syntax error": a backslash that is not itself escaped is followed by a known character, wherever it stands. *)
Theorem C66_escapes : forall props a w r, compile props (a ++ 92%Z :: w) = CRegex r -> escapes_next a = false ->
  exists c w', w = c :: w' /\ may_be_escaped c = true.
Proof. exact (fun props a w r H => escapes_known a w (C66_shape props _ r H)). Qed.
Print Assumptions C66_escapes.
Theorem C66_unknown : forall c, may_be_escaped c = false ->
  forall props a b r, escapes_next a = false -> compile props (a ++ 92%Z :: c :: b) <> CRegex r.
Proof.
  intros c Hc props a b r E H. destruct (C66_escapes props a (c :: b) r H E) as (c' & w' & E' & K). injection E' as <- _. congruence.
Qed.
Print Assumptions C66_unknown.
(** The match point reset, grapheme clusters, control characters, quoting and others ... *)
Example C66_unknown_example : forallb (fun c => negb (may_be_escaped c)) (codes "KXcQERGkoULlijmqyCFIJMOTY_@#~%&=:;,! '`" ++ [10; 955; 128640]%Z) = true.
Proof. reflexivity. Qed.
Example C66_escapes_example : escapes_next (codes "a\\(?:") = false /\ escapes_next (codes "a\\\") = true /\
  compile no_props (codes "a\\\Kb") = CReject /\ compile no_props (codes "a\\Kb") = CRegex (RStr (codes "a\Kb")).
Proof. vm_compute. auto. Qed.
(** ... and each of the known ones is known: those that stand for themselves (more than "\-", the quote, "\<", "\>" of line 46) ... *)
Theorem C66_escaped_self : forall c, In c escaped_self -> compile no_props [92%Z; c] = CRegex (RCls (CChar c)).
Proof.
  intros c H. assert (E : forallb (fun c => match compile no_props [92%Z; c] with CRegex (RCls (CChar c')) => (c' =? c)%Z | _ => false end) escaped_self = true)
    by (vm_compute; reflexivity).
  rewrite forallb_forall in E. specialize (E c H).
  destruct (compile no_props [92%Z; c]) as [r| | |]; try discriminate E. destruct r as [c'| | | | | | | | | | | | | | | | | |]; try discriminate E.
  destruct c'; try discriminate E. apply Z.eqb_eq in E. subst. reflexivity.
Qed.
Print Assumptions C66_escaped_self.
(** ... and the letters and digits. *)
Definition any_script : list Z -> option (list Z) -> option (list (Z * Z)) := fun _ _ => Some [(0, 255)%Z].
Example C66_known_example : forall p, In p ["\a"; "\e"; "\f"; "\n"; "\r"; "\t"; "\0"; "\d"; "\D"; "\h"; "\H"; "\s"; "\S"; "\v"; "\V"; "\w"; "\W"; "\N";
    "\b"; "\B"; "\A"; "\z"; "\Z"; "(a)\1"; "(a)(b)(a)(b)(a)(b)(a)(b)(c)\9"; "(a)\g{1}"; "\x41"; "\x{41}"; "\u0041"; "\u{41}"; "\p{L}"; "\P{L}"] ->
  exists r, compile any_script (codes p) = CRegex r.
Proof. intros p H. repeat (destruct H as [<-|H]; [eexists; vm_compute; reflexivity|]). destruct H. Qed.

(** Comments, conditions, callouts, calls of groups, other names: outside brackets and escapes, what follows an opening parenthesis and a
    question mark is one of a few characters. *)
Theorem C66_groups : forall props a w r, bare a -> compile props (a ++ codes "(?" ++ w) = CRegex r ->
  exists c w', w = c :: w' /\ (one_of c ":>!=icms" = true \/
    c = 60%Z /\ exists c' w'', w' = c' :: w'' /\ (one_of c' "!=" = true \/ one_of c' name_starts = true)).
Proof. exact (fun props a w r B H => groups_known a w B (C66_shape props _ r H)). Qed.
Print Assumptions C66_groups.
Theorem C66_no_groups : forall o, In o ["(?#"; "(?("; "(?C"; "(?R"; "(?0"; "(?1"; "(?9"; "(?+"; "(?-"; "(?&"; "(?P"; "(?'"; "(?|"; "(?x"; "(?n"; "(?J"; "(?U"; "(?^"; "(??"; "(?<*"; "(?*"; "(?{"] ->
  forall props a w r, bare a -> compile props (a ++ codes o ++ w) <> CRegex r.
Proof.
  intros o Ho props a w r B H.
  assert (X : exists v, codes o ++ w = codes "(?" ++ v /\ match v with
    | c :: c' :: _ => one_of c ":>!=icms" = false /\ (c <> 60%Z \/ one_of c' "!=" || one_of c' name_starts = false)
    | [c] => one_of c ":>!=icms" = false /\ c <> 60%Z | [] => True end).
  { repeat (destruct Ho as [<-|Ho]; [eexists; split; [cbn; reflexivity|]; cbn;
      try (split; [reflexivity|first [right; reflexivity | left; discriminate]]); destruct w; (split; [reflexivity|first [discriminate | left; discriminate]])|]). destruct Ho. }
  destruct X as (v & E & X). rewrite E in H. destruct (C66_groups props a v r B H) as (c & w' & -> & K).
  destruct w' as [|c' w'].
  - destruct X as [X1 X2]. destruct K as [K|(-> & c' & w'' & K & _)]; congruence.
  - destruct X as [X1 X2]. destruct K as [K|(-> & c2 & w2 & K & K')]; [congruence|]. injection K as <- <-. destruct X2 as [X2|X2]; [congruence|].
    apply orb_false_iff in X2 as [Y1 Y2]. destruct K' as [K'|K']; congruence.
Qed.
Print Assumptions C66_no_groups.
Example C66_groups_example : map (fun p => match compile no_props (codes p) with CRegex _ => true | _ => false end)
  ["a(?#b)"; "(?(1)a|b)"; "(a)(?1)"; "(?:a|(?R))"; "(?P<n>a)"; "[(?#]b"; "\(?#"] = [false; false; false; false; false; true; true].
Proof. reflexivity. Qed.
(** Parentheses balance, and a brace opens a number. *)
Theorem C66_balanced : forall props u r, bare u -> compile props u = CRegex r -> depth u = 0%Z /\ forall a b, u = a ++ b -> (0 <= depth a)%Z.
Proof. exact (fun props u r B H => balanced u B (C66_shape props u r H)). Qed.
Print Assumptions C66_balanced.
Theorem C66_braces : forall props a w r, bare a -> compile props (a ++ codes "{" ++ w) = CRegex r -> exists c w', w = c :: w' /\ one_of c digits = true.
Proof. exact (fun props a w r B H => counts_known a w B (C66_shape props _ r H)). Qed.
Print Assumptions C66_braces.
(** Without the restriction neither holds: a parenthesis within brackets or after a backslash is a character. *)
Theorem C66_balanced_refuted : exists u v r r', compile no_props u = CRegex r /\ compile no_props v = CRegex r' /\ depth u = 1%Z /\ depth v = (-1)%Z.
Proof. exists (codes "[(]"), (codes "\)"), (RCls (CSet [CChar 40])), (RCls (CChar 41)). vm_compute. auto. Qed.
Print Assumptions C66_balanced_refuted.
(** What the scanner itself rejects: the kinds of texts that the statements above do not name. *)
Example C66_shape_example : forallb (fun p => match scan Plain 0 (codes p) with Some (Plain, 0%Z) => false | _ => true end)
  ["("; ")"; "a)"; "(a"; "(a))(b"; "(*a)"; "(+)"; "({1}a)"; "(?"; "(?)"; "(?:"; "(?<"; "(?<>a)"; "(?<1>a)"; "(?<a"; "(?<a b>c)"; "(?<a-b>c)"; "(?<=a"; "(?i"; "(?i:a)"; "(?i:)"; "(?i:s)"; "(?ix)a"; "(?i-s)a";
   "a{"; "a{}"; "a{,}"; "a{,2}"; "a{1"; "a{1,"; "a{a}"; "a{1 }"; "a}"; "a{1}}"; "["; "[]"; "[]a]"; "[-a]"; "[a"; "[^"; "[a\]"; "[[a]"; "[[:"; "[[:alpha"; "[[:alpha:"; "[[:alpha:a]]"; "[[.a.]]"; "[[=a=]]"; "[[:al1:]]"; "[[:alpha:]";
   "\"; "a\"; "[\b]"; "[\1]"; "[\g{1}]"; "[\B]"; "[\A]"; "\g"; "\g1"; "\g{"; "\g{1"; "\g<a>"; "\pL"; "\p"; "\p{"; "\p{L"; "\p{^L}"; "\P{L l}"; "[\p{L]"; "\x"; "\x1"; "\x1g"; "\x{1"; "\x{ 1}"; "\x{1"; "[\x4]"; "\u123"; "\u12{3}"; "\u"; "[\u00]"; "[a]]\"; "\x1{1}"]
  = true.
Proof. reflexivity. Qed.
(** Passing the scanner is not enough. *)
Example C66_shape_converse : scan Plain 0 (codes "a**+") = Some (Plain, 0%Z) /\ compile no_props (codes "a**+") = CReject.
Proof. vm_compute. auto. Qed.
(** Lines 33 and 34: options are accepted, and so is a text that is an octal number elsewhere (here: NUL and two digits). *)
Theorem C66_unsupported_refuted : exists r, compile no_props (codes "(?i)a") = CRegex r /\
  (exists n, ctre_match true n [65%Z] plain_mode r <> ctre_match true n [66%Z] plain_mode r) /\
  compile no_props (codes "\012") = CRegex (RStr [0; 49; 50]%Z).
Proof. exists (rx "(?i)a"). split; [vm_compute; reflexivity|]. split; [exists 50; vm_compute; discriminate|vm_compute; reflexivity]. Qed.
Print Assumptions C66_unsupported_refuted.

(** * The programs *)
(** A row of fields (characters or repetitions of the characters of a class, in groups or not): [match] says whether the subject splits
    into words of the fields, and the groups are the words of such a splitting. *)
Theorem C66_fields : forall props u l opt s f, compile props u = CRegex (RSeq (map field_re l)) -> forallb val_ok s = true ->
  terminating (RSeq (map field_re l)) = true -> msound_check opt f (RSeq (map field_re l)) = true ->
  right_check opt f (RSeq (map field_re l)) MMatch = true ->
  exists c, answers (fun n => ctre_match opt n s f (RSeq (map field_re l))) c /\
    (matched c = true <-> exists ws, Forall2 (fits (f_ci f)) l ws /\ s = List.concat ws) /\
    (matched c = true -> exists ws, Forall2 (fits (f_ci f)) l ws /\ s = List.concat ws /\
       captures_are (RSeq (map field_re l)) c (fields_log l ws 0 [])).
Proof. exact fields_match. Qed.
Print Assumptions C66_fields.
(** [extract_number]: letters and then digits; the group is the digits. *)
Theorem C66_extract_number : forall opt s, forallb val_ok s = true -> exists r c, compile no_props (codes "[a-z]+([0-9]+)") = CRegex r /\
  answers (fun n => ctre_match opt n s plain_mode r) c /\
  (matched c = true <-> exists w d, s = w ++ d /\ w <> [] /\ d <> [] /\ Forall lower w /\ Forall decimal d) /\
  (forall w d, s = w ++ d -> w <> [] -> d <> [] -> Forall lower w -> Forall decimal d -> group c 1 = Some (List.length w, List.length s)).
Proof. exact extract_number. Qed.
Print Assumptions C66_extract_number.
(** [extract_date], with numbers and with names. *)
Theorem C66_extract_date : forall t, In t [codes "(\d{4})/(\d{1,2})/(\d{1,2})"; codes "(?<year>\d{4})/(?<month>\d{1,2})/(?<day>\d{1,2})"] ->
  forall opt s, forallb val_ok s = true -> exists r c, compile no_props t = CRegex r /\
  answers (fun n => ctre_match opt n s plain_mode r) c /\
  (matched c = true <-> exists y m d, s = y ++ 47%Z :: m ++ 47%Z :: d /\ is_date y m d) /\
  (forall y m d, s = y ++ 47%Z :: m ++ 47%Z :: d -> is_date y m d ->
     group c 1 = Some (0, 4) /\ group c 2 = Some (5, 5 + List.length m) /\ group c 3 = Some (6 + List.length m, List.length s)).
Proof. exact extract_date. Qed.
Print Assumptions C66_extract_date.
(** [lexer]. *)
Theorem C66_lexer : forall opt s, forallb val_ok s = true -> exists r c, compile no_props (codes "([a-z]+)|([0-9]+)") = CRegex r /\
  answers (fun n => ctre_match opt n s plain_mode r) c /\
  (matched c = true <-> s <> [] /\ (Forall lower s \/ Forall decimal s)) /\
  (s <> [] -> Forall lower s -> group c 1 = Some (0, List.length s) /\ group c 2 = None) /\
  (s <> [] -> Forall decimal s -> group c 1 = None /\ group c 2 = Some (0, List.length s)).
Proof. exact lexer. Qed.
Print Assumptions C66_lexer.
Example C66_programs_example : forall opt,
  map (fun t => match ctre_match opt 200 (codes t) plain_mode (rx "[a-z]+([0-9]+)") with Ok c => (matched c, group c 1) | _ => (false, None) end) ["abc123"; "abc"; "1a"; ""]
    = [(true, Some (3, 6)); (false, None); (false, None); (false, None)] /\
  map (fun t => match ctre_match opt 200 (codes t) plain_mode (rx "(\d{4})/(\d{1,2})/(\d{1,2})") with Ok c => (matched c, group c 2, group c 3) | _ => (false, None, None) end)
    ["2018/08/27"; "2018/8/2"; "2018/008/27"] = [(true, Some (5, 7), Some (8, 10)); (true, Some (5, 6), Some (7, 8)); (false, None, None)].
Proof. intros [|]; vm_compute; auto. Qed.
