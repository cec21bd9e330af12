(** Parsing and literal patterns: C15, C16, C17, C37.

    [props] is the data base of Unicode properties (any). [forallb lit_ok w]: all code points of [w] are
    in 0 .. 2^31-1; [forallb val_ok s]: all units of the subject fit 32 bits. [opt]: greedy optimisation
    on or off; [n]: fuel. *)
From Coq Require Import List ZArith NArith Bool Lia String.
From Verif Require Import Chars Syntax Grammar Actions Parser Eval Api Spec CharProofs Utf8Proofs FixedString ParserProofs Literals Properties2.
Import ListNotations.
Local Open Scope string_scope.

(** * C15 *)
(** [8 * length + 3] steps of the parser are enough for every text, and the result does not change with more. *)
Theorem C15_linear : forall props input fuel, 8 * List.length input + 3 <= fuel ->
  exists x, x <> PFuel /\ run props fuel None input [NT N_s] (mkCtx [] 0) = x /\ parse_ctx props input = x.
Proof. exact parse_total. Qed.
Print Assumptions C15_linear.
Theorem C15_compile : forall props input, compile props input <> CFuel.
Proof. exact compile_total. Qed.
Print Assumptions C15_compile.
(** The table has at most one entry for each symbol and character, and [rule] finds it. *)
Theorem C15_deterministic : forall n cur e e', In e (rules n) -> In e' (rules n) -> viable cur e -> viable cur e' -> e = e'.
Proof. exact ll1_consistent. Qed.
Print Assumptions C15_deterministic.
Theorem C15_table : forall n cur l, rule n cur = Push l <-> exists m, In (m, Push l) (rules n) /\ viable cur (m, Push l).
Proof. exact rule_spec. Qed.
Print Assumptions C15_table.
Example C15_ex : compile no_props (codes "(a|b)*c{2,3}") <> CReject /\ compile no_props (codes "(a|b") = CReject /\
  compile no_props (codes "a**") = CReject /\
  run no_props 5 None (codes "(a|b)*c{2,3}") [NT N_s] (mkCtx [] 0) = PFuel /\
  run no_props (8 * 12 + 3) None (codes "(a|b)*c{2,3}") [NT N_s] (mkCtx [] 0) <> PFuel.
Proof. vm_compute. repeat split; discriminate. Qed.

(** * C16 *)
(** [meta c]: [c] is one of [$ ( ) * + . ? [ \ ^ { | }]. *)
Theorem C16_match : forall props opt n s f w, Forall (fun c => meta c = false) w ->
  forallb lit_ok w = true -> forallb val_ok s = true -> 5 <= n -> plain f ->
  exists r c, compile props w = CRegex r /\ ctre_match opt n s f r = Ok c /\ (matched c = true <-> s = w).
Proof. intros. apply text_match; auto using plain_spells. Qed.
Print Assumptions C16_match.
Theorem C16_starts_with : forall props opt n s f w, Forall (fun c => meta c = false) w ->
  forallb lit_ok w = true -> forallb val_ok s = true -> 4 <= n -> plain f ->
  exists r c, compile props w = CRegex r /\ ctre_starts_with opt n s f r = Ok c /\
    (matched c = true <-> exists t, s = (w ++ t)%list) /\ (matched c = true -> group c 0 = Some (0, List.length w)).
Proof. intros. apply text_starts; auto using plain_spells. Qed.
Print Assumptions C16_starts_with.
(** [occurs w s p]: [s = a ++ w ++ b] with [a] of length [p]. *)
Theorem C16_search : forall props opt n s f w, Forall (fun c => meta c = false) w ->
  forallb lit_ok w = true -> forallb val_ok s = true -> 4 <= n -> List.length s < n -> plain f ->
  exists r c, compile props w = CRegex r /\ ctre_search opt n s f r = Ok c /\
    (matched c = true <-> exists q, occurs w s q) /\
    (matched c = true -> exists q, group c 0 = Some (q, q + List.length w) /\ occurs w s q /\ forall q', occurs w s q' -> q <= q').
Proof. intros. apply text_search; auto using plain_spells. Qed.
Print Assumptions C16_search.
(** In case-insensitive mode letter by letter. *)
Theorem C16_case : forall props opt n s f w, Forall (fun c => meta c = false) w ->
  forallb lit_ok w = true -> forallb val_ok s = true -> 5 <= n ->
  exists r c, compile props w = CRegex r /\ ctre_match opt n s f r = Ok c /\
    (matched c = true <-> Forall2 (fun a x => lit_has (f_ci f) a x = true) w s).
Proof. intros. apply text_match_ci; auto using plain_spells. Qed.
Print Assumptions C16_case.
(** From the bytes of the pattern on. *)
Theorem C16_utf8 : forall props opt n s f w, Forall (fun c => meta c = false) w -> wf_text w ->
  forallb val_ok s = true -> 5 <= n -> plain f ->
  exists x r c, from_utf8 (encode w) = Some x /\ build props x = CRegex r /\ ctre_match opt n s f r = Ok c /\ (matched c = true <-> s = w).
Proof.
  intros props opt n s f w Hw Ht Hs Hn Hf.
  assert (L : forallb lit_ok w = true).
  { rewrite forallb_forall. intros c Hc. unfold wf_text in Ht. rewrite Forall_forall in Ht. specialize (Ht c Hc). unfold scalar in Ht. unfold lit_ok. lia. }
  destruct (C16_match props opt n s f w Hw L Hs Hn Hf) as (r & c & H1 & H2 & H3).
  exists (mkFixed w true), r, c. split; [apply utf8_decodes; assumption|]. auto.
Qed.
Print Assumptions C16_utf8.
Example C16_ex : Forall (fun c => meta c = false) (codes "foo,b-r: <x>=""1"" ]") /\
  compile no_props (codes "foo,b-r]") = CRegex (RStr (codes "foo,b-r]")) /\
  (exists c, ctre_search true 60 (codes "..ababac") plain_mode (rx "abac") = Ok c /\ group c 0 = Some (4, 8)).
Proof. split; [repeat constructor|]. split; [vm_compute; reflexivity|]. eexists. vm_compute. split; reflexivity. Qed.

(** * C17 *)
(** [escape w] puts a backslash before each metacharacter of [w]; all characters are allowed in [w]. *)
Theorem C17_match : forall props opt n s f w,
  forallb lit_ok w = true -> forallb val_ok s = true -> 5 <= n -> plain f ->
  exists r c, compile props (escape w) = CRegex r /\ ctre_match opt n s f r = Ok c /\ (matched c = true <-> s = w).
Proof. intros. apply text_match; auto using escape_spells. Qed.
Print Assumptions C17_match.
Theorem C17_search : forall props opt n s f w,
  forallb lit_ok w = true -> forallb val_ok s = true -> 4 <= n -> List.length s < n -> plain f ->
  exists r c, compile props (escape w) = CRegex r /\ ctre_search opt n s f r = Ok c /\
    (matched c = true <-> exists q, occurs w s q) /\
    (matched c = true -> exists q, group c 0 = Some (q, q + List.length w) /\ occurs w s q /\ forall q', occurs w s q' -> q <= q').
Proof. intros. apply text_search; auto using escape_spells. Qed.
Print Assumptions C17_search.
(** Any way to write the characters: plain, escaped, [\n], [\xHH], [\uHHHH], [\x{H..}], [\u{H..}]. *)
Theorem C17_spelled : forall props opt n s f p w, spells p w -> forallb lit_ok w = true -> forallb val_ok s = true -> 5 <= n -> plain f ->
  exists r c, compile props p = CRegex r /\ ctre_match opt n s f r = Ok c /\ (matched c = true <-> s = w).
Proof. exact text_match. Qed.
Print Assumptions C17_spelled.
Example C17_ex : escape (codes "1+1=(2)$ [a\b]{^}|?") = codes "1\+1=\(2\)\$ \[a\\b]\{\^\}\|\?" /\
  compile no_props (codes "1\+1=\(2\)\$ \[a\\b]\{\^\}\|\?") = CRegex (RStr (codes "1+1=(2)$ [a\b]{^}|?")) /\
  compile no_props (codes "a\x41\n\u{1F600}") = CRegex (RStr [97; 65; 10; 128512]%Z).
Proof. vm_compute. repeat split. Qed.
(** Not every escape is read: a backslash before an ordinary character such as [%] is an error, and
    [\e] is the character 20, not 27. *)
Theorem C17_other_escapes_refuted : compile no_props (codes "\%") = CReject /\ compile no_props (codes "\ ") = CReject /\
  rx "\e" = RCls (CChar 20).
Proof. vm_compute. repeat split. Qed.
Print Assumptions C17_other_escapes_refuted.

(** * C37 *)
(** [decimal l], [hexadecimal l]: the value of a string of digits. Bounds below 2^64; an upper bound 0 is
    the subject of C20_zero_refuted. [u] is any spelling of a character [c]. *)
Theorem C37_bounds : forall props u c l m, spell1 u c -> lit_ok c = true ->
  Forall is_digit l -> l <> [] -> (decimal l < 2 ^ 64)%N -> Forall is_digit m -> m <> [] -> (0 < decimal m < 2 ^ 64)%N ->
  exists r1 r2 r3, compile props (u ++ 123%Z :: m ++ [125%Z])%list = CRegex r1 /\
    compile props (u ++ 123%Z :: l ++ [44%Z; 125%Z])%list = CRegex r2 /\
    compile props (u ++ 123%Z :: l ++ 44%Z :: m ++ [125%Z])%list = CRegex r3 /\
    forall opt n s f x, forallb val_ok s = true -> plain f ->
      (ctre_match opt n s f r1 = Ok x -> (matched x = true <-> s = repeat c (List.length s) /\ N.of_nat (List.length s) = decimal m)) /\
      (ctre_match opt n s f r2 = Ok x -> (matched x = true <-> s = repeat c (List.length s) /\ (decimal l <= N.of_nat (List.length s))%N)) /\
      (ctre_match opt n s f r3 = Ok x -> (matched x = true <-> s = repeat c (List.length s) /\ (decimal l <= N.of_nat (List.length s) <= decimal m)%N)).
Proof. exact bounds_count. Qed.
Print Assumptions C37_bounds.
(** Behind any atom at any place of a pattern: the bounds reach the AST with their values modulo 2^64. *)
Theorem C37_bounds_anywhere : forall props l m p rest st x ts k, Forall is_digit l -> l <> [] -> Forall is_digit m -> m <> [] ->
  exists p', p' <> None /\ goes props p (123%Z :: l ++ 44%Z :: m ++ 125%Z :: rest) (NT N_repeat :: st) (mkCtx (IRe x :: ts) k)
    p' rest (NT N_mod :: st) (mkCtx (IRe (RRep Greedy (decimal l mod 2 ^ 64) (decimal m mod 2 ^ 64) (unwrap x)) :: ts) k).
Proof. exact bounds_between. Qed.
Print Assumptions C37_bounds_anywhere.
Example C37_ex : spell1 (codes "a") 97%Z /\ spell1 (codes "\x{61}") 97%Z /\ decimal (codes "0012") = 12%N /\ decimal (codes "18446744073709551615") = (2 ^ 64 - 1)%N /\
  rx "a{0012,18446744073709551615}" = RRep Greedy 12 (2 ^ 64 - 1) [RCls (CChar 97)].
Proof.
  split; [apply sp_plain; left; cbn; intuition|]. split.
  - apply (sp_braces 120 (codes "61")); [auto|discriminate| |reflexivity]. repeat constructor; unfold is_hex; cbn; lia.
  - vm_compute. repeat split.
Qed.
(** Hexadecimal escapes. *)
Theorem C37_hex : forall props opt n s f y ds, (y = 120 \/ y = 117)%Z -> ds <> [] -> Forall is_hex ds -> (hexadecimal ds < 2 ^ 31)%N ->
  forallb val_ok s = true -> 5 <= n -> plain f ->
  exists r c, compile props ([92; y; 123]%Z ++ ds ++ [125%Z])%list = CRegex r /\ ctre_match opt n s f r = Ok c /\
    (matched c = true <-> s = [Z.of_N (hexadecimal ds)]).
Proof.
  intros props opt n s f y ds Hy Hn Hd Hb Hs Hf Hp. rewrite <- (app_nil_r (_ ++ ds ++ _)).
  apply text_match; auto.
  - apply spells_cons; [|constructor]. apply sp_braces; auto. eapply N.lt_trans; [exact Hb|reflexivity].
  - cbn [forallb]. unfold lit_ok. change (2 ^ 31)%N with 2147483648%N in Hb. lia.
Qed.
Print Assumptions C37_hex.
Theorem C37_hex_digits : forall props opt n s f a b c d, is_hex a -> is_hex b -> is_hex c -> is_hex d ->
  forallb val_ok s = true -> 5 <= n -> plain f ->
  (exists r x, compile props [92; 120; a; b]%Z = CRegex r /\ ctre_match opt n s f r = Ok x /\
    (matched x = true <-> s = [Z.of_N (hexadecimal [a; b])])) /\
  (exists r x, compile props [92; 117; a; b; c; d]%Z = CRegex r /\ ctre_match opt n s f r = Ok x /\
    (matched x = true <-> s = [Z.of_N (hexadecimal [a; b; c; d])])).
Proof.
  intros props opt n s f a b c d Ha Hb Hc Hd Hs Hn Hp. split.
  - apply text_match; auto.
    + apply (spells_cons [92; 120; a; b]%Z _ [] []); [|constructor]. apply sp_x2; assumption.
    + pose proof (hex_small props [a; b] ltac:(cbn; lia) ltac:(auto)) as B. cbn [forallb]. unfold lit_ok.
      assert (B' : (hexadecimal [a; b] < 256)%N) by exact B. lia.
  - apply text_match; auto.
    + apply (spells_cons [92; 117; a; b; c; d]%Z _ [] []); [|constructor]. apply sp_u4; assumption.
    + pose proof (hex_small props [a; b; c; d] ltac:(cbn; lia) ltac:(auto)) as B. cbn [forallb]. unfold lit_ok.
      assert (B' : (hexadecimal [a; b; c; d] < 65536)%N) by exact B. lia.
Qed.
Print Assumptions C37_hex_digits.
(** Values that do not fit 32 bits are a compile error, until they wrap at 2^64. *)
Theorem C37_hex_too_large : forall props y ds rest, (y = 120 \/ y = 117)%Z -> ds <> [] -> Forall is_hex ds ->
  (2 ^ 32 <= hexadecimal ds < 2 ^ 64)%N -> compile props ([92; y; 123]%Z ++ ds ++ 125%Z :: rest)%list = CIll.
Proof. exact hex_too_large. Qed.
Print Assumptions C37_hex_too_large.
Example C37_hex_ex : rx "\x{1F600}" = RCls (CChar 128512) /\ hexadecimal (codes "1f600") = 128512%N /\
  compile no_props (codes "\x{100000000}") = CIll.
Proof. vm_compute. repeat split. Qed.
Theorem C37_wrap_refuted : decimal (codes "18446744073709551617") = (2 ^ 64 + 1)%N /\
  rx "a{18446744073709551617}" = rx "a{1}" /\ rx "a{18446744073709551616}" = rx "a*" /\
  rx "\x{10000000000000041}" = rx "A".
Proof. vm_compute. repeat split. Qed.
Print Assumptions C37_wrap_refuted.
