(** The library's own tests: C65.

    The assertions of /repo/tests are rows of RepoData.v; RepoTests.v says what a row means. Here: the model passes them all, what
    tests/is_prime.cpp checks for twelve subjects holds for every subject, and one assertion that needs the optimisation. *)
From Coq Require Import List ZArith NArith Bool Lia Arith String Znumtheory.
From Verif Require Import Chars Syntax First Utf8 View Eval EvalMono Api Actions Parser Spec CharProofs Views Match Term Mode ModeCalls ModeTop Compiles Total Numbering
  EvalTop Committed CommittedTop Primes UnicodeProps RepoTests RepoData Properties2 Properties10 Properties34.
Import ListNotations.
Local Open Scope string_scope.
Local Open Scope list_scope.
Local Open Scope nat_scope.

(** * C65 *)
(** No assertion fails. *)
Definition tables : list (list test) :=
  [t_matching; t_z_matching; t_bad_cycle; t_matching2; t_case_insensitive; t_generating; t_parsing; t_mode; t_fixed_string; t_string_literals;
   t_is_prime; t_msvc; t_utf8; t_many_of_same_proto].
Theorem C65_tests : forall l, In l tables -> failing no_props true false l = [].
Proof.
  intros l H. assert (E : forallb (fun l => match failing no_props true false l with [] => true | _ => false end) tables = true) by (vm_compute; reflexivity).
  rewrite forallb_forall in E. specialize (E l H). destruct (failing no_props true false l); [reflexivity|discriminate].
Qed.
Print Assumptions C65_tests.
(** Those with Unicode properties ... *)
Theorem C65_tests_unicode : failing (props_at (all_points t_matching3)) true false t_matching3 = [] /\
  failing (props_at (all_points t_unicode)) true false t_unicode = [].
Proof. vm_compute. auto. Qed.
Print Assumptions C65_tests_unicode.
(** ... where the tables used agree with the properties on the characters of the subjects ... *)
Theorem C65_points : forall pts name value f u tbl, Unicode.property name value = Some f -> props_at pts name value = Some tbl ->
  In u pts -> Forall (fun u => (0 <= u < 2 ^ 32)%Z) pts -> match_prop tbl u = match f u with Ok b => b | _ => false end.
Proof.
  intros pts name value f u tbl Hf H Hu Hp. unfold props_at in H. rewrite Hf in H. cbn in H. injection H as <-.
  assert (B : (0 <= u < 2 ^ 32)%Z) by (rewrite Forall_forall in Hp; apply Hp, Hu).
  unfold match_prop, u32. rewrite Z.mod_small by exact B. apply eq_true_iff_eq. rewrite existsb_exists. split.
  - intros ([a b] & H1 & H2). apply in_map_iff in H1 as (x & E & H1). injection E as <- <-. apply filter_In in H1 as [_ H1].
    apply andb_true_iff in H2 as [L1 L2]. apply Z.leb_le in L1, L2. cbn [fst snd] in L1, L2. rewrite (Z.le_antisymm _ _ L1 L2) in H1. exact H1.
  - intros H. exists (u, u). split; [apply in_map_iff; exists u; split; [reflexivity|]; apply filter_In; auto|]. cbn [fst snd]. rewrite Z.leb_refl. reflexivity.
Qed.
Print Assumptions C65_points.
(** ... and those of the workaround for MSVC. *)
Theorem C65_tests_msvc : failing no_props true true t_matching2_msvc = [].
Proof. vm_compute. reflexivity. Qed.
Print Assumptions C65_tests_msvc.

(** tests/is_prime.cpp: [match<".?|(..+?)\g{1}+">] always answers, and it says whether the text is shorter than two characters or a
    repetition of some text of at least two. *)
Definition prime_text : list Z := codes ".?|(..+?)\g{1}+".
Theorem C65_powers : forall opt s, forallb val_ok s = true -> exists r c, compile no_props prime_text = CRegex r /\
  answers (fun n => on_array MMatch opt n s plain_mode r) c /\
  (matched c = true <-> List.length s <= 1 \/ exists w j, 2 <= List.length w /\ 2 <= j /\ s = List.concat (repeat w j)).
Proof.
  intros opt s V. set (r := prime_pattern Greedy Greedy).
  assert (Hr : compile no_props prime_text = CRegex r) by (vm_compute; reflexivity).
  assert (K : meant_check plain_mode r = true) by (vm_compute; reflexivity).
  assert (T : terminating r = true) by (vm_compute; reflexivity).
  assert (C : compiles opt true r (tail_of MMatch) = true) by (destruct opt; vm_compute; reflexivity).
  destruct (C64_exact _ _ r MMatch opt s plain_mode Hr V K T C) as (c & A & _). exists r, c. split; [exact Hr|]. split; [exact A|].
  rewrite (C64_succeeds _ _ r MMatch opt s plain_mode c Hr V K T C A).
  assert (P : exists kd kd', (kd = Greedy \/ kd = Possessive) /\ (kd' = Greedy \/ kd' = Possessive) /\
    Possess.possessify opt r tail_match = prime_pattern kd kd').
  { destruct opt; [exists Possessive, Possessive|exists Greedy, Greedy]; (split; [auto|]; split; [auto|]; vm_compute; reflexivity). }
  destruct P as (kd & kd' & K1 & K2 & P).
  change (exists w j, 2 <= List.length w /\ 2 <= j /\ s = List.concat (repeat w j)) with (exists w j, 2 <= List.length w /\ 2 <= j /\ s = power w j).
  rewrite <- (prime_pattern_ends s (names_of r) false kd kd' false K1 K2). unfold means, committed. rewrite P.
  change (mode_of plain_mode) with (false, false). change (f_block plain_mode) with false. split.
  - intros H. destruct (filter _ _) as [|st l] eqn:E; [contradiction H; reflexivity|].
    assert (I : In st (st :: l)) by (left; reflexivity). rewrite <- E in I. apply filter_In in I as [I1 I2].
    apply in_map_iff in I1 as (y & <- & I1). exists y. split; [exact I1|]. apply Nat.eqb_eq. exact I2.
  - intros (y & Y1 & Y2) H. apply map_eq_nil in H.
    match type of H with ?F = _ => assert (I : In (snd (snd y)) F) end; [|rewrite H in I; exact I].
    apply filter_In. split; [apply in_map_iff; exists y; auto|]. apply Nat.eqb_eq. exact Y2.
Qed.
Print Assumptions C65_powers.
(** So it tells the primes, written in unary with any character. *)
Theorem C65_primes : forall opt x n, val_ok x = true -> exists r c, compile no_props prime_text = CRegex r /\
  answers (fun k => on_array MMatch opt k (repeat x n) plain_mode r) c /\ (matched c = false <-> prime (Z.of_nat n)).
Proof.
  intros opt x n V. assert (Vs : forallb val_ok (repeat x n) = true).
  { apply forallb_forall. intros y H. apply repeat_spec in H. subst. exact V. }
  destruct (C65_powers opt _ Vs) as (r & c & H1 & H2 & H3). exists r, c. split; [exact H1|]. split; [exact H2|].
  rewrite repeat_length in H3. pose proof (unary_primes x n) as U. unfold power in U. rewrite U in H3.
  destruct (prime_dec (Z.of_nat n)) as [P|P].
  - split; [auto|]. intros _. destruct (matched c); [exfalso; apply (proj1 H3); auto|reflexivity].
  - split; [|contradiction]. intros E. rewrite (proj2 H3 P) in E. discriminate.
Qed.
Print Assumptions C65_primes.

(** Without the optimisation of greedy repetitions (CTRE_DISABLE_GREEDY_OPT) tests/matching.cpp line 133 never ends: [(x* )+] on "x". *)
Definition star_plus : re := RRep Greedy 1 0 [RRep Greedy 0 0 [RCls (CChar 120)]].
Lemma star_plus_stuck : forall tl c n i, s_m (c0 c) = false -> cl c = [] ->
  let v := arr_view [120%Z] in rec_loop false n v v 1 plain_mode c 0 i [RRep Greedy 0 0 [RCls (CChar 120)]] tl = Fuel.
Proof.
  intros tl c n i Hm Hc v. set (cs := fun c : caps => s_m (c0 c) = false /\ cl c = []).
  assert (L : forall c j, cs c -> j < 3 -> eval false j v v 1 (not_empty_match plain_mode) c (cycle [RRep Greedy 0 0 [RCls (CChar 120)]]) = Fuel).
  { intros [[a b mm] ll] j [Hm' Hl] Hj. cbn in Hm', Hl. subst. do 3 (destruct j as [|j]; [reflexivity|]). lia. }
  assert (T : forall c, cs c -> exists c1, eval false 3 v v 1 (not_empty_match plain_mode) c (cycle [RRep Greedy 0 0 [RCls (CChar 120)]]) = Ok c1 /\
    s_end (c0 c1) = Some 1 /\ cs (unmatch c1)).
  { intros [[a b mm] ll] [Hm' Hl]. cbn in Hm', Hl. subst. exists (mkCaps (mkSlot a (Some 1) true) []).
    split; [reflexivity|]. split; [reflexivity|]. split; reflexivity. }
  apply (rec_stuck false v v 1 plain_mode cs _ tl 3 L T). split; assumption.
Qed.
Theorem C65_unoptimised_refuted : exists r s, In (Run 133 MMatch false (Tree r) (View s) (Matches true)) t_matching /\
  forall n, on_array MMatch false n s plain_mode r = Fuel.
Proof.
  exists star_plus, [120%Z]. split; [vm_compute; tauto|]. intros n. unfold on_array, exec, exec_match.
  destruct (Nat.lt_ge_cases n 8) as [H|H]; [do 8 (destruct n as [|n]; [reflexivity|]); lia|].
  do 3 (destruct n as [|n]; [lia|]).
  cbn [eval vconv arr_view star_plus N.eqb negb andb becomes_possessive req_loop less_than N.ltb N.compare N.pred].
  set (body := [RRep Greedy 0 0 [RCls (CChar 120)]]).
  assert (E : exists c1, eval false 5 (arr_view [120%Z]) (arr_view [120%Z]) 0 (not_empty_match plain_mode) (set_start_mark 0 (fresh star_plus)) (cycle body) = Ok c1 /\
    s_end (c0 c1) = Some 1 /\ cl c1 = []) by (eexists; split; [vm_compute; reflexivity|split; reflexivity]).
  destruct E as (c1 & E1 & E2 & E3).
  rewrite (eval_mono 5 n false _ _ _ _ _ _ (Ok c1) ltac:(lia) E1 ltac:(discriminate)). rewrite E2. cbn [or_ub].
  destruct n as [|n]; [lia|]. cbn [req_loop]. change (less_than 1 (N.succ 0)) with false. cbn iota.
  unfold body. rewrite star_plus_stuck; [reflexivity|reflexivity|exact E3].
Qed.
Print Assumptions C65_unoptimised_refuted.

(** ** Examples *)
(** The rows are many, and a wrong expectation is noticed. *)
Example C65_ex_size : fold_right (fun l k => List.length l + k) 0 (t_matching3 :: t_unicode :: t_matching2_msvc :: tables) = 1123.
Proof. vm_compute. reflexivity. Qed.
Example C65_ex_wrong : failing no_props true false
  [Run 1 MMatch false (Text (Bytes (codes "a+"))) (View (codes "aab")) (Matches true);
   Run 2 MSearch false (Text (Bytes (codes "a+"))) (View (codes "aab")) (GroupIs 0 (codes "a"));
   Run 3 MSearch false (Text (Bytes (codes "a+"))) (View (codes "aab")) (GroupIs 0 (codes "aa"));
   Syntax 4 (Bytes (codes "a++b)")) true] = [1; 2; 4].
Proof. vm_compute. reflexivity. Qed.
(** "abcabc" is a square, "abcab" is not a power; 13 is prime, 15 is not. *)
Definition tells_prime (s : string) : option bool :=
  match compile no_props prime_text with
  | CRegex r => match on_array MMatch true 2000 (codes s) plain_mode r with Ok c => Some (negb (matched c)) | _ => None end
  | _ => None
  end.
Example C65_ex_powers : map tells_prime ["abcabc"; "abcab"; "aaaaaaaaaaaaa"; "aaaaaaaaaaaaaaa"; ""; "a"] =
  [Some false; Some true; Some true; Some false; Some false; Some false].
Proof. vm_compute. reflexivity. Qed.
(** With the optimisation the inner repetition is possessive and the same assertion holds. *)
Example C65_ex_optimised : match on_array MMatch true 20 [120%Z] plain_mode star_plus with Ok c => matched c | _ => false end = true.
Proof. vm_compute. reflexivity. Qed.
