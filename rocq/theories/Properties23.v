(** The number of steps (C54). *)
From Coq Require Import List ZArith NArith Bool Lia String.
From Verif Require Import Chars Syntax Utf8 View Eval Api ApiProofs Numbering RangeSim Parser Properties2 Properties3 Term Cost CostRank CostRun CostRange.
Import ListNotations.
Local Open Scope string_scope.
Local Open Scope N_scope.

(** * C54 *)
(** [match_cost opt n v w f r p] (Cost.v) counts the calls of [evaluate] and [evaluate_recursive], the turns of their
    loops and the compared characters of [match] with fuel [n]; [starts_cost] and [search_cost] those of [starts_with] and
    [search]. [degree opt r tl] (CostRank.v) is computed from the pattern. [fwd len v]: the iterator moves forward inside
    [len] units, as those of arrays, NUL terminated arrays and UTF-8 arrays do ([fwd_arr], [fwd_zt], [fwd_utf8]). *)
(** One [match], one [starts_with] and one [search] take a number of steps polynomial in the length of the subject. *)
Theorem C54_match : forall opt r, terminating r = true -> exists A, forall len n v w f p, fwd len v -> fwd len w ->
  match_cost opt n v w f r p <= A * (N.of_nat len + 2) ^ N.of_nat (degree opt r match_tail).
Proof. exact match_steps. Qed.
Print Assumptions C54_match.
Theorem C54_starts_with : forall opt r, terminating r = true -> exists A, forall len n v w f p, fwd len v -> fwd len w ->
  starts_cost opt n v w f r p <= A * (N.of_nat len + 2) ^ N.of_nat (degree opt r open_tail).
Proof. exact starts_steps. Qed.
Print Assumptions C54_starts_with.
Theorem C54_search : forall opt r, terminating r = true -> exists A, forall len n v w f m p, fwd len v -> fwd len w ->
  search_cost opt n v w f r m p <= A * (N.of_nat len + 2) ^ N.of_nat (S (degree opt r open_tail)).
Proof. exact search_steps. Qed.
Print Assumptions C54_search.
(** Fuel beyond the bound always gives an answer, so the recursion is no deeper than that. *)
Theorem C54_depth : forall opt r, terminating r = true -> exists A, forall len n v w f p, fwd len v -> fwd len w ->
  A * (N.of_nat len + 2) ^ N.of_nat (S (max (degree opt r match_tail) (degree opt r open_tail))) <= N.of_nat n ->
  exec_match opt n v w f r p <> Fuel /\ exec_starts_with opt n v w f r p <> Fuel /\ exec_search opt n v w f r p <> Fuel.
Proof.
  intros opt r Hr. destruct (match_fuel opt r Hr) as [A1 H1], (starts_fuel opt r Hr) as [A2 H2], (search_fuel opt r Hr) as [A3 H3].
  exists (A1 + A2 + A3). intros len n v w f p Hv Hw L. change (_ ^ _) with (pw (N.of_nat len) (S (Nat.max (degree opt r match_tail) (degree opt r open_tail)))) in L.
  pose proof (pw_mono (N.of_nat len) (degree opt r match_tail) (S (Nat.max (degree opt r match_tail) (degree opt r open_tail))) ltac:(lia)).
  pose proof (pw_mono (N.of_nat len) (degree opt r open_tail) (S (Nat.max (degree opt r match_tail) (degree opt r open_tail))) ltac:(lia)).
  pose proof (pw_mono (N.of_nat len) (S (degree opt r open_tail)) (S (Nat.max (degree opt r match_tail) (degree opt r open_tail))) ltac:(lia)).
  split; [apply (H1 len); auto; nia|split; [apply (H2 len); auto; nia|apply (H3 len); auto; nia]].
Qed.
Print Assumptions C54_depth.
(** The count belongs to the call: with more fuel than the answer needs, it stays the same. *)
Theorem C54_count : forall opt n m v w f r p, (n <= m)%nat -> exec_match opt n v w f r p <> Fuel ->
  match_cost opt m v w f r p = match_cost opt n v w f r p.
Proof. exact match_count. Qed.
Print Assumptions C54_count.
(** [k_match], [k_starts_with] and [k_search] (CostRun.v) are the calls once more, each function returning its outcome
    together with the number of steps it made: the outcomes are those of the calls, and no step goes uncounted. *)
Theorem C54_counted : forall opt n v w f r p,
  (fst (k_match opt n v w f r p) = exec_match opt n v w f r p /\
   snd (k_match opt n v w f r p) <= match_cost opt n v w f r p) /\
  (fst (k_starts_with opt n v w f r p) = exec_starts_with opt n v w f r p /\
   snd (k_starts_with opt n v w f r p) <= starts_cost opt n v w f r p) /\
  (fst (k_search opt n v w f r p) = exec_search opt n v w f r p /\
   snd (k_search opt n v w f r p) <= search_cost opt n v w f r n p).
Proof.
  intros. split; [|split]; split.
  - apply k_match_fst.
  - apply k_match_cost.
  - apply k_starts_with_fst.
  - apply k_starts_with_cost.
  - apply k_search_fst.
  - apply k_search_cost.
Qed.
Print Assumptions C54_counted.
(** A call that does not answer takes more steps than it is given. *)
Theorem C54_endless : exists s r, forall opt n m, N.of_nat n < match_cost opt n (arr_view s) (arr_view s) (mkFlags false m false) r 0.
Proof.
  destruct C31_empty_iteration_refuted as (s & r & H). exists s, r. intros opt n m. destruct (H opt n m) as [H1 _].
  unfold ctre_match, exec_match, returned in H1. apply (proj1 (depth_all opt n)).
  destruct (eval opt n (arr_view s) (arr_view s) 0 (mkFlags false m false) (fresh r) _); congruence.
Qed.
Print Assumptions C54_endless.
(** [whole_cost] (CostRange.v) counts the steps of all the calls a loop over [search_all], [tokenize] or [split] makes, and
    its rounds. A range that ends lists at most as many matches as the subject has characters (one if there is none),
    [split] one piece more; it takes a number of steps polynomial in the length, one degree above that of one call. *)
Theorem C54_range_length : forall a props u r opt n s f l, compile props u = CRegex r -> range_array a opt n s f r = Ok l ->
  (List.length l <= match a with GSplit => List.length s + 1 | _ => Nat.max 1 (List.length s) end)%nat.
Proof. intros a props u r opt n s f l H. exact (range_len a opt n s f r l (compiled_well_numbered props u r H)). Qed.
Print Assumptions C54_range_length.
Theorem C54_ranges : forall a opt r, well_numbered r -> terminating r = true -> exists A, forall n s f l,
  range_array a opt n s f r = Ok l ->
  whole_cost a opt n (arr_view s) (arr_view s) f r <= A * (N.of_nat (List.length s) + 2) ^ N.of_nat (range_degree a opt r).
Proof. exact range_steps. Qed.
Print Assumptions C54_ranges.
(** A range that has not ended with that much fuel never ends. *)
Theorem C54_range_decided : forall a opt r, well_numbered r -> terminating r = true -> exists A, forall n s f,
  A * (N.of_nat (List.length s) + 2) ^ N.of_nat (S (degree opt r open_tail)) <= N.of_nat n ->
  range_array a opt n s f r = Fuel -> forall m, range_array a opt m s f r = Fuel.
Proof. exact range_fuel. Qed.
Print Assumptions C54_range_decided.
(** The greedy optimisation never raises the degree. *)
Theorem C54_optimisation : forall r tl, (degree true r tl <= degree false r tl)%nat.
Proof. exact degree_lower. Qed.
Print Assumptions C54_optimisation.
(** The factor depends on the pattern, and no polynomial in its size bounds it: [(?:a|a)] [k] times and then [b] takes
    [2 ^ k] steps on [k] characters. *)
Theorem C54_pattern_size_refuted : forall opt k n f, (4 * k + 3 <= n)%nat ->
  2 ^ N.of_nat k <= match_cost opt n (arr_view (repeat 97%Z k)) (arr_view (repeat 97%Z k)) f (twins k) 0 /\
  degree opt (twins k) match_tail = 0%nat.
Proof. exact twins_match. Qed.
Print Assumptions C54_pattern_size_refuted.

(** * Examples *)
Definition degrees (t : string) := (degree true (rx t) match_tail, degree false (rx t) match_tail).
Example C54_ex_degree : map degrees
  ["abc"; "(?:a|b)(?:a|b)c"; "x*+y*+z*+"; "[a-z]+@[a-z]+\.com"; "([a-z]+)=([0-9]+);"; "(a|b)*c"; "(?=.*x)(?=.*y)[a-z]*"; "(a*)\1"; ".*a.*b.*c"] =
  [(0, 0); (0, 0); (1, 1); (1, 2); (1, 2); (1, 1); (1, 1); (2, 2); (3, 3)]%nat.
Proof. vm_compute. reflexivity. Qed.
Definition steps (t : string) (k : nat) : N :=
  match_cost true 200 (arr_view (repeat 97%Z k)) (arr_view (repeat 97%Z k)) plain_mode (rx t) 0.
(** Degree 1, and degree 2 reached. *)
Example C54_ex_linear : map (steps "[a-z]+@[a-z]+\.com") [5; 10; 20]%nat = [23; 38; 68].
Proof. vm_compute. reflexivity. Qed.
Example C54_ex_quadratic : degrees "[ab]*a*c" = (2, 2)%nat /\ map (steps "[ab]*a*c") [5; 10; 20]%nat = [108; 278; 843].
Proof. vm_compute. split; reflexivity. Qed.
Example C54_ex_twins : rx "(?:a|a)(?:a|a)(?:a|a)b" = twins 3 /\ map (fun k => match_cost true 100 (arr_view (repeat 97%Z k)) (arr_view (repeat 97%Z k)) plain_mode (twins k) 0) [1; 2; 3; 4; 5]%nat = [11; 27; 59; 123; 251].
Proof. vm_compute. split; reflexivity. Qed.
(** The count made while running; the string [abc] is given up at its first character. *)
Definition ran (t : string) (k : nat) : N :=
  snd (k_match true 200 (arr_view (repeat 97%Z k)) (arr_view (repeat 97%Z k)) plain_mode (rx t) 0).
Example C54_ex_counted : map (ran "[ab]*a*c") [5; 10; 20]%nat = [108; 278; 843] /\ map (ran "(a+)+b") [5; 10; 20]%nat = [37; 52; 82] /\
  map (ran "(a|aa)+b") [5; 10; 20]%nat = [50; 85; 155] /\ ran "bcd" 3 = 3 /\ steps "bcd" 3 = 5.
Proof. vm_compute. repeat split; reflexivity. Qed.
(** Steps of whole ranges, linear and quadratic; the lengths reach the bounds. *)
Definition walked (a : range_method) (t : string) (k : nat) : N :=
  whole_cost a true 400 (arr_view (repeat 97%Z k)) (arr_view (repeat 97%Z k)) plain_mode (rx t).
Example C54_ex_ranges :
  map (walked GSearchAll "a") [5; 10; 20]%nat = [31; 61; 121] /\ map (walked GSplit "b") [5; 10; 20]%nat = [20; 35; 65] /\
  map (walked GSearchAll "a[ab]*b|a") [5; 10; 20]%nat = [136; 396; 1291] /\
  map (walked GTokenize "a(?=a*b)|a") [5; 10; 20]%nat = [121; 316; 931] /\
  map (fun t => (range_degree GSearchAll true (rx t), range_degree GTokenize true (rx t))) ["a"; "a[ab]*b|a"] = [(2, 1); (3, 2)]%nat.
Proof. vm_compute. repeat split; reflexivity. Qed.
Definition how_many (a : range_method) (t : string) (s : list Z) : option nat :=
  match range_array a true 200 s plain_mode (rx t) with Ok l => Some (List.length l) | _ => None end.
Example C54_ex_range_length :
  map (fun a => how_many a "a" (repeat 97%Z 4)) [GSearchAll; GTokenize; GSplit] = [Some 4; Some 4; Some 5]%nat /\
  map (fun a => how_many a "$" []) [GSearchAll; GTokenize; GSplit] = [Some 1; Some 1; None]%nat /\ how_many GSplit "a" [] = Some 1%nat.
Proof. vm_compute. repeat split; reflexivity. Qed.
