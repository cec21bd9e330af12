(** Comparison of iterators (C41), derived properties of characters (C45).

    [ri_nth], [si_nth]: the iterator after so many increments, of search_all and tokenize, and of split. *)
From Coq Require Import List ZArith NArith Bool Lia String.
From Verif Require Import Chars Syntax View Eval Api Spec EvalInv ApiProofs Anchor Iter IterProofs IterSplit Unicode UnicodeTables UnicodeSearch UnicodeProps UnicodeRef UnicodeFacts Parser Literals Properties2.
Import ListNotations.
Local Open Scope string_scope.
Local Open Scope nat_scope.

(** * C41 *)
(** The comparisons with the sentinel agree, in both orders; the other orders follow from [<] and [==]. *)
Theorem C41_sentinel : forall it it', ri_ne_end it = negb (ri_eq_end it) /\ end_eq_ri it = ri_eq_end it /\ end_ne_ri it = ri_ne_end it /\
  si_ne_end it' = negb (si_eq_end it') /\ end_eq_si it' = si_eq_end it' /\ end_ne_si it' = si_ne_end it'.
Proof.
  intros [p c] [p' c' l]. unfold ri_ne_end, ri_eq_end, end_eq_ri, end_ne_ri, si_ne_end, si_eq_end, end_eq_si, end_ne_si. cbn [ri_match si_match].
  rewrite !negb_involutive. repeat split.
Qed.
Print Assumptions C41_sentinel.
Theorem C41_orders : forall a b c d, ri_gt a b = ri_lt b a /\ ri_le a b = negb (ri_gt a b) /\ ri_ge a b = negb (ri_lt a b) /\
  ri_le a b = (ri_lt a b || ri_eq a b)%bool /\
  si_ne c d = negb (si_eq c d) /\ si_gt c d = si_lt d c /\ si_le c d = negb (si_gt c d) /\ si_ge c d = negb (si_lt c d) /\
  si_le c d = (si_lt c d || si_eq c d)%bool.
Proof.
  intros a b c d. unfold ri_gt, ri_lt, ri_le, ri_ge, ri_eq, si_gt, si_lt, si_le, si_ge, si_eq, si_ne.
  assert (X : forall i j, Nat.leb i j = negb (Nat.ltb j i)) by (intros i j; destruct (Nat.leb_spec i j), (Nat.ltb_spec j i); try reflexivity; lia).
  assert (Y : forall i j, Nat.leb i j = (Nat.ltb i j || Nat.eqb i j)%bool)
    by (intros i j; destruct (Nat.leb_spec i j), (Nat.ltb_spec i j), (Nat.eqb_spec i j); try reflexivity; lia).
  repeat split; auto.
Qed.
Print Assumptions C41_orders.
(** The [i]-th listed result is the one of the iterator after [i] increments, which is not equal to the
    sentinel; the iterator after all of them is. *)
Theorem C41_listed : forall exec v r m l, ri_all exec v r m = Ok l -> forall i,
  (forall c, nth_error l i = Some c -> exists a, ri_nth exec v r i = Ok a /\ ri_match a = c /\ ri_eq_end a = false) /\
  (i = List.length l -> exists a, ri_nth exec v r i = Ok a /\ ri_eq_end a = true).
Proof.
  intros exec v r m l H i. unfold ri_all in H. apply bind_ok in H as (it & H1 & H2).
  destruct (ri_listed exec v r m 0 it l H1 H2 i) as [A B]. split; [exact A|]. intros E. apply B; [|exact E]. apply nth_error_None. lia.
Qed.
Print Assumptions C41_listed.
Theorem C41_split_listed : forall exec v r m l, si_all exec v r m = Ok l -> forall i,
  (forall c, nth_error l i = Some c -> exists a, si_nth exec v r i = Ok a /\ si_match a = c /\ si_eq_end a = false) /\
  (i = List.length l -> exists a, si_nth exec v r i = Ok a /\ si_eq_end a = true).
Proof.
  intros exec v r m l H i. unfold si_all in H. apply bind_ok in H as (it & H1 & H2).
  destruct (si_listed exec v r m 0 it l H1 H2 i) as [A B]. split; [exact A|]. intros E. apply B; [|exact E]. apply nth_error_None. lia.
Qed.
Print Assumptions C41_split_listed.
(** Iterators at pieces of split: as for search_all, up to the last piece. *)
Theorem C41_split : forall opt n s f r, well_numbered r -> zero_safe r = true -> starts_with_anchor f r = false -> no_empty opt s f r ->
  forall j k a b, si_nth (exec_search opt n (arr_view s) (arr_view s) f r) (arr_view s) r j = Ok a ->
  si_nth (exec_search opt n (arr_view s) (arr_view s) f r) (arr_view s) r k = Ok b ->
  matched (si_match a) = true -> matched (si_match b) = true ->
  (si_last a = false -> si_last b = false -> (si_eq a b = true <-> j = k) /\ (si_lt a b = true <-> j < k)) /\
  (j < k -> si_le a b = true) /\ (S j < k -> si_lt a b = true).
Proof. exact split_iterators_equal. Qed.
Print Assumptions C41_split.
Definition split_at (t p : string) (k : nat) := si_nth (exec_search true 60 (arr_view (codes t)) (arr_view (codes t)) plain_mode (rx p)) (arr_view (codes t)) (rx p) k.
Example C41_split_ex :
  map (fun k => match split_at "a,bc,d" "," k with Ok it => Some (group (si_match it) 0, si_cur it, si_eq_end it) | _ => None end) [0; 1; 2; 3] =
  [Some (Some (0, 1), 2, false); Some (Some (2, 4), 5, false); Some (Some (5, 6), 6, false); Some (None, 6, true)].
Proof. vm_compute. reflexivity. Qed.
(** The last two pieces of a subject that ends with a separator compare equal. *)
Theorem C41_split_refuted : exists t p a b, split_at t p 0 = Ok a /\ split_at t p 1 = Ok b /\
  group (si_match a) 0 = Some (0, 1) /\ group (si_match b) 0 = Some (2, 2) /\ si_eq_end b = false /\ si_eq a b = true.
Proof. exists "a,", ",". do 2 eexists. split; [vm_compute; reflexivity|]. split; [vm_compute; reflexivity|]. vm_compute. repeat split. Qed.
Print Assumptions C41_split_refuted.

(** * C45 *)
(** Cased: lower case, upper case, title case. *)
Theorem C45_cased : forall u, (0 <= u <= top)%Z ->
  prop_cased u = Ok (in_ranges ref_lowercase u || in_ranges ref_uppercase u || Z.eqb (ref_category u) gc_lt)%bool.
Proof.
  intros u Hu. unfold prop_cased. rewrite (lower_ref u Hu), (upper_ref u Hu).
  assert (E : cat_is_lt u = Ok (Z.eqb (ref_category u) gc_lt)).
  { assert (X : cat_is_lt u = Ok (is_one [gc_lt] u)) by grouped. rewrite X. unfold is_one. cbn [existsb]. rewrite orb_false_r. reflexivity. }
  rewrite E. destruct (in_ranges ref_lowercase u), (in_ranges ref_uppercase u), (Z.eqb (ref_category u) gc_lt); reflexivity.
Qed.
Print Assumptions C45_cased.
Example C45_cased_ex : map prop_cased [97; 65; 0x1c5; 49]%Z = [Ok true; Ok true; Ok true; Ok false] /\ ref_category 0x1c5 = gc_lt.
Proof. vm_compute. repeat split. Qed.
