(** How many steps a whole range takes. Source: /repo/include/ctre/iterators.hpp lines 18-192, wrapper.hpp lines 120-157. *)
From Coq Require Import List ZArith NArith Bool Lia Arith ZifyBool ZifyN ZifyNat.
From Verif Require Import Chars Syntax First Utf8 View Eval Api EvalMono ApiProofs Term Iter IterProofs RangeSim Cost CostRank.
Import ListNotations.

(** * The number of steps *)
(** The loops over the two iterators once more ([ri_loop], [si_loop] in Iter.v), counting instead of listing: [call p] is
    the number of steps of the call that starts at [p]. A round of the loop is a step of its own. *)
Section Count.
  Variables (exec : nat -> res caps) (v : view) (r : re) (call : nat -> N).
  (** iterators.hpp lines 46-58. *)
  Fixpoint ri_steps (m : nat) (it : riter) : N :=
    match m with
    | O => 1
    | S m' =>
        1 + (if ri_ne_end it then
          when (vend v (ri_cur it)) (fun e => if e then 0 else call (ri_cur it)) +
          match ri_next exec v r it with Ok it' => ri_steps m' it' | _ => 0 end
        else 0)
    end%N.
  (** Lines 34-38. *)
  Definition ri_total (m : nat) : N :=
    (call 0%nat + match ri_begin exec with Ok it => ri_steps m it | _ => 0 end)%N.
  (** Lines 142-156. *)
  Fixpoint si_steps (m : nat) (it : siter) : N :=
    match m with
    | O => 1
    | S m' =>
        1 + (if si_ne_end it then
          when (vend v (si_cur it)) (fun e => if e && si_last it then 0 else call (si_cur it)) +
          match si_next exec v r it with Ok it' => si_steps m' it' | _ => 0 end
        else 0)
    end%N.
  (** Lines 128-134. *)
  Definition si_total (m : nat) : N :=
    (call 0%nat + match si_begin exec with Ok it => si_steps m it | _ => 0 end)%N.

  Variable K : N.
  Hypothesis HK : forall p, (call p <= K)%N.
  Lemma ri_steps_le : forall m it l, ri_loop exec v r m it = Ok l -> (ri_steps m it <= 1 + N.of_nat (length l) * (2 + K))%N.
  Proof.
    induction m as [|m IH]; intros it l H; [discriminate|]. cbn [ri_loop] in H. cbn [ri_steps]. destruct (ri_ne_end it); [|lia].
    apply bind_ok in H as (it' & H1 & H). apply bind_ok in H as (l' & H2 & H). injection H as <-. rewrite H1. apply IH in H2.
    assert (when (vend v (ri_cur it)) (fun e => if e then 0 else call (ri_cur it)) <= K)%N as W
      by (destruct (vend v (ri_cur it)) as [[|]|]; cbn [when]; [lia|apply HK|lia]).
    cbn [length]. lia.
  Qed.
  Lemma si_steps_le : forall m it l, si_loop exec v r m it = Ok l -> (si_steps m it <= 1 + N.of_nat (length l) * (2 + K))%N.
  Proof.
    induction m as [|m IH]; intros it l H; [discriminate|]. cbn [si_loop] in H. cbn [si_steps]. destruct (si_ne_end it); [|lia].
    apply bind_ok in H as (it' & H1 & H). apply bind_ok in H as (l' & H2 & H). injection H as <-. rewrite H1. apply IH in H2.
    assert (when (vend v (si_cur it)) (fun e => if e && si_last it then 0 else call (si_cur it)) <= K)%N as W
      by (destruct (vend v (si_cur it)) as [e|]; cbn [when]; [destruct (e && si_last it); [lia|apply HK]|lia]).
    cbn [length]. lia.
  Qed.
End Count.

(** wrapper.hpp lines 120-157. *)
Definition whole_cost (a : range_method) (opt : bool) (n : nat) (v w : view) (f : flags) (r : re) : N :=
  match a with
  | GSearchAll => ri_total (exec_search opt n v w f r) v r (search_cost opt n v w f r n) n
  | GTokenize => ri_total (exec_starts_with opt n v w f r) v r (starts_cost opt n v w f r) n
  | GSplit => si_total (exec_search opt n v w f r) v r (search_cost opt n v w f r n) n
  end.

(** * The number of rounds *)
(** The loop has no other state than the position (and the flag of split), so that a loop that ends never comes back to
    where it was. *)
Section Rounds.
Variables (s : list Z) (r : re) (exec : nat -> res caps).
Let len := length s.
Let v := arr_view s.
Hypothesis ahead : forall p c, p <= len -> exec p = Ok c -> matched c = true ->
  exists e, s_end (c0 c) = Some e /\ p <= e <= len.
Lemma ri_stays : forall p c, p < len -> exec p = Ok c -> matched c = true -> s_end (c0 c) = Some p ->
  forall m d, matched d = true -> ri_loop exec v r m (mkRiter p d) = Fuel.
Proof.
  intros p c Hp E Hm He. induction m as [|m IH]; intros d Hd; [reflexivity|].
  cbn [ri_loop]. unfold ri_ne_end. cbn [ri_match]. rewrite Hd. unfold ri_next. cbn [ri_cur v arr_view vend or_ub].
  destruct (Nat.eqb_spec p (length s)); [unfold len in *; lia|]. rewrite E. cbn [bind]. unfold ri_advance. rewrite Hm, He. cbn [or_ub bind].
  rewrite IH by exact Hm. reflexivity.
Qed.
Lemma ri_rounds : forall m p d, p <= len -> ri_loop exec v r m (mkRiter p d) <> Fuel ->
  forall k, len - p + 2 <= k -> ri_loop exec v r k (mkRiter p d) = ri_loop exec v r m (mkRiter p d).
Proof.
  induction m as [|m IH]; intros p d Hp H k Hk; [exfalso; apply H; reflexivity|]. destruct k as [|k]; [lia|].
  pose proof (fun c Hp E Hm He => ri_stays p c Hp E Hm He (S m) d) as St.
  cbn [ri_loop] in H |- *. unfold ri_ne_end in *. cbn [ri_match] in *. destruct (matched d) eqn:Hd; [|reflexivity].
  unfold ri_next in H |- *. cbn [ri_cur v arr_view vend or_ub] in H |- *. fold (arr_view s) in H |- *. fold v in H |- *.
  destruct (Nat.eqb_spec p (length s)) as [E|E].
  - cbn [bind] in *. destruct m; [exfalso; apply H; reflexivity|]. destruct k; [lia|]. reflexivity.
  - destruct (exec p) as [c| | | |] eqn:Ex; cbn [bind] in *; try reflexivity. unfold ri_advance in *.
    destruct (matched c) eqn:Hc.
    + destruct (ahead p c Hp Ex Hc) as (e & E1 & E2). rewrite E1 in *. cbn [or_ub bind] in *.
      destruct (Nat.eq_dec e p) as [->|Ne].
      * exfalso. apply H. rewrite (ri_stays p c ltac:(unfold len in *; lia) Ex Hc E1) by exact Hc. reflexivity.
      * rewrite (IH e c ltac:(lia)) ; [reflexivity| |lia]. intros F. apply H. rewrite F. reflexivity.
    + cbn [bind] in *. destruct m; [exfalso; apply H; reflexivity|]. destruct k; [lia|]. cbn [ri_loop]. unfold ri_ne_end. cbn [ri_match]. rewrite Hc.
      reflexivity.
Qed.
Lemma ri_len : forall m it l, ri_loop exec v r m it = Ok l -> length l < m.
Proof.
  induction m as [|m IH]; intros it l H; [discriminate|]. cbn [ri_loop] in H. destruct (ri_ne_end it); [|injection H as <-; cbn; lia].
  apply bind_ok in H as (it' & H1 & H). apply bind_ok in H as (l' & H2 & H). injection H as <-. apply IH in H2. cbn [length]. lia.
Qed.
Lemma ri_first : forall it, ri_begin exec = Ok it -> ri_cur it <= len.
Proof.
  intros it H. unfold ri_begin in H. apply bind_ok in H as (c & H1 & H2). unfold ri_advance in H2. destruct (matched c) eqn:Hc.
  - destruct (ahead 0 c ltac:(lia) H1 Hc) as (e & E1 & E2). rewrite E1 in H2. cbn [or_ub] in H2. injection H2 as <-. exact (proj2 E2).
  - injection H2 as <-. cbn [ri_cur]. lia.
Qed.
Lemma ri_all_rounds : forall m, ri_all exec v r m <> Fuel -> forall k, len + 2 <= k -> ri_all exec v r k = ri_all exec v r m.
Proof.
  intros m H k Hk. unfold ri_all in *. destruct (ri_begin exec) as [[p c]| | | |] eqn:B; try reflexivity. cbn [bind] in *.
  apply ri_first in B. cbn [ri_cur] in B. apply ri_rounds; [exact B|exact H|lia].
Qed.
Lemma ri_all_len : forall m l, ri_all exec v r m = Ok l -> length l <= Nat.max 1 len.
Proof.
  intros m l H. unfold ri_all, ri_begin in H. apply bind_ok in H as (it & B & H). apply bind_ok in B as (c & E & B). unfold ri_advance in B.
  destruct (matched c) eqn:Hc.
  - destruct (ahead 0 c ltac:(lia) E Hc) as (e & E1 & E2). rewrite E1 in B. cbn [or_ub] in B. injection B as <-.
    assert (e = 0 -> 0 < len -> False) by (intros -> L; rewrite (ri_stays 0 c L E Hc E1 m c Hc) in H; discriminate).
    pose proof (ri_rounds m e c ltac:(lia) ltac:(congruence) (len - e + 2) ltac:(lia)) as R. rewrite H in R. apply ri_len in R. lia.
  - injection B as <-. destruct m; [discriminate|]. cbn [ri_loop] in H. unfold ri_ne_end in H. cbn [ri_match] in H. rewrite Hc in H. injection H as <-. cbn. lia.
Qed.
Hypothesis behind : forall p c, p <= len -> exec p = Ok c -> matched c = false ->
  exists e, s_end (c0 c) = Some e /\ (e = p \/ e = len).
Hypothesis begun : forall p c, p <= len -> exec p = Ok c -> matched c = true -> exists b, s_beg (c0 c) = Some b.
Lemma split_matched : forall a b c, matched (set_start_mark a (set_end_mark b c)) = matched c.
Proof. reflexivity. Qed.
(** A round that leaves the position and the flag as they were. *)
Lemma si_stays : forall p last c x, p <= len -> ((p =? len) && last = false)%nat -> exec p = Ok c ->
  si_take p last c = Ok (mkSiter p x last) -> matched x = true ->
  forall m d, matched d = true -> si_loop exec v r m (mkSiter p d last) = Fuel.
Proof.
  intros p last c x Hp Hl E Ht Hx. induction m as [|m IH]; intros d Hd; [reflexivity|].
  cbn [si_loop]. unfold si_ne_end. cbn [si_match]. rewrite Hd. unfold si_next. cbn [si_cur si_last v arr_view vend or_ub].
  change (length s) with len. rewrite Hl, E. cbn [bind]. rewrite Ht. cbn [bind]. fold (arr_view s). fold v. rewrite IH by exact Hx. reflexivity.
Qed.
Lemma si_rounds : forall m p d last, p <= len -> si_loop exec v r m (mkSiter p d last) <> Fuel ->
  forall k, len - p + (if last then 2 else 3) <= k -> si_loop exec v r k (mkSiter p d last) = si_loop exec v r m (mkSiter p d last).
Proof.
  induction m as [|m IH]; intros p d last Hp H k Hk; [exfalso; apply H; reflexivity|]. destruct k as [|k]; [destruct last; lia|].
  cbn [si_loop] in H |- *. unfold si_ne_end in *. cbn [si_match] in *. destruct (matched d) eqn:Hd; [|reflexivity].
  unfold si_next in H |- *. cbn [si_cur si_last v arr_view vend or_ub] in H |- *. fold (arr_view s) in H |- *. fold v in H |- *. change (length s) with len in H |- *.
  destruct ((p =? len)%nat && last)%bool eqn:E.
  - cbn [bind] in *. destruct m; [exfalso; apply H; reflexivity|]. destruct k; [destruct last; lia|]. reflexivity.
  - destruct (exec p) as [c| | | |] eqn:Ex; cbn [bind] in *; try reflexivity.
    destruct (si_take p last c) as [[q x l2]| | | |] eqn:Tk; cbn [bind] in *; try reflexivity.
    assert (Mx : matched x = true /\ p <= q <= len /\ (l2 = last \/ (l2 = true /\ (q = p \/ q = len)))).
    { unfold si_take in Tk. destruct (matched c) eqn:Hc.
      - destruct (ahead p c Hp Ex Hc) as (e & E1 & E2), (begun p c Hp Ex Hc) as (b & B1). unfold modify_match in Tk. rewrite E1, B1 in Tk. cbn [or_ub] in Tk.
        injection Tk as <- <- <-. split; [exact Hc|]. split; [exact E2|]. left. reflexivity.
      - destruct (behind p c Hp Ex Hc) as (e & E1 & E2). unfold match_rest in Tk. cbn [c0 s_end set_matched set_start_mark] in Tk.
        unfold set_matched, set_start_mark in Tk. cbn in Tk. rewrite E1 in Tk. cbn [or_ub] in Tk. injection Tk as <- <- <-. split; [reflexivity|]. split; [destruct E2; lia|].
        right. split; [reflexivity|exact E2]. }
    destruct Mx as (Mx & Hq & Hl).
    assert (Stay : q = p -> l2 = last -> False).
    { intros -> ->. apply H. rewrite (si_stays p last c x Hp E Ex Tk Mx) by exact Mx. reflexivity. }
    rewrite (IH q x l2 ltac:(lia)); [reflexivity| |].
    + intros F. apply H. rewrite F. reflexivity.
    + apply andb_false_iff in E. destruct Hl as [->|[-> [->| ->]]].
      * assert (q <> p) by (intros ->; apply Stay; reflexivity). destruct last; lia.
      * destruct last; [exfalso; apply Stay; reflexivity|lia].
      * destruct last; [|lia]. assert (p <> len); [|lia]. destruct E as [E|E]; [|discriminate]. apply Nat.eqb_neq. exact E.
Qed.
Lemma si_len : forall m it l, si_loop exec v r m it = Ok l -> length l < m.
Proof.
  induction m as [|m IH]; intros it l H; [discriminate|]. cbn [si_loop] in H. destruct (si_ne_end it); [|injection H as <-; cbn; lia].
  apply bind_ok in H as (it' & H1 & H). apply bind_ok in H as (l' & H2 & H). injection H as <-. apply IH in H2. cbn [length]. lia.
Qed.
Lemma si_first : forall it, si_begin exec = Ok it -> si_cur it <= len.
Proof.
  intros it H. unfold si_begin in H. apply bind_ok in H as (c & H1 & H2). unfold si_take in H2. destruct (matched c) eqn:Hc.
  - destruct (ahead 0 c ltac:(lia) H1 Hc) as (e & E1 & E2), (begun 0 c ltac:(lia) H1 Hc) as (b & B1). unfold modify_match in H2. rewrite E1, B1 in H2. cbn [or_ub] in H2.
    injection H2 as <-. exact (proj2 E2).
  - destruct (behind 0 c ltac:(lia) H1 Hc) as (e & E1 & E2). unfold match_rest, set_matched, set_start_mark in H2. cbn in H2. rewrite E1 in H2. cbn [or_ub] in H2.
    injection H2 as <-. cbn [si_cur]. destruct E2; lia.
Qed.
Lemma si_all_rounds : forall m, si_all exec v r m <> Fuel -> forall k, len + 3 <= k -> si_all exec v r k = si_all exec v r m.
Proof.
  intros m H k Hk. unfold si_all in *. destruct (si_begin exec) as [[p c l]| | | |] eqn:B; try reflexivity. cbn [bind] in *.
  apply si_first in B. cbn [si_cur] in B. apply si_rounds; [exact B|exact H|destruct l; lia].
Qed.
Lemma si_all_len : forall m l, si_all exec v r m = Ok l -> length l <= len + 1.
Proof.
  intros m l H. unfold si_all in H. apply bind_ok in H as (it & B & H). pose proof (si_first it B) as Le. unfold si_begin in B. apply bind_ok in B as (c & E & B).
  destruct it as [p x last]. cbn [si_cur] in Le.
  assert (Mx : matched x = true /\ (last = true \/ last = false /\ si_take 0 false c = Ok (mkSiter p x false))).
  { pose proof B as B'. unfold si_take in B. destruct (matched c) eqn:Hc.
    - unfold modify_match in B. destruct (s_end (c0 c)) as [e|]; cbn [or_ub] in B; [|discriminate]. destruct (s_beg (c0 c)) as [b|]; cbn [or_ub] in B; [|discriminate].
      injection B as <- <- <-. split; [exact Hc|]. right. split; [reflexivity|exact B'].
    - unfold match_rest in B. destruct (s_end (c0 (set_matched (set_start_mark 0 c)))) as [e|]; cbn [or_ub] in B; [|discriminate].
      injection B as <- <- <-. split; [reflexivity|]. left. reflexivity. }
  destruct Mx as [Mx La]. assert (p = 0 -> last = false -> False).
  { intros -> ->. destruct La as [La|[_ La]]; [discriminate|].
    rewrite (si_stays 0 false c x ltac:(lia) ltac:(apply andb_false_r) E La Mx m x Mx) in H. discriminate. }
  pose proof (si_rounds m p x last Le ltac:(congruence) (len - p + (if last then 2 else 3)) ltac:(lia)) as R. rewrite H in R. apply si_len in R.
  destruct last; lia.
Qed.
End Rounds.

(** The two searches of the ranges. *)
Section Calls.
Variables (opt : bool) (n : nat) (s : list Z) (f : flags) (r : re).
Hypothesis Hw : well_numbered r.
Let v := arr_view s.
Lemma search_ahead : forall p c, p <= length s -> exec_search opt n v v f r p = Ok c -> matched c = true ->
  exists e, s_end (c0 c) = Some e /\ p <= e <= length s.
Proof.
  intros p c Hp H Hm. apply search_cases in H; auto. destruct H as [(q & H1 & H2 & _)|(q & -> & _)]; [|discriminate].
  apply found in H2; auto; [|lia]. destruct H2 as (_ & e & _ & E & _ & L). exists e. split; [exact E|lia].
Qed.
Lemma search_begun : forall p c, p <= length s -> exec_search opt n v v f r p = Ok c -> matched c = true ->
  exists b, s_beg (c0 c) = Some b.
Proof.
  intros p c Hp H Hm. apply search_cases in H; auto. destruct H as [(q & H1 & H2 & _)|(q & -> & _)]; [|discriminate].
  apply found in H2; auto; [|lia]. destruct H2 as (_ & e & E & _). exists q. exact E.
Qed.
Lemma search_behind : forall p c, p <= length s -> exec_search opt n v v f r p = Ok c -> matched c = false ->
  exists e, s_end (c0 c) = Some e /\ (e = p \/ e = length s).
Proof.
  intros p c Hp H Hm. apply search_cases in H; auto. destruct H as [(q & H1 & H2 & _)|(q & -> & H)].
  - apply found in H2; auto; [|lia]. destruct H2 as (X & _). congruence.
  - exists q. split; [reflexivity|]. destruct (starts_with_anchor f r); destruct H as [-> _]; auto.
Qed.
Lemma starts_ahead : forall p c, p <= length s -> exec_starts_with opt n v v f r p = Ok c -> matched c = true ->
  exists e, s_end (c0 c) = Some e /\ p <= e <= length s.
Proof.
  intros p c Hp H Hm. apply starts_from in H; auto. destruct H as [(_ & _ & e & L & E & _)|[X _]]; [|congruence]. exists e. auto.
Qed.
End Calls.

(** A range that ends lists at most as many matches as the subject has characters (one if there is none), and [split] at
    most one piece more. *)
Theorem range_len : forall a opt n s f r l, well_numbered r -> range_array a opt n s f r = Ok l ->
  length l <= match a with GSplit => length s + 1 | _ => Nat.max 1 (length s) end.
Proof.
  intros a opt n s f r l Hw H. destruct a; unfold range_array, range_of in H.
  - exact (ri_all_len s r _ (search_ahead opt n s f r Hw) n l H).
  - exact (ri_all_len s r _ (starts_ahead opt n s f r Hw) n l H).
  - exact (si_all_len s r _ (search_ahead opt n s f r Hw) (search_behind opt n s f r Hw) (search_begun opt n s f r Hw) n l H).
Qed.
Definition range_degree (a : range_method) (opt : bool) (r : re) : nat :=
  match a with GTokenize => S (degree opt r open_tail) | _ => S (S (degree opt r open_tail)) end.
Theorem range_steps : forall a opt r, well_numbered r -> terminating r = true -> exists A, forall n s f l,
  range_array a opt n s f r = Ok l ->
  (whole_cost a opt n (arr_view s) (arr_view s) f r <= A * (N.of_nat (length s) + 2) ^ N.of_nat (range_degree a opt r))%N.
Proof.
  intros a opt r Hw Ht. destruct (starts_steps opt r Ht) as [A HA], (search_steps opt r Ht) as [B HB].
  exists (4 + 2 * (A + B))%N. intros n s f l H. pose proof (range_len a opt n s f r l Hw H) as L.
  assert (G : forall D K X, (K <= D * X -> D <= A + B -> 1 <= X ->
    K + (1 + N.of_nat (length l) * (2 + K)) <= (4 + 2 * (A + B)) * ((N.of_nat (length s) + 2) * X))%N).
  { intros D K X H1 H2 H3. assert (N.of_nat (length l) <= N.of_nat (length s) + 2)%N as L' by (destruct a; lia).
    assert ((2 + K) <= (2 + (A + B)) * X)%N as HK by nia. set (Y := (N.of_nat (length s) + 2)%N) in *.
    assert (K + (1 + N.of_nat (length l) * (2 + K)) <= (2 + K) * (Y + 1))%N by nia.
    assert ((2 + K) * (Y + 1) <= ((2 + (A + B)) * X) * (Y + 1))%N by (apply N.mul_le_mono_r; exact HK).
    assert (Y + 1 <= 2 * Y)%N by lia.
    assert (((2 + (A + B)) * X) * (Y + 1) <= ((2 + (A + B)) * X) * (2 * Y))%N by (apply N.mul_le_mono_l; assumption). nia. }
  assert (P : forall e, ((N.of_nat (length s) + 2) ^ N.of_nat (S e) = (N.of_nat (length s) + 2) * pw (N.of_nat (length s)) e)%N).
  { intros e. unfold pw. replace (N.of_nat (S e)) with (N.succ (N.of_nat e)) by lia. apply N.pow_succ_r'. }
  pose proof (fun e => pw_pos (N.of_nat (length s)) e) as Pos.
  destruct a; unfold range_array, range_of in H; cbn [whole_cost range_degree]; rewrite P.
  - etransitivity; [|apply (G B _ _ (N.le_refl _) ltac:(lia)); specialize (Pos (S (degree opt r open_tail))); lia].
    unfold range_search_all, ri_all in H. apply bind_ok in H as (it & E & H). unfold ri_total. rewrite E.
    apply N.add_le_mono; [apply HB; apply fwd_arr|].
    apply (ri_steps_le _ _ _ _ (B * pw (N.of_nat (length s)) (S (degree opt r open_tail)))%N); [intros p; apply HB; apply fwd_arr|exact H].
  - etransitivity; [|apply (G A _ _ (N.le_refl _) ltac:(lia)); specialize (Pos (degree opt r open_tail)); lia].
    unfold range_tokenize, ri_all in H. apply bind_ok in H as (it & E & H). unfold ri_total. rewrite E.
    apply N.add_le_mono; [apply HA; apply fwd_arr|].
    apply (ri_steps_le _ _ _ _ (A * pw (N.of_nat (length s)) (degree opt r open_tail))%N); [intros p; apply HA; apply fwd_arr|exact H].
  - etransitivity; [|apply (G B _ _ (N.le_refl _) ltac:(lia)); specialize (Pos (S (degree opt r open_tail))); lia].
    unfold range_split, si_all in H. apply bind_ok in H as (it & E & H). unfold si_total. rewrite E.
    apply N.add_le_mono; [apply HB; apply fwd_arr|].
    apply (si_steps_le _ _ _ _ (B * pw (N.of_nat (length s)) (S (degree opt r open_tail)))%N); [intros p; apply HB; apply fwd_arr|exact H].
Qed.

(** * Fuel beyond the bound shows whether the range ends at all *)
Section More.
Variables (e1 e2 : nat -> res caps) (v : view) (r : re).
Hypothesis H : forall p, e1 p <> Fuel -> e2 p = e1 p.
Lemma bind_fuel : forall A B (x : res A) (k : A -> res B), bind x k <> Fuel -> x <> Fuel.
Proof. intros A B [] k E; try discriminate. exfalso; apply E; reflexivity. Qed.
Lemma ri_more : forall m k, m <= k -> ri_all e1 v r m <> Fuel -> ri_all e2 v r k = ri_all e1 v r m.
Proof.
  intros m k L E. unfold ri_all, ri_begin in *. rewrite H by (do 2 apply bind_fuel in E; exact E).
  destruct (bind (e1 0) (ri_advance 0)) as [it| | | |]; try reflexivity. cbn [bind] in *.
  revert k L it E. induction m as [|m IH]; intros k L it E; [exfalso; apply E; reflexivity|]. destruct k as [|k]; [lia|].
  cbn [ri_loop] in *. unfold ri_next in *. destruct (ri_ne_end it); [|reflexivity].
  destruct (vend v (ri_cur it)) as [[|]|]; cbn [or_ub] in *; [| |reflexivity].
  - cbn [bind] in *. rewrite (IH k ltac:(lia)); [reflexivity|]. exact (bind_fuel _ _ _ _ E).
  - rewrite H by (do 2 apply bind_fuel in E; exact E). destruct (bind (e1 (ri_cur it)) _) as [it'| | | |]; try reflexivity. cbn [bind] in *.
    rewrite (IH k ltac:(lia)); [reflexivity|]. exact (bind_fuel _ _ _ _ E).
Qed.
Lemma si_more : forall m k, m <= k -> si_all e1 v r m <> Fuel -> si_all e2 v r k = si_all e1 v r m.
Proof.
  intros m k L E. unfold si_all, si_begin in *. rewrite H by (do 2 apply bind_fuel in E; exact E).
  destruct (bind (e1 0) (si_take 0 false)) as [it| | | |]; try reflexivity. cbn [bind] in *.
  revert k L it E. induction m as [|m IH]; intros k L it E; [exfalso; apply E; reflexivity|]. destruct k as [|k]; [lia|].
  cbn [si_loop] in *. unfold si_next in *. destruct (si_ne_end it); [|reflexivity].
  destruct (vend v (si_cur it)) as [e|]; cbn [or_ub] in *; [|reflexivity]. destruct (e && si_last it)%bool.
  - cbn [bind] in *. rewrite (IH k ltac:(lia)); [reflexivity|]. exact (bind_fuel _ _ _ _ E).
  - rewrite H by (do 2 apply bind_fuel in E; exact E). destruct (bind (e1 (si_cur it)) _) as [it'| | | |]; try reflexivity. cbn [bind] in *.
    rewrite (IH k ltac:(lia)); [reflexivity|]. exact (bind_fuel _ _ _ _ E).
Qed.
End More.
Lemma eval_more : forall n m opt v w p f c stk, n <= m -> eval opt n v w p f c stk <> Fuel -> eval opt m v w p f c stk = eval opt n v w p f c stk.
Proof. intros. eapply eval_mono; [eassumption|reflexivity|assumption]. Qed.
Lemma starts_more : forall n m opt v w f r p, n <= m -> exec_starts_with opt n v w f r p <> Fuel ->
  exec_starts_with opt m v w f r p = exec_starts_with opt n v w f r p.
Proof.
  intros n m opt v w f r p L H. unfold exec_starts_with in *. rewrite (eval_more n m); [reflexivity|exact L|]. intros E. apply H. rewrite E. reflexivity.
Qed.
Lemma search_more : forall n m opt v w f r p, n <= m -> exec_search opt n v w f r p <> Fuel ->
  exec_search opt m v w f r p = exec_search opt n v w f r p.
Proof.
  intros n m opt v w f r p L H. unfold exec_search in *.
  enough (G : forall i j q, i <= j -> search_loop opt n v w f r i q <> Fuel -> search_loop opt m v w f r j q = search_loop opt n v w f r i q) by (apply G; assumption).
  clear p H. induction i as [|i IH]; intros j q Lj H; [exfalso; apply H; reflexivity|]. destruct j as [|j]; [lia|]. cbn [search_loop] in *.
  destruct (vend v q) as [e|]; cbn [or_ub] in *; [|reflexivity].
  destruct (negb e && negb (starts_with_anchor f r))%bool.
  - rewrite (eval_more n m); [|exact L|intros E; apply H; rewrite E; reflexivity].
    destruct (eval opt n v w q f (fresh r) _); try reflexivity. destruct (vnext v q) as [q'|]; cbn [or_ub] in *; [|reflexivity]. apply IH; [lia|exact H].
  - unfold search_last in *. rewrite (eval_more n m); [reflexivity|exact L|intros E; apply H; rewrite E; reflexivity].
Qed.
Theorem range_fuel : forall a opt r, well_numbered r -> terminating r = true -> exists A, forall n s f,
  (A * (N.of_nat (length s) + 2) ^ N.of_nat (S (degree opt r open_tail)) <= N.of_nat n)%N ->
  range_array a opt n s f r = Fuel -> forall m, range_array a opt m s f r = Fuel.
Proof.
  intros a opt r Hw Ht. destruct (starts_fuel opt r Ht) as [A HA], (search_fuel opt r Ht) as [B HB]. exists (3 + A + B)%N. intros n s f L Hn m.
  change (_ ^ _)%N with (pw (N.of_nat (length s)) (S (degree opt r open_tail))) in L.
  pose proof (pw_mono (N.of_nat (length s)) (degree opt r open_tail) (S (degree opt r open_tail)) ltac:(lia)) as M1.
  pose proof (pw_mono (N.of_nat (length s)) 1 (S (degree opt r open_tail)) ltac:(lia)) as M2. rewrite pw_1 in M2.
  assert (Ln : length s + 3 <= n) by nia.
  pose proof (fun p => HA (length s) n (arr_view s) (arr_view s) f p (fwd_arr s) (fwd_arr s) ltac:(nia)) as SN.
  pose proof (fun p => HB (length s) n (arr_view s) (arr_view s) f p (fwd_arr s) (fwd_arr s) ltac:(nia)) as EN.
  enough (~ range_array a opt m s f r <> Fuel) as D by (destruct (range_array a opt m s f r); try reflexivity; exfalso; apply D; discriminate).
  intros Nm. destruct a; unfold range_array, range_of, range_search_all, range_tokenize, range_split in *; revert Hn;
  set (k := Nat.max n m);
  [ pose proof (ri_more _ _ (arr_view s) r (fun p => search_more m k opt (arr_view s) (arr_view s) f r p ltac:(lia)) m k ltac:(lia) Nm) as E1;
    pose proof (ri_more (exec_search opt k (arr_view s) (arr_view s) f r) (exec_search opt n (arr_view s) (arr_view s) f r) (arr_view s) r
      (fun p _ => eq_sym (search_more n k opt (arr_view s) (arr_view s) f r p ltac:(lia) (EN p))) k k ltac:(lia) ltac:(congruence)) as E2;
    rewrite (ri_all_rounds s r _ (search_ahead opt n s f r Hw) k ltac:(congruence) n ltac:(lia)); congruence
  | pose proof (ri_more _ _ (arr_view s) r (fun p => starts_more m k opt (arr_view s) (arr_view s) f r p ltac:(lia)) m k ltac:(lia) Nm) as E1;
    pose proof (ri_more (exec_starts_with opt k (arr_view s) (arr_view s) f r) (exec_starts_with opt n (arr_view s) (arr_view s) f r) (arr_view s) r
      (fun p _ => eq_sym (starts_more n k opt (arr_view s) (arr_view s) f r p ltac:(lia) (SN p))) k k ltac:(lia) ltac:(congruence)) as E2;
    rewrite (ri_all_rounds s r _ (starts_ahead opt n s f r Hw) k ltac:(congruence) n ltac:(lia)); congruence
  | pose proof (si_more _ _ (arr_view s) r (fun p => search_more m k opt (arr_view s) (arr_view s) f r p ltac:(lia)) m k ltac:(lia) Nm) as E1;
    pose proof (si_more (exec_search opt k (arr_view s) (arr_view s) f r) (exec_search opt n (arr_view s) (arr_view s) f r) (arr_view s) r
      (fun p _ => eq_sym (search_more n k opt (arr_view s) (arr_view s) f r p ltac:(lia) (EN p))) k k ltac:(lia) ltac:(congruence)) as E2;
    rewrite (si_all_rounds s r _ (search_ahead opt n s f r Hw) (search_behind opt n s f r Hw) (search_begun opt n s f r Hw) k ltac:(congruence) n ltac:(lia)); congruence ].
Qed.
