(** What the ranges of matches, tokens and pieces contain, and when their iteration ends. *)
From Coq Require Import List ZArith NArith Bool Arith Lia.
From Verif Require Import Chars Syntax First View Eval Api Spec EvalMono EvalInv SpecCut ApiProofs Checks EvalSound
  Match Term Anchor Iter.
Import ListNotations.

(** [starts_with] at position [p], for some fuel / for no fuel. *)
Definition finds (opt : bool) (s : list Z) (f : flags) (r : re) (p : nat) (c : caps) : Prop :=
  exists n, attempt opt n s f r p = Ok c.
Definition misses (opt : bool) (s : list Z) (f : flags) (r : re) (p : nat) : Prop :=
  forall c, ~ finds opt s f r p c.

Lemma finds_fun : forall opt s f r p c c', finds opt s f r p c -> finds opt s f r p c' -> c = c'.
Proof.
  intros opt s f r p c c' [n H] [n' H']. unfold attempt in *.
  destruct (le_ge_dec n n') as [L|L];
    [apply (eval_mono n n') in H | apply (eval_mono n' n) in H']; congruence || lia || idtac.
Qed.
Lemma no_misses : forall opt n s f r p, attempt opt n s f r p = No -> misses opt s f r p.
Proof.
  intros opt n s f r p H c [n' H']. unfold attempt in *.
  destruct (le_ge_dec n n') as [L|L].
  - apply (eval_mono n n') in H; try congruence; auto.
  - apply (eval_mono n' n) in H'; try congruence; auto.
Qed.

(** The matches reported from [p] on: each is the leftmost one at or after the end of the one before, and
    nothing is left behind. [start]: nothing has been reported yet. After a match that ends at the end of
    the subject nothing more is searched for. *)
Fixpoint listing (opt : bool) (s : list Z) (f : flags) (r : re) (start : bool) (p : nat) (l : list caps) : Prop :=
  match l with
  | [] => (start = false /\ p = length s) \/ forall q, p <= q <= length s -> misses opt s f r q
  | c :: l' => exists b e, group c 0 = Some (b, e) /\ p <= b <= e /\ e <= length s /\
      finds opt s f r b c /\ (forall q, p <= q < b -> misses opt s f r q) /\
      (start = true \/ p < length s) /\ listing opt s f r false e l'
  end.

(** The tokens from [p] on. *)
Fixpoint tokens (opt : bool) (s : list Z) (f : flags) (r : re) (start : bool) (p : nat) (l : list caps) : Prop :=
  match l with
  | [] => (start = false /\ p = length s) \/ misses opt s f r p
  | c :: l' => exists e, group c 0 = Some (p, e) /\ p <= e <= length s /\ finds opt s f r p c /\
      (start = true \/ p < length s) /\ tokens opt s f r false e l'
  end.

(** Pieces [ps] and separators [l] alternate from [p] to the end; a piece carries the captures of the
    separator after it. *)
Fixpoint cuts (s : list Z) (p : nat) (ps l : list caps) : Prop :=
  match l with
  | [] => match ps with
          | [c] => group c 0 = Some (p, length s) /\ forall id, id <> 0 -> group c id = None
          | _ => False
          end
  | m :: l' => match ps with
      | c :: ps' => exists b e, group m 0 = Some (b, e) /\ group c 0 = Some (p, b) /\
          (forall id, id <> 0 -> group c id = group m id) /\ cuts s e ps' l'
      | [] => False
      end
  end.

Definition span_text (s : list Z) (c : caps) : list Z :=
  match group c 0 with Some (b, e) => text s b e | None => [] end.
Fixpoint weave (ps l : list (list Z)) : list Z :=
  match ps, l with
  | x :: ps', y :: l' => x ++ y ++ weave ps' l'
  | x :: _, [] => x
  | [], _ => []
  end.

(** No empty match before the end / anywhere. *)
Definition no_empty_before_end opt s f r : Prop :=
  forall p c, p < length s -> finds opt s f r p c -> group c 0 <> Some (p, p).
Definition no_empty opt s f r : Prop :=
  forall p c, p <= length s -> finds opt s f r p c -> group c 0 <> Some (p, p).

Section One.
Variables (opt : bool) (s : list Z) (f : flags) (r : re).
Hypothesis Hw : well_numbered r.
Let len := length s.

Lemma found : forall n p c, p <= len -> attempt opt n s f r p = Ok c ->
  matched c = true /\ exists e, s_beg (c0 c) = Some p /\ s_end (c0 c) = Some e /\ group c 0 = Some (p, e) /\ p <= e <= len.
Proof.
  intros n p c Hp H. apply attempt_ok in H; auto. destruct H as (H1 & H2 & (e & H3 & H4) & _).
  split; [assumption|]. exists e. repeat split; try lia; auto. apply c0_group; assumption.
Qed.

Lemma finds_span : forall p c, p <= len -> finds opt s f r p c ->
  matched c = true /\ exists e, group c 0 = Some (p, e) /\ p <= e <= len.
Proof.
  intros p c Hp [n H]. apply found in H as (H & e & _ & _ & H2 & H3); auto. split; eauto.
Qed.

Lemma search_from : forall n p c, zero_safe r = true -> p <= len ->
  exec_search opt n (arr_view s) (arr_view s) f r p = Ok c ->
  (matched c = true /\ exists q e, p <= q <= e /\ e <= len /\ finds opt s f r q c /\
     (forall p', p <= p' < q -> misses opt s f r p') /\
     s_beg (c0 c) = Some q /\ s_end (c0 c) = Some e /\ group c 0 = Some (q, e)) \/
  (matched c = false /\ (forall p', p <= p' <= len -> misses opt s f r p') /\
   (starts_with_anchor f r = false -> c = set_end_mark len (fresh r))).
Proof.
  intros n p c Hz Hp H. apply search_cases in H; auto.
  destruct H as [(q & H1 & H2 & H3 & H4) | (q & -> & H)].
  - left. pose proof (found n q c ltac:(unfold len; lia) H2) as (Hm & e & E1 & E2 & E3 & E4).
    split; [assumption|]. exists q, e. split; [lia|]. split; [unfold len in *; lia|]. split; [exists n; assumption|].
    split; [|auto]. intros p' Hp'. apply (no_misses opt n). apply H4. assumption.
  - right. split; [reflexivity|]. destruct (starts_with_anchor f r) eqn:Ha.
    + destruct H as [-> H]. split; [|discriminate]. intros p' Hp'. destruct (Nat.eq_dec p' p) as [->|].
      * apply (no_misses opt n). assumption.
      * intros c [m Hc]. apply (anchored_nowhere_else opt m s f r p' c Hz Ha) in Hc; [assumption|lia].
    + destruct H as [-> H]. split; [|reflexivity]. intros p' Hp'. apply (no_misses opt n). apply H. assumption.
Qed.

Lemma starts_from : forall n p c, p <= len ->
  exec_starts_with opt n (arr_view s) (arr_view s) f r p = Ok c ->
  (matched c = true /\ finds opt s f r p c /\ exists e, p <= e <= len /\
     s_end (c0 c) = Some e /\ group c 0 = Some (p, e)) \/
  (matched c = false /\ misses opt s f r p).
Proof.
  intros n p c Hp H. unfold exec_starts_with in H. apply returned_cases in H as [H | [H ->]].
  - left. change (attempt opt n s f r p = Ok c) in H. pose proof (found n p c Hp H) as (Hm & e & E1 & E2 & E3 & E4).
    split; [assumption|]. split; [exists n; assumption|]. exists e. auto.
  - right. split; [reflexivity|]. apply (no_misses opt n). assumption.
Qed.

Lemma fresh_unmatched : matched (fresh r) = false.
Proof. reflexivity. Qed.

(** * What is listed *)
Let SE n := exec_search opt n (arr_view s) (arr_view s) f r.
Let TE n := exec_starts_with opt n (arr_view s) (arr_view s) f r.

Lemma bind_ok : forall A B (x : res A) (k : A -> res B) b, bind x k = Ok b -> exists a, x = Ok a /\ k a = Ok b.
Proof. intros A B [] k b H; try discriminate. eauto. Qed.

Lemma ri_done : forall exec v m it l, ri_loop exec v r m it = Ok l -> matched (ri_match it) = false -> l = [].
Proof. intros exec v [|m] it l H Hm; [discriminate|]. cbn [ri_loop] in H. unfold ri_ne_end in H. rewrite Hm in H. congruence. Qed.

Lemma listing_loop : forall n m p c l, zero_safe r = true -> p <= len -> matched c = true ->
  ri_loop (SE n) (arr_view s) r m (mkRiter p c) = Ok l ->
  exists l', l = c :: l' /\ listing opt s f r false p l'.
Proof.
  intros n. induction m as [|m IH]; intros p c l Hz Hp Hm H; [discriminate|].
  cbn [ri_loop] in H. unfold ri_ne_end in H. cbn [ri_match] in H. rewrite Hm in H.
  apply bind_ok in H as (it & H1 & H). apply bind_ok in H as (l' & H2 & H). injection H as <-.
  exists l'. split; [reflexivity|]. unfold ri_next in H1. cbn [ri_cur arr_view vend or_ub] in H1.
  destruct (Nat.eqb_spec p (length s)) as [E|E].
  - injection H1 as <-. destruct m; [discriminate|]. cbn in H2. injection H2 as <-. left. auto.
  - apply bind_ok in H1 as (c' & H3 & H4). apply search_from in H3; auto.
    destruct H3 as [(Hc & q & e & Q1 & Q2 & Q3 & Q4 & Q5 & Q6 & Q7) | (Hc & Hn & _)].
    + unfold ri_advance in H4. rewrite Hc, Q6 in H4. cbn [or_ub] in H4. injection H4 as <-.
      apply IH in H2 as (l'' & -> & H2); auto.
      exists q, e. unfold len in *. repeat (split; [first [assumption | lia | left; reflexivity]|]). assumption.
    + unfold ri_advance in H4. rewrite Hc in H4. injection H4 as <-.
      apply ri_done in H2; [subst l'|exact Hc]. right. assumption.
Qed.

Theorem search_all_listing : forall n l, zero_safe r = true ->
  ctre_search_all opt n s f r = Ok l -> listing opt s f r true 0 l.
Proof.
  intros n l Hz H. unfold ctre_search_all, range_search_all, ri_all, ri_begin in H.
  apply bind_ok in H as (it & H1 & H2). apply bind_ok in H1 as (c' & H3 & H4).
  apply search_from in H3; auto; [|lia].
  destruct H3 as [(Hc & q & e & Q1 & Q2 & Q3 & Q4 & Q5 & Q6 & Q7) | (Hc & Hn & _)];
    unfold ri_advance in H4; rewrite Hc in H4.
  - rewrite Q6 in H4. cbn [or_ub] in H4. injection H4 as <-.
    apply listing_loop in H2 as (l' & -> & H2); auto.
    exists q, e. unfold len in *. repeat (split; [first [assumption | lia | left; reflexivity]|]). assumption.
  - injection H4 as <-. apply ri_done in H2; [subst l|exact Hc]. right. assumption.
Qed.

Lemma tokens_loop : forall n m p c l, p <= len -> matched c = true ->
  ri_loop (TE n) (arr_view s) r m (mkRiter p c) = Ok l ->
  exists l', l = c :: l' /\ tokens opt s f r false p l'.
Proof.
  intros n. induction m as [|m IH]; intros p c l Hp Hm H; [discriminate|].
  cbn [ri_loop] in H. unfold ri_ne_end in H. cbn [ri_match] in H. rewrite Hm in H.
  apply bind_ok in H as (it & H1 & H). apply bind_ok in H as (l' & H2 & H). injection H as <-.
  exists l'. split; [reflexivity|]. unfold ri_next in H1. cbn [ri_cur arr_view vend or_ub] in H1.
  destruct (Nat.eqb_spec p (length s)) as [E|E].
  - injection H1 as <-. destruct m; [discriminate|]. cbn in H2. injection H2 as <-. left. auto.
  - apply bind_ok in H1 as (c' & H3 & H4). apply starts_from in H3; auto.
    destruct H3 as [(Hc & Q3 & e & Q1 & Q6 & Q7) | (Hc & Hn)]; unfold ri_advance in H4; rewrite Hc in H4.
    + rewrite Q6 in H4. cbn [or_ub] in H4. injection H4 as <-.
      apply IH in H2 as (l'' & -> & H2); auto; [|lia].
      exists e. unfold len in *. repeat (split; [first [assumption | lia | left; reflexivity]|]). assumption.
    + injection H4 as <-. apply ri_done in H2; [subst l'|exact Hc]. right. assumption.
Qed.

Theorem tokenize_tokens : forall n l,
  ctre_tokenize opt n s f r = Ok l -> tokens opt s f r true 0 l.
Proof.
  intros n l H. unfold ctre_tokenize, range_tokenize, ri_all, ri_begin in H.
  apply bind_ok in H as (it & H1 & H2). apply bind_ok in H1 as (c' & H3 & H4).
  apply starts_from in H3; auto; [|lia].
  destruct H3 as [(Hc & Q3 & e & Q1 & Q6 & Q7) | (Hc & Hn)]; unfold ri_advance in H4; rewrite Hc in H4.
  - rewrite Q6 in H4. cbn [or_ub] in H4. injection H4 as <-.
    apply tokens_loop in H2 as (l' & -> & H2); auto; [|lia].
    exists e. unfold len in *. repeat (split; [first [assumption | lia | left; reflexivity]|]). assumption.
  - injection H4 as <-. apply ri_done in H2; [subst l|exact Hc]. right. assumption.
Qed.

(** * split *)
Lemma group_marks : forall c a b id, id <> 0 -> group (set_start_mark a (set_end_mark b c)) id = group c id.
Proof. intros c a b id H. unfold group, get_id. destruct (Nat.eqb_spec id 0); [contradiction|]. reflexivity. Qed.

Lemma piece_span : forall c a b, matched c = true -> group (set_start_mark a (set_end_mark b c)) 0 = Some (a, b).
Proof. intros c a b H. unfold matched in H. unfold group, get_id. cbn. rewrite H. reflexivity. Qed.

Lemma rest_span : forall p, group (set_matched (set_start_mark p (set_end_mark len (fresh r)))) 0 = Some (p, len).
Proof. reflexivity. Qed.

Lemma rest_groups : forall p id, id <> 0 ->
  group (set_matched (set_start_mark p (set_end_mark len (fresh r)))) id = None.
Proof.
  intros p id H. unfold group, get_id. destruct (Nat.eqb_spec id 0); [contradiction|]. cbn [cl set_matched set_start_mark set_end_mark fresh].
  destruct (find_id id (map (fun p0 : nat * option (list Z) => (p0, empty_slot)) (find_captures r))) eqn:E; [|reflexivity].
  apply find_fresh in E. subst. reflexivity.
Qed.

Lemma nonempty_search : forall n p c, no_empty opt s f r -> zero_safe r = true -> p <= len ->
  SE n p = Ok c -> matched c = true -> exists q e, p <= q < e /\ e <= len /\
    s_beg (c0 c) = Some q /\ s_end (c0 c) = Some e /\ group c 0 = Some (q, e).
Proof.
  intros n p c Hn Hz Hp H Hm. apply search_from in H; auto.
  destruct H as [(Hc & q & e & Q1 & Q2 & Q3 & Q4 & Q5 & Q6 & Q7) | (Hc & _)]; [|congruence].
  exists q, e. assert (q <> e). { intros <-. apply (Hn q c); solve [auto]. }
  repeat split; auto; lia.
Qed.

Lemma split_loop : forall n m p c c2 ps, zero_safe r = true -> starts_with_anchor f r = false ->
  no_empty opt s f r -> p <= len -> matched c = true -> matched c2 = true ->
  si_loop (SE n) (arr_view s) r m (mkSiter p c false) = Ok ps ->
  exists ps' l', ps = c :: ps' /\ ri_loop (SE n) (arr_view s) r m (mkRiter p c2) = Ok (c2 :: l') /\ cuts s p ps' l'.
Proof.
  intros n. induction m as [|m IH]; intros p c c2 ps Hz Ha Hne Hp Hm Hm2 H; [discriminate|].
  cbn [si_loop] in H. unfold si_ne_end in H. cbn [si_match] in H. rewrite Hm in H.
  apply bind_ok in H as (it & H1 & H). apply bind_ok in H as (ps' & H2 & H). injection H as <-.
  cbn [ri_loop]. unfold ri_ne_end. cbn [ri_match]. rewrite Hm2.
  unfold si_next in H1. cbn [si_cur si_last arr_view vend or_ub] in H1. rewrite andb_false_r in H1.
  apply bind_ok in H1 as (c' & H3 & H4).
  destruct (matched c') eqn:Hc; unfold si_take in H4; rewrite Hc in H4.
  - pose proof (nonempty_search n p c' Hne Hz Hp H3 Hc) as (q & e & Q1 & Q2 & Q3 & Q4 & Q5).
    unfold modify_match in H4. rewrite Q3, Q4 in H4. cbn [or_ub] in H4. injection H4 as <-.
    destruct (IH e (set_start_mark p (set_end_mark q c')) c' ps' Hz Ha Hne Q2 Hc Hc H2) as (ps2 & l2 & -> & H5 & H6).
    exists (set_start_mark p (set_end_mark q c') :: ps2), (c' :: l2). split; [reflexivity|]. split.
    + unfold ri_next. cbn [ri_cur arr_view vend or_ub]. destruct (Nat.eqb_spec p (length s)) as [E|E]; [unfold len in *; lia|].
      fold (arr_view s). fold (SE n). rewrite H3. cbn [bind]. unfold ri_advance. rewrite Hc, Q4. cbn [or_ub bind]. rewrite H5. reflexivity.
    + exists q, e. split; [assumption|]. split; [apply piece_span; assumption|].
      split; [intros id Hid; apply group_marks; assumption|assumption].
  - pose proof H3 as H3'. apply search_from in H3; auto. destruct H3 as [[Hc' _] | (_ & _ & H3)]; [congruence|].
    specialize (H3 Ha). subst c'. unfold match_rest in H4. cbn [c0 s_end set_matched set_start_mark set_end_mark or_ub] in H4.
    injection H4 as <-. destruct m as [|m]; [discriminate|].
    cbn [si_loop] in H2. unfold si_ne_end in H2. change (matched (si_match _)) with true in H2. cbv iota in H2. cbn [si_match] in H2.
    unfold si_next in H2. cbn [si_cur si_last arr_view vend or_ub] in H2. rewrite Nat.eqb_refl in H2. cbn [andb bind] in H2.
    destruct m as [|m]; [discriminate|]. cbn in H2. injection H2 as <-.
    eexists _, []. split; [reflexivity|]. split.
    + unfold ri_next. cbn [ri_cur arr_view vend or_ub]. destruct (Nat.eqb_spec p (length s)) as [E|E]; [reflexivity|].
      fold (arr_view s). fold (SE n). rewrite H3'. reflexivity.
    + split; [reflexivity|]. apply (rest_groups p).
Qed.

Theorem split_cuts : forall n ps, zero_safe r = true -> starts_with_anchor f r = false ->
  no_empty opt s f r -> ctre_split opt n s f r = Ok ps ->
  exists l, ctre_search_all opt n s f r = Ok l /\ cuts s 0 ps l.
Proof.
  intros n ps Hz Ha Hne H. unfold ctre_split, range_split, si_all, si_begin in H.
  apply bind_ok in H as (it & H1 & H2). apply bind_ok in H1 as (c' & H3 & H4).
  unfold ctre_search_all, range_search_all, ri_all, ri_begin.
  fold (arr_view s). rewrite H3. cbn [bind].
  destruct (matched c') eqn:Hc; unfold si_take in H4; rewrite Hc in H4.
  - pose proof (nonempty_search n 0 c' Hne Hz ltac:(lia) H3 Hc) as (q & e & Q1 & Q2 & Q3 & Q4 & Q5).
    unfold modify_match in H4. rewrite Q3, Q4 in H4. cbn [or_ub] in H4. injection H4 as <-.
    destruct (split_loop n n e (set_start_mark 0 (set_end_mark q c')) c' ps Hz Ha Hne Q2 Hc Hc H2) as (ps2 & l2 & -> & H5 & H6).
    unfold ri_advance. rewrite Hc, Q4. cbn [or_ub bind]. exists (c' :: l2). split; [exact H5|].
    exists q, e. split; [assumption|]. split; [apply piece_span; assumption|].
    split; [intros id Hid; apply group_marks; assumption|assumption].
  - pose proof H3 as H3'. apply search_from in H3; auto; [|lia]. destruct H3 as [[Hc' _] | (_ & _ & H3)]; [congruence|].
    specialize (H3 Ha). subst c'. unfold match_rest in H4. cbn [c0 s_end set_matched set_start_mark set_end_mark or_ub] in H4.
    injection H4 as <-. destruct n as [|m]; [discriminate|].
    cbn [si_loop] in H2. unfold si_ne_end in H2. change (matched (si_match _)) with true in H2. cbv iota in H2. cbn [si_match] in H2.
    unfold si_next in H2. cbn [si_cur si_last arr_view vend or_ub] in H2. rewrite Nat.eqb_refl in H2. cbn [andb bind] in H2.
    destruct m as [|m]; [discriminate|]. cbn in H2. injection H2 as <-.
    exists []. split; [reflexivity|]. split; [reflexivity|]. apply (rest_groups 0).
Qed.
End One.

(** Reassembly. *)
Lemma skipn_add : forall A a b (l : list A), skipn a (skipn b l) = skipn (b + a) l.
Proof.
  intros A a b. induction b as [|b IH]; intros l; [reflexivity|].
  destruct l; cbn [skipn plus]; [apply skipn_nil | apply IH].
Qed.
Lemma text_app : forall s a b c, a <= b <= c -> text s a b ++ text s b c = text s a c.
Proof.
  intros s a b c H. unfold text. rewrite <- (firstn_skipn (b - a) (firstn (c - a) (skipn a s))) at 1.
  f_equal.
  - rewrite firstn_firstn. f_equal. lia.
  - rewrite skipn_firstn_comm, skipn_add. f_equal; [lia|]. f_equal. lia.
Qed.


Lemma cuts_weave : forall opt s f r l ps start p, p <= length s -> listing opt s f r start p l ->
  cuts s p ps l -> weave (map (span_text s) ps) (map (span_text s) l) = text s p (length s).
Proof.
  intros opt s f r l. induction l as [|m l IH]; intros ps start p Hp Hl H.
  - destruct ps as [|c [|]]; try contradiction. destruct H as [H _]. cbn. unfold span_text. rewrite H. reflexivity.
  - destruct ps as [|c ps]; [contradiction|].
    destruct H as (b & e & H1 & H2 & _ & H3). destruct Hl as (b' & e' & L1 & L2 & L3 & _ & _ & _ & L4).
    assert (b' = b /\ e' = e) as [-> ->] by (split; congruence).
    cbn [map weave]. rewrite (IH ps false e); auto.
    unfold span_text. rewrite H1, H2. rewrite text_app by lia. apply text_app. lia.
Qed.

Theorem split_reassembles : forall opt s f r n ps, well_numbered r -> zero_safe r = true ->
  starts_with_anchor f r = false -> no_empty opt s f r -> ctre_split opt n s f r = Ok ps ->
  exists l, ctre_search_all opt n s f r = Ok l /\ length ps = S (length l) /\
    weave (map (span_text s) ps) (map (span_text s) l) = s.
Proof.
  intros opt s f r n ps Hw Hz Ha Hn H.
  destruct (split_cuts opt s f r Hw n ps Hz Ha Hn H) as (l & H1 & H2).
  exists l. split; [assumption|]. split.
  - clear H H1. revert ps H2. clear. generalize 0. induction l as [|m l IH]; intros p ps H.
    + destruct ps as [|c [|]]; try contradiction. reflexivity.
    + destruct ps as [|c ps]; [contradiction|]. destruct H as (b & e & _ & _ & _ & H). apply IH in H. cbn. congruence.
  - rewrite (cuts_weave opt s f r l ps true 0); auto; [|lia|apply (search_all_listing opt s f r Hw n); assumption].
    unfold text. rewrite Nat.sub_0_r. cbn [skipn]. apply firstn_all.
Qed.

(** * Ending *)
Section Ending.
Variables (opt : bool) (s : list Z) (f : flags) (r : re).
Hypothesis Hw : well_numbered r.
Let len := length s.
Let v := arr_view s.

Lemma ri_settles : forall exec : nat -> nat -> res caps,
  (forall p, settles (fun n => exec n p)) ->
  (forall n p c, p <= len -> exec n p = Ok c -> matched c = true ->
     exists e, s_end (c0 c) = Some e /\ p <= e <= len /\ (p < len -> p < e)) ->
  forall p c, p <= len -> exists N x, x <> Fuel /\
    forall n k, N <= n -> N <= k -> ri_loop (exec n) v r k (mkRiter p c) = x.
Proof.
  intros exec Hs Hp. 
  assert (G : forall d p c, d = len - p -> p <= len -> exists N x, x <> Fuel /\
    forall n k, N <= n -> N <= k -> ri_loop (exec n) v r k (mkRiter p c) = x).
  2:{ intros p c H. apply (G (len - p)); auto. }
  induction d as [d IH] using lt_wf_ind. intros p c -> Hle.
  destruct (matched c) eqn:Hm.
  2:{ exists 1, (Ok []). split; [discriminate|]. intros n [|k] _ Hk; [lia|]. cbn [ri_loop]. unfold ri_ne_end. cbn [ri_match].
      rewrite Hm. reflexivity. }
  destruct (Nat.eq_dec p len) as [->|Hne].
  { exists 2, (Ok [c]). split; [discriminate|]. intros n [|[|k]] _ Hk; try lia.
    cbn [ri_loop]. unfold ri_ne_end. cbn [ri_match]. rewrite Hm. unfold ri_next. cbn [ri_cur v arr_view vend or_ub].
    unfold len at 1. rewrite Nat.eqb_refl. reflexivity. }
  destruct (Hs p) as (N1 & x1 & Hx1 & H1).
  assert (Next : forall n k, N1 <= n -> ri_loop (exec n) v r (S k) (mkRiter p c) =
    bind (bind x1 (ri_advance p)) (fun it' => bind (ri_loop (exec n) v r k it') (fun l => Ok (c :: l)))).
  { intros n k Hn. cbn [ri_loop]. unfold ri_ne_end. cbn [ri_match]. rewrite Hm. unfold ri_next. cbn [ri_cur v arr_view vend or_ub].
    destruct (Nat.eqb_spec p (length s)); [contradiction|]. rewrite H1 by assumption. reflexivity. }
  destruct x1 as [c1| | | |];
    try (exists (S N1); eexists; split; [|intros n [|k] Hn Hk; [lia|]; rewrite Next by lia; cbn [bind]; reflexivity]; discriminate).
  - destruct (matched c1) eqn:Hm1.
    + destruct (Hp N1 p c1 Hle (H1 N1 (le_n _)) Hm1) as (e & E1 & E2 & E3).
      destruct (IH (len - e) ltac:(lia) e c1 eq_refl ltac:(lia)) as (N2 & x2 & Hx2 & H2).
      exists (S (max N1 N2)), (bind x2 (fun l => Ok (c :: l))). split; [destruct x2; discriminate || congruence|].
      intros n [|k] Hn Hk; [lia|]. rewrite Next by lia. cbn [bind]. unfold ri_advance. rewrite Hm1, E1. cbn [or_ub bind].
      rewrite H2 by lia. reflexivity.
    + exists (S (S N1)), (Ok [c]). split; [discriminate|]. intros n [|[|k]] Hn Hk; try lia.
      rewrite Next by lia. cbn [bind]. unfold ri_advance. rewrite Hm1. cbn [bind ri_loop]. unfold ri_ne_end. cbn [ri_match].
      rewrite Hm1. reflexivity.
  - contradiction.
Qed.

Lemma ri_all_settles : forall exec : nat -> nat -> res caps,
  (forall p, settles (fun n => exec n p)) ->
  (forall n p c, p <= len -> exec n p = Ok c -> matched c = true ->
     exists e, s_end (c0 c) = Some e /\ p <= e <= len /\ (p < len -> p < e)) ->
  settles (fun n => ri_all (exec n) v r n).
Proof.
  intros exec Hs Hp. destruct (Hs 0) as (N1 & x1 & Hx1 & H1).
  destruct x1 as [c1| | | |];
    try (exists N1; eexists; split; [|intros n Hn; unfold ri_all, ri_begin; rewrite H1 by assumption; cbn [bind]; reflexivity]; discriminate);
    [|contradiction].
  assert (K : exists e, ri_advance 0 c1 = Ok (mkRiter e c1) /\ e <= len).
  { unfold ri_advance. destruct (matched c1) eqn:Hm; [|exists 0; split; [reflexivity|lia]].
    destruct (Hp N1 0 c1 ltac:(lia) (H1 N1 (le_n _)) Hm) as (e & E1 & E2 & _). exists e. rewrite E1. split; [reflexivity|lia]. }
  destruct K as (e & K1 & K2).
  destruct (ri_settles exec Hs Hp e c1 K2) as (N2 & x2 & Hx2 & H2).
  exists (max N1 N2), x2. split; [assumption|]. intros n Hn. unfold ri_all, ri_begin.
  rewrite H1 by lia. cbn [bind]. rewrite K1. cbn [bind]. apply H2; lia.
Qed.

Lemma search_settles_at : terminating r = true -> forall p, settles (fun n => exec_search opt n v v f r p).
Proof. intros Ht p. unfold v. apply (settles_search opt (length s)); auto using fwd_arr. Qed.
Lemma starts_settles_at : terminating r = true -> forall p, settles (fun n => exec_starts_with opt n v v f r p).
Proof. intros Ht p. unfold v. apply (settles_starts opt (length s)); auto using fwd_arr. Qed.

Theorem search_all_ends : terminating r = true -> zero_safe r = true -> no_empty_before_end opt s f r ->
  settles (fun n => ctre_search_all opt n s f r).
Proof.
  intros Ht Hz Hn. apply (ri_all_settles (fun n p => exec_search opt n v v f r p)).
  - apply search_settles_at. assumption.
  - intros n p c Hp H Hm. apply search_from in H; auto.
    destruct H as [(_ & q & e & Q1 & Q2 & Q3 & Q4 & Q5 & Q6 & Q7) | (Hc & _)]; [|congruence].
    exists e. split; [assumption|]. split; [unfold len; lia|]. intros Hlt.
    destruct (Nat.eq_dec q e) as [->|]; [|lia].
    destruct (Nat.eq_dec e len) as [->|]; [assumption|]. exfalso. apply (Hn e c); auto. unfold len in *. lia.
Qed.

Theorem tokenize_ends : terminating r = true -> no_empty_before_end opt s f r ->
  settles (fun n => ctre_tokenize opt n s f r).
Proof.
  intros Ht Hn. apply (ri_all_settles (fun n p => exec_starts_with opt n v v f r p)).
  - apply starts_settles_at. assumption.
  - intros n p c Hp H Hm. apply starts_from in H; auto.
    destruct H as [(_ & Q3 & e & Q1 & Q6 & Q7) | (Hc & _)]; [|congruence].
    exists e. split; [assumption|]. split; [unfold len; lia|]. intros Hlt.
    destruct (Nat.eq_dec p e) as [->|]; [|lia]. exfalso. apply (Hn e c); auto.
Qed.

Lemma si_rest : forall exec c k, matched c = true ->
  si_loop exec v r (S (S k)) (mkSiter len c true) = Ok [c].
Proof.
  intros exec c k Hm. cbn [si_loop]. unfold si_ne_end. cbn [si_match]. rewrite Hm. unfold si_next.
  cbn [si_cur si_last v arr_view vend or_ub]. unfold len at 1. rewrite Nat.eqb_refl. reflexivity.
Qed.

Lemma si_settles : terminating r = true -> zero_safe r = true -> starts_with_anchor f r = false ->
  no_empty opt s f r -> forall p c, p <= len -> exists N x, x <> Fuel /\
  forall n k, N <= n -> N <= k -> si_loop (exec_search opt n v v f r) v r k (mkSiter p c false) = x.
Proof.
  intros Ht Hz Ha Hn.
  assert (G : forall d p c, d = len - p -> p <= len -> exists N x, x <> Fuel /\
    forall n k, N <= n -> N <= k -> si_loop (exec_search opt n v v f r) v r k (mkSiter p c false) = x).
  2:{ intros p c H. apply (G (len - p)); auto. }
  induction d as [d IH] using lt_wf_ind. intros p c -> Hle.
  destruct (matched c) eqn:Hm.
  2:{ exists 1, (Ok []). split; [discriminate|]. intros n [|k] _ Hk; [lia|]. cbn [si_loop]. unfold si_ne_end. cbn [si_match].
      rewrite Hm. reflexivity. }
  destruct (search_settles_at Ht p) as (N1 & x1 & Hx1 & H1).
  assert (Next : forall n k, N1 <= n -> si_loop (exec_search opt n v v f r) v r (S k) (mkSiter p c false) =
    bind (bind x1 (si_take p false)) (fun it' => bind (si_loop (exec_search opt n v v f r) v r k it') (fun l => Ok (c :: l)))).
  { intros n k Hk. cbn [si_loop]. unfold si_ne_end. cbn [si_match]. rewrite Hm. unfold si_next. cbn [si_cur si_last v arr_view vend or_ub].
    rewrite andb_false_r. fold (arr_view s). change (arr_view s) with v. rewrite H1 by assumption. reflexivity. }
  destruct x1 as [c1| | | |];
    try (exists (S N1); eexists; split; [|intros n [|k] Hn' Hk; [lia|]; rewrite Next by lia; cbn [bind]; reflexivity]; discriminate);
    [|contradiction].
  destruct (matched c1) eqn:Hm1.
  - pose proof (nonempty_search opt s f r Hw N1 p c1 Hn Hz Hle (H1 N1 (le_n _)) Hm1) as (q & e & Q1 & Q2 & Q3 & Q4 & Q5).
    destruct (IH (len - e) ltac:(unfold len; lia) e (set_start_mark p (set_end_mark q c1)) eq_refl ltac:(unfold len; lia)) as (N2 & x2 & Hx2 & H2).
    exists (S (max N1 N2)), (bind x2 (fun l => Ok (c :: l))). split; [destruct x2; discriminate || congruence|].
    intros n [|k] Hn' Hk; [lia|]. rewrite Next by lia. cbn [bind]. unfold si_take. rewrite Hm1. unfold modify_match.
    rewrite Q3, Q4. cbn [or_ub bind]. rewrite H2 by lia. reflexivity.
  - pose proof (search_from opt s f r Hw N1 p c1 Hz Hle (H1 N1 (le_n _))) as [[H _] | (_ & _ & H)]; [congruence|].
    specialize (H Ha). subst c1.
    exists (S (S (S N1))). eexists. split; [|intros n [|[|[|k]]] Hn' Hk; try lia;
      rewrite Next by lia; cbn [bind]; unfold si_take; rewrite Hm1; unfold match_rest;
      cbn [c0 s_end set_matched set_start_mark set_end_mark or_ub bind];
      rewrite si_rest by reflexivity; cbn [bind]; reflexivity].
    discriminate.
Qed.

Theorem split_ends : terminating r = true -> zero_safe r = true -> starts_with_anchor f r = false ->
  no_empty opt s f r -> settles (fun n => ctre_split opt n s f r).
Proof.
  intros Ht Hz Ha Hn. destruct (search_settles_at Ht 0) as (N1 & x1 & Hx1 & H1).
  destruct x1 as [c1| | | |];
    try (exists N1; eexists; split; [|intros n Hn'; unfold ctre_split, range_split, si_all, si_begin; fold v; rewrite H1 by assumption; cbn [bind]; reflexivity]; discriminate);
    [|contradiction].
  destruct (matched c1) eqn:Hm1.
  - pose proof (nonempty_search opt s f r Hw N1 0 c1 Hn Hz ltac:(lia) (H1 N1 (le_n _)) Hm1) as (q & e & Q1 & Q2 & Q3 & Q4 & Q5).
    destruct (si_settles Ht Hz Ha Hn e (set_start_mark 0 (set_end_mark q c1)) Q2) as (N2 & x2 & Hx2 & H2).
    exists (max N1 N2), x2. split; [assumption|]. intros n Hn'. unfold ctre_split, range_split, si_all, si_begin. fold v.
    rewrite H1 by lia. cbn [bind]. unfold si_take. rewrite Hm1. unfold modify_match. rewrite Q3, Q4. cbn [or_ub bind]. apply H2; lia.
  - pose proof (search_from opt s f r Hw N1 0 c1 Hz ltac:(lia) (H1 N1 (le_n _))) as [[H _] | (_ & _ & H)]; [congruence|].
    specialize (H Ha). subst c1.
    exists (S (S N1)). eexists. split; [|intros [|[|n]] Hn'; try lia;
      unfold ctre_split, range_split, si_all, si_begin; fold v; rewrite H1 by lia; cbn [bind]; unfold si_take; rewrite Hm1;
      unfold match_rest; cbn [c0 s_end set_matched set_start_mark set_end_mark or_ub bind];
      rewrite si_rest by reflexivity; cbn [bind]; reflexivity].
    discriminate.
Qed.

(** * Not ending *)
Lemma search_here : forall n p, p < len -> (forall k, attempt opt k s f r p <> No) ->
  exec_search opt n v v f r p = attempt opt n s f r p \/ exec_search opt n v v f r p = Fuel.
Proof.
  intros [|n] p Hp Ha; [right; reflexivity|]. left. unfold exec_search. cbn [search_loop].
  change (vend v p) with (Some (Nat.eqb p (length s))). cbn [or_ub].
  destruct (Nat.eqb_spec p (length s)); [unfold len in *; lia|]. cbn [negb andb].
  unfold search_last. change (eval opt (S n) v v p f (fresh r) [AStart; AR r; AEnd; AAccept]) with (attempt opt (S n) s f r p).
  specialize (Ha (S n)).
  destruct (starts_with_anchor f r); cbn [negb]; destruct (attempt opt (S n) s f r p); congruence.
Qed.

Lemma finds_cases : forall p c n, finds opt s f r p c -> attempt opt n s f r p = Ok c \/ attempt opt n s f r p = Fuel.
Proof.
  intros p c n [m H]. unfold attempt in *. destruct (le_ge_dec m n) as [L|L].
  - left. apply (eval_mono m n) in H; auto. discriminate.
  - destruct (eval opt n (arr_view s) (arr_view s) p f (fresh r) [AStart; AR r; AEnd; AAccept]) eqn:E; auto;
      left; apply (eval_mono n m) in E; auto; congruence.
Qed.

Lemma stuck_search : forall n p c, p < len -> finds opt s f r p c -> group c 0 = Some (p, p) ->
  bind (exec_search opt n v v f r p) (ri_advance p) = Ok (mkRiter p c) \/ exec_search opt n v v f r p = Fuel.
Proof.
  intros n p c Hp Hf Hg.
  destruct (search_here n p Hp) as [H|H]; [|  |right; assumption].
  - intros k Hk. destruct (finds_cases p c k Hf); congruence.
  - rewrite H. destruct (finds_cases p c n Hf) as [E|E]; [left|right; assumption]. rewrite E. cbn [bind].
    apply found in E; auto; [|unfold len in *; lia]. destruct E as (Hm & e & E1 & E2 & E3 & E4). unfold ri_advance. rewrite Hm, E2. cbn [or_ub].
    congruence.
Qed.

Lemma stuck_loop : forall n p c m, p < len -> finds opt s f r p c -> group c 0 = Some (p, p) -> matched m = true ->
  forall k, ri_loop (exec_search opt n v v f r) v r k (mkRiter p m) = Fuel.
Proof.
  intros n p c m Hp Hf Hg Hm k. revert m Hm. induction k as [|k IH]; intros m Hm; [reflexivity|].
  cbn [ri_loop]. unfold ri_ne_end. cbn [ri_match]. rewrite Hm. unfold ri_next. cbn [ri_cur v arr_view vend or_ub].
  destruct (Nat.eqb_spec p (length s)); [unfold len in *; lia|]. fold (arr_view s). fold v.
  destruct (stuck_search n p c Hp Hf Hg) as [H|H].
  - rewrite H. cbn [bind]. rewrite IH; [reflexivity|]. destruct Hf as [j Hf]. apply found in Hf; auto; [tauto|unfold len in *; lia].
  - rewrite H. reflexivity.
Qed.

(** An empty match at the beginning of a non-empty subject. *)
Theorem search_all_stuck : forall n c, 0 < len -> finds opt s f r 0 c -> group c 0 = Some (0, 0) ->
  ctre_search_all opt n s f r = Fuel.
Proof.
  intros n c Hl Hf Hg. unfold ctre_search_all, range_search_all, ri_all, ri_begin. fold v.
  destruct (stuck_search n 0 c Hl Hf Hg) as [H|H]; rewrite H; [|reflexivity]. cbn [bind].
  apply (stuck_loop n 0 c c Hl Hf Hg). destruct Hf as [j Hf]. apply found in Hf; auto; [tauto|lia].
Qed.

Definition advances (c : caps) : Prop :=
  forall b e, group c 0 = Some (b, e) -> b < e \/ e = len.

Lemma advances_loop : forall n m p c l, zero_safe r = true -> p <= len -> matched c = true ->
  ri_loop (exec_search opt n v v f r) v r m (mkRiter p c) = Ok l -> Forall advances (tl l).
Proof.
  intros n. induction m as [|m IH]; intros p c l Hz Hp Hm H; [discriminate|].
  cbn [ri_loop] in H. unfold ri_ne_end in H. cbn [ri_match] in H. rewrite Hm in H.
  apply bind_ok in H as (it & H1 & H). apply bind_ok in H as (l' & H2 & H). injection H as <-. cbn [tl].
  unfold ri_next in H1. cbn [ri_cur v arr_view vend or_ub] in H1.
  destruct (Nat.eqb_spec p (length s)) as [E|E].
  - injection H1 as <-. apply ri_done in H2; [subst; constructor|reflexivity].
  - apply bind_ok in H1 as (c' & H3 & H4). apply search_from in H3; auto.
    destruct H3 as [(Hc & q & e & Q1 & Q2 & Q3 & Q4 & Q5 & Q6 & Q7) | (Hc & Hn & _)];
      unfold ri_advance in H4; rewrite Hc in H4.
    + rewrite Q6 in H4. cbn [or_ub] in H4. injection H4 as <-.
      assert (A : advances c').
      { intros b0 e0 Hg. rewrite Q7 in Hg. injection Hg as <- <-. destruct (Nat.eq_dec e len) as [|Hne]; [auto|].
        destruct (Nat.eq_dec q e) as [->|]; [|left; lia]. exfalso.
        rewrite (stuck_loop n e c' c') in H2; auto; [discriminate|]. unfold len in *. lia. }
      pose proof (listing_loop opt s f r Hw n m e c' l' Hz Q2 Hc H2) as (l'' & -> & _).
      constructor; [assumption|]. apply (IH e c' (c' :: l'')); auto.
    + injection H4 as <-. apply ri_done in H2; [subst; constructor|assumption].
Qed.

Theorem search_all_advances : forall n l, zero_safe r = true -> ctre_search_all opt n s f r = Ok l -> Forall advances l.
Proof.
  intros n l Hz H. unfold ctre_search_all, range_search_all, ri_all, ri_begin in H. fold v in H.
  apply bind_ok in H as (it & H1 & H2). apply bind_ok in H1 as (c' & H3 & H4).
  apply search_from in H3; auto; [|lia].
  destruct H3 as [(Hc & q & e & Q1 & Q2 & Q3 & Q4 & Q5 & Q6 & Q7) | (Hc & Hn & _)];
    unfold ri_advance in H4; rewrite Hc in H4.
  - rewrite Q6 in H4. cbn [or_ub] in H4. injection H4 as <-.
    assert (A : advances c').
    { intros b0 e0 Hg. rewrite Q7 in Hg. injection Hg as <- <-. destruct (Nat.eq_dec e len) as [|Hne]; [auto|].
      destruct (Nat.eq_dec q e) as [->|]; [|left; lia]. exfalso.
      rewrite (stuck_loop n e c' c') in H2; auto; [discriminate|]. unfold len in *. lia. }
    pose proof (listing_loop opt s f r Hw n n e c' l Hz Q2 Hc H2) as (l'' & -> & _).
    constructor; [assumption|]. apply (advances_loop n n e c' (c' :: l'') Hz Q2 Hc H2).
  - injection H4 as <-. apply ri_done in H2; [subst; constructor|assumption].
Qed.
(** An anchored pattern: the end mark left by a failing search is the current position. *)
Lemma anchored_exec : forall n p c, zero_safe r = true -> starts_with_anchor f r = true -> p <= len ->
  misses opt s f r p -> exec_search opt n v v f r p = Ok c -> c = set_end_mark p (fresh r).
Proof.
  intros n p c Hz Ha Hp Hn H. apply search_cases in H; auto. rewrite Ha in H.
  destruct H as [(q & _ & H & Hq & _) | (q & -> & -> & _)]; [|reflexivity].
  rewrite (Hq eq_refl) in H. exfalso. apply (Hn c). exists n. assumption.
Qed.

Lemma anchored_loop : forall n p k c last ps, zero_safe r = true -> starts_with_anchor f r = true -> p < len ->
  misses opt s f r p -> matched c = true ->
  si_loop (exec_search opt n v v f r) v r k (mkSiter p c last) <> Ok ps.
Proof.
  intros n p k. induction k as [|k IH]; intros c last ps Hz Ha Hp Hn Hm H; [discriminate|].
  cbn [si_loop] in H. unfold si_ne_end in H. cbn [si_match] in H. rewrite Hm in H.
  apply bind_ok in H as (it & H1 & H). apply bind_ok in H as (l & H2 & _).
  unfold si_next in H1. cbn [si_cur si_last] in H1. change (vend v p) with (Some (Nat.eqb p (length s))) in H1.
  cbn [or_ub] in H1. destruct (Nat.eqb_spec p (length s)); [unfold len in *; lia|]. cbn [andb] in H1.
  apply bind_ok in H1 as (c' & H1 & H3). apply anchored_exec in H1; auto; [|unfold len in *; lia]. subst c'.
  unfold si_take in H3. change (matched (set_end_mark p (fresh r))) with false in H3. cbv iota in H3.
  unfold match_rest in H3. cbn [c0 s_end set_matched set_start_mark set_end_mark or_ub] in H3. injection H3 as <-.
  revert H2. apply IH; auto.
Qed.

Theorem split_anchored_stuck : forall n ps, zero_safe r = true -> starts_with_anchor f r = true -> 0 < len ->
  (forall c e, finds opt s f r 0 c -> group c 0 = Some (0, e) -> 0 < e < len) ->
  ctre_split opt n s f r <> Ok ps.
Proof.
  intros n ps Hz Ha Hl Hf H. unfold ctre_split, range_split, si_all, si_begin in H. fold v in H.
  apply bind_ok in H as (it & H1 & H). apply bind_ok in H1 as (c & H1 & H2).
  assert (M : forall p, 0 < p -> misses opt s f r p).
  { intros p Hp c' [m Hc]. apply (anchored_nowhere_else opt m s f r p c' Hz Ha) in Hc; [assumption|lia]. }
  apply search_cases in H1; auto; [|lia]. rewrite Ha in H1.
  destruct H1 as [(q & _ & H1 & Hq & _) | (q & -> & -> & H1)]; unfold si_take in H2.
  - rewrite (Hq eq_refl) in H1. pose proof (found opt s f r Hw n 0 c ltac:(lia) H1) as (Hm & e & E1 & E2 & E3 & E4).
    specialize (Hf c e (ex_intro _ n H1) E3). rewrite Hm in H2. unfold modify_match in H2. rewrite E1, E2 in H2.
    cbn [or_ub] in H2. injection H2 as <-. revert H. apply anchored_loop; auto; [lia | apply M; lia].
  - change (matched (set_end_mark 0 (fresh r))) with false in H2. cbv iota in H2.
    unfold match_rest in H2. cbn [c0 s_end set_matched set_start_mark set_end_mark or_ub] in H2. injection H2 as <-.
    revert H. apply anchored_loop; auto. apply (no_misses opt n). assumption.
Qed.
End Ending.

(** * Patterns that always consume *)
Lemma consuming_no_empty : forall opt s f r, forallb CharProofs.val_ok s = true -> sound_fragment opt f r ->
  consuming r = true -> well_numbered r -> no_empty opt s f r.
Proof.
  intros opt s f r Hs Hf Hc Hw p c Hp [n H] Hg.
  pose proof (found opt s f r Hw n p c Hp H) as (_ & e & _ & E2 & E3 & _).
  destruct (starts_sound opt s f r Hs n p c Hf Hp H) as (e' & lg & D & E & _).
  assert (e' = p) by congruence. subst e'. unfold derives in D.
  apply consuming_sem in D; auto. cbn in D. lia.
Qed.
Lemma no_empty_weaken : forall opt s f r, no_empty opt s f r -> no_empty_before_end opt s f r.
Proof. intros opt s f r H p c Hp. apply H. lia. Qed.

(** * Subjects of a range *)
Section Filter.
Variables (subject : Type) (exec : subject -> res caps) (none : caps).
Hypothesis Hnone : matched none = false.

Definition answers (l : list subject) (cs : list caps) : Prop := Forall2 (fun x c => exec x = Ok c) l cs.

Lemma find_first_spec : forall l cs, answers l cs ->
  exists it, find_first subject exec none l = Ok it /\
    match filter matched cs with
    | [] => mi_first subject it = []
    | c :: cs' => mi_result subject it = c /\ exists x l' cs'', mi_first subject it = x :: l' /\ answers l' cs'' /\
        filter matched cs'' = cs' /\ length l' < length l
    end.
Proof.
  intros l cs H. induction H as [|x c l cs Hx Hl IH].
  - exists (mkMiter _ [] none). split; reflexivity.
  - cbn [find_first]. rewrite Hx. cbn [bind filter]. destruct (matched c) eqn:Hm.
    + exists (mkMiter _ (x :: l) c). split; [reflexivity|]. split; [reflexivity|]. exists x, l, cs. cbn. auto.
    + destruct IH as (it & H1 & H2). exists it. split; [assumption|].
      destruct (filter matched cs); [assumption|]. destruct H2 as (H2 & x' & l' & cs'' & H3 & H4 & H5 & H6).
      split; [assumption|]. exists x', l', cs''. cbn. repeat split; auto.
Qed.

Theorem multi_filter : forall l cs, answers l cs ->
  forall m, length l < m -> mi_all subject exec none m l = Ok (filter matched cs).
Proof.
  assert (G : forall k l cs, length l <= k -> answers l cs -> forall m, length l < m ->
    mi_all subject exec none m l = Ok (filter matched cs)).
  2:{ intros l cs H m Hm. apply (G (length l)); auto. }
  induction k as [|k IH]; intros l cs Hk H m Hm.
  - destruct l; [|cbn in Hk; lia]. inversion H. subst. destruct m; [lia|]. reflexivity.
  - unfold mi_all, mi_begin. destruct (find_first_spec l cs H) as (it & H1 & H2). rewrite H1. cbn [bind].
    destruct m as [|m]; [lia|]. cbn [mi_loop]. unfold mi_ne_end, at_last.
    destruct (filter matched cs) as [|c cs'] eqn:E; [rewrite H2; reflexivity|].
    destruct H2 as (H2 & x & l' & cs'' & H3 & H4 & H5 & H6). rewrite H3. cbn [negb].
    unfold mi_next. rewrite H3. specialize (IH l' cs'' ltac:(lia) H4 m ltac:(lia)).
    unfold mi_all, mi_begin in IH. destruct (find_first subject exec none l') as [it'| | | |] eqn:E'; try discriminate.
    cbn [bind] in IH |- *. rewrite IH. cbn [bind]. rewrite H5, H2. reflexivity.
Qed.
End Filter.

(** * Comparing iterators *)
Section Compare.
Variables (s : list Z) (r : re) (exec : nat -> res caps).
Let len := length s.
Let v := arr_view s.
Hypothesis Hp : forall p c, p <= len -> exec p = Ok c -> matched c = true ->
  exists e, s_end (c0 c) = Some e /\ p <= e <= len /\ (p < len -> p < e).

(** An iterator at the end stays there. *)
Definition ended (it : riter) : Prop := ri_cur it = len \/ exec (ri_cur it) = Ok (ri_match it).

Lemma nth_facts : forall k it, ri_nth exec v r k = Ok it -> ri_cur it <= len /\
  (matched (ri_match it) = false -> ended it).
Proof.
  induction k as [|k IH]; intros it H; cbn [ri_nth] in H.
  - unfold ri_begin in H. apply bind_ok in H as (c & H1 & H2). unfold ri_advance in H2.
    destruct (matched c) eqn:Hm.
    + destruct (Hp 0 c ltac:(lia) H1 Hm) as (e & E1 & E2 & _). rewrite E1 in H2. injection H2 as <-. cbn. split; [lia|congruence].
    + injection H2 as <-. cbn. split; [lia|]. intros _. right. assumption.
  - apply bind_ok in H as (a & H1 & H2). destruct (IH a H1) as [I1 I2]. unfold ri_next in H2.
    cbn [v arr_view vend or_ub] in H2. destruct (Nat.eqb_spec (ri_cur a) (length s)) as [E|E].
    + injection H2 as <-. cbn. split; [assumption|]. intros _. left. exact E.
    + apply bind_ok in H2 as (c & H3 & H4). unfold ri_advance in H4. destruct (matched c) eqn:Hm.
      * destruct (Hp (ri_cur a) c I1 H3 Hm) as (e & E1 & E2 & _). rewrite E1 in H4. injection H4 as <-. cbn. split; [lia|congruence].
      * injection H4 as <-. cbn. split; [assumption|]. intros _. right. assumption.
Qed.

Lemma nth_step : forall k b, ri_nth exec v r (S k) = Ok b -> matched (ri_match b) = true ->
  exists a, ri_nth exec v r k = Ok a /\ matched (ri_match a) = true /\ ri_cur a < ri_cur b.
Proof.
  intros k b H Hm. cbn [ri_nth] in H. apply bind_ok in H as (a & H1 & H2). exists a. split; [assumption|].
  destruct (nth_facts k a H1) as [I1 I2]. unfold ri_next in H2. cbn [v arr_view vend or_ub] in H2.
  destruct (Nat.eqb_spec (ri_cur a) (length s)) as [E|E]; [injection H2 as <-; discriminate|].
  apply bind_ok in H2 as (c & H3 & H4). unfold ri_advance in H4. destruct (matched c) eqn:Hc.
  - destruct (Hp (ri_cur a) c I1 H3 Hc) as (e & E1 & E2 & E3). rewrite E1 in H4. injection H4 as <-. cbn [ri_cur].
    split; [|apply E3; unfold len in *; lia].
    destruct (matched (ri_match a)) eqn:Ha; [reflexivity|]. destruct (I2 eq_refl) as [I|I]; [contradiction|]. congruence.
  - injection H4 as <-. change (matched c = true) in Hm. congruence.
Qed.

Lemma nth_increasing : forall k j a b, j < k -> ri_nth exec v r j = Ok a -> ri_nth exec v r k = Ok b ->
  matched (ri_match b) = true -> ri_cur a < ri_cur b.
Proof.
  induction k as [|k IH]; intros j a b Hj Ha Hb Hm; [lia|].
  destruct (nth_step k b Hb Hm) as (a' & H1 & H2 & H3).
  destruct (Nat.eq_dec j k) as [->|]; [assert (a' = a) by congruence; subst; assumption|].
  specialize (IH j a a' ltac:(lia) Ha H1 H2). lia.
Qed.

Theorem iterators_equal : forall j k a b, ri_nth exec v r j = Ok a -> ri_nth exec v r k = Ok b ->
  matched (ri_match a) = true -> matched (ri_match b) = true ->
  (ri_eq a b = true <-> j = k) /\ ri_ne a b = negb (ri_eq a b) /\ (ri_lt a b = true <-> j < k).
Proof.
  intros j k a b Ha Hb Ma Mb. unfold ri_eq, ri_ne, ri_lt. rewrite Nat.eqb_eq, Nat.ltb_lt.
  split; [|split; [reflexivity|]].
  - split; [|intros ->; congruence]. intros E. destruct (lt_eq_lt_dec j k) as [[L|L]|L]; [|assumption|].
    + pose proof (nth_increasing k j a b L Ha Hb Mb). lia.
    + pose proof (nth_increasing j k b a L Hb Ha Ma). lia.
  - destruct (lt_eq_lt_dec j k) as [[L|L]|L].
    + pose proof (nth_increasing k j a b L Ha Hb Mb). split; auto.
    + subst k. assert (a = b) by congruence. subst. split; lia.
    + pose proof (nth_increasing j k b a L Hb Ha Ma). split; lia.
Qed.
End Compare.

Theorem search_iterators_equal : forall opt n s f r j k a b, well_numbered r -> zero_safe r = true ->
  no_empty_before_end opt s f r ->
  ri_nth (exec_search opt n (arr_view s) (arr_view s) f r) (arr_view s) r j = Ok a ->
  ri_nth (exec_search opt n (arr_view s) (arr_view s) f r) (arr_view s) r k = Ok b ->
  matched (ri_match a) = true -> matched (ri_match b) = true ->
  (ri_eq a b = true <-> j = k) /\ ri_ne a b = negb (ri_eq a b) /\ (ri_lt a b = true <-> j < k).
Proof.
  intros opt n s f r j k a b Hw Hz Hn. apply (iterators_equal s r).
  intros p c Hp H Hm. apply search_from in H; auto.
  destruct H as [(_ & q & e & Q1 & Q2 & Q3 & Q4 & Q5 & Q6 & Q7) | (Hc & _)]; [|congruence].
  exists e. split; [assumption|]. split; [lia|]. intros Hlt.
  destruct (Nat.eq_dec q e) as [->|]; [|lia].
  destruct (Nat.eq_dec e (length s)) as [->|]; [assumption|]. exfalso. apply (Hn e c); auto. lia.
Qed.
