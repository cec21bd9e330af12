(** The searches of unicode-db.hpp: they stay inside their tables, and what they find. *)
From Coq Require Import ZArith List Bool Lia ZifyBool ZifyNat.
From Verif Require Import Eval UnicodeData Unicode.
Import ListNotations.
Open Scope Z_scope.

(** * The binary search loop *)
Lemma bound_ext : forall data r1 r2, (forall x, In x data -> r1 x = r2 x) -> bound data r1 = bound data r2.
Proof.
  intros data r1 r2 H. unfold bound.
  enough (E : forall n f c, bound_loop n data r1 f c = bound_loop n data r2 f c) by apply E.
  induction n as [|n IH]; intros f c; cbn [bound_loop]; [reflexivity|].
  destruct c as [|c]; [reflexivity|].
  destruct (nth_error data (f + Nat.div (S c) 2)%nat) as [x|] eqn:E; [|reflexivity].
  rewrite (H x (nth_error_In _ _ E)). destruct (r2 x); apply IH.
Qed.

Lemma half_lt : forall c, (Nat.div (S c) 2 <= c)%nat.
Proof. intros c. pose proof (Nat.div_lt (S c) 2). lia. Qed.

(** The loop ends inside the window; the element it ends on was compared. *)
Lemma bound_loop_total : forall n data right f c, (c < n)%nat -> (f + c <= length data)%nat ->
  exists i, bound_loop n data right f c = Ok i /\ (f <= i <= f + c)%nat /\
    (forall x, (i < f + c)%nat -> nth_error data i = Some x -> right x = false) /\
    (forall x, (f < i)%nat -> nth_error data (i - 1) = Some x -> right x = true).
Proof.
  induction n as [|n IH]; intros data right f c Hn Hl; [lia|]. cbn [bound_loop].
  destruct c as [|c].
  { exists f. split; [reflexivity|]. split; [lia|]. split; intros; lia. }
  pose proof (half_lt c) as Hh. set (st := Nat.div (S c) 2) in *.
  destruct (nth_error data (f + st)) as [x|] eqn:E.
  2:{ apply nth_error_None in E. lia. }
  destruct (right x) eqn:Er.
  - destruct (IH data right (S (f + st)) (S c - (st + 1))%nat) as (i & H1 & H2 & H3 & H4); [lia|lia|].
    exists i. split; [exact H1|]. split; [lia|]. split.
    + intros y Hy Ey. apply H3; [lia|exact Ey].
    + intros y Hy Ey. destruct (Nat.eq_dec i (S (f + st))) as [->|Hne].
      * replace (S (f + st) - 1)%nat with (f + st)%nat in Ey by lia. congruence.
      * apply H4; [lia|exact Ey].
  - destruct (IH data right f st) as (i & H1 & H2 & H3 & H4); [lia|lia|].
    exists i. split; [exact H1|]. split; [lia|]. split.
    + intros y Hy Ey. destruct (Nat.eq_dec i (f + st)) as [->|Hne]; [congruence|]. apply H3; [lia|exact Ey].
    + exact H4.
Qed.
Lemma bound_total : forall data right, exists i, bound data right = Ok i /\ (i <= length data)%nat /\
  (forall x, nth_error data i = Some x -> right x = false) /\
  (forall x, (0 < i)%nat -> nth_error data (i - 1) = Some x -> right x = true).
Proof.
  intros data right. unfold bound.
  destruct (bound_loop_total (S (length data)) data right 0 (length data)) as (i & H1 & H2 & H3 & H4); [lia|lia|].
  exists i. split; [exact H1|]. split; [lia|]. split; [|exact H4].
  intros x E. apply H3; [|exact E]. apply nth_error_Some. congruence.
Qed.

(** * Packed tables *)
(** Nothing is read before the table when the first key is 0. *)
Definition starts_at_zero (data : list Z) : Prop := exists x tl, data = x :: tl /\ key x = 0.

Lemma packed_total : forall data cp, starts_at_zero data -> 0 <= cp ->
  exists i x, packed data cp = Ok i /\ (0 < i <= length data)%nat /\ before data i = Ok x /\
    nth_error data (i - 1) = Some x /\ key x <= cp /\
    (forall y, nth_error data i = Some y -> cp < key y).
Proof.
  intros data cp (x0 & tl & -> & Hk) Hcp. unfold packed.
  destruct (bound_total (x0 :: tl) (fun x => negb (cp <? key x))) as (i & H1 & H2 & H3 & H4).
  assert (Hi : (0 < i)%nat).
  { destruct i as [|i]; [|lia]. specialize (H3 x0 eq_refl). lia. }
  destruct (nth_error (x0 :: tl) (i - 1)) as [x|] eqn:E.
  2:{ apply nth_error_None in E. lia. }
  exists i, x. split; [exact H1|]. split; [lia|]. specialize (H4 x Hi eq_refl). split.
  { unfold before. destruct i as [|j]; [lia|]. replace (S j - 1)%nat with j in E by lia. rewrite E. reflexivity. }
  split; [exact E|]. split; [lia|].
  intros y Ey. specialize (H3 y Ey). lia.
Qed.

(** What a packed table says of a code point: entry [x] is followed by another one and [cp] lies
    between their keys. *)
Definition packed_entry (data : list Z) (cp x : Z) : Prop :=
  exists pre y post, data = pre ++ x :: y :: post /\ key x <= cp < key y.

Lemma nth_split2 : forall (l : list Z) i x y, nth_error l i = Some x -> nth_error l (S i) = Some y ->
  exists pre post, l = pre ++ x :: y :: post /\ length pre = i.
Proof.
  induction l as [|a l IH]; intros i x y H1 H2; [destruct i; discriminate|].
  destruct i as [|i].
  - cbn in H1. injection H1 as ->. destruct l as [|b l]; [discriminate|]. cbn in H2. injection H2 as ->.
    exists [], l. split; reflexivity.
  - cbn [nth_error] in H1. destruct (IH i x y H1 H2) as (pre & post & -> & E). exists (a :: pre), post.
    split; [reflexivity|]. cbn. lia.
Qed.

Fixpoint ascending (l : list Z) : bool :=
  match l with
  | a :: (b :: _) as tl => (a <? b) && ascending tl
  | _ => true
  end.
Lemma ascending_tail : forall a l, ascending (a :: l) = true -> ascending l = true.
Proof. intros a [|b l] H; [reflexivity|]. cbn in H. cbn. lia. Qed.
Lemma ascending_le : forall l a x, ascending (a :: l) = true -> In x l -> a < x.
Proof.
  induction l as [|b l IH]; intros a x H Hx; [contradiction|].
  assert (H' : (a <? b) = true /\ ascending (b :: l) = true) by (cbn in H; cbn; lia). destruct H' as [H1 H2].
  destruct Hx as [->|Hx]; [lia|]. specialize (IH b x H2 Hx). lia.
Qed.
Lemma ascending_app : forall l1 l2 x y, ascending (l1 ++ l2) = true -> In x l1 -> In y l2 -> x < y.
Proof.
  induction l1 as [|a l1 IH]; intros l2 x y H Hx Hy; [contradiction|]. cbn [app] in H.
  destruct Hx as [->|Hx].
  - apply (ascending_le _ _ _ H). apply in_or_app. auto.
  - apply (IH l2 x y); auto. exact (ascending_tail _ _ H).
Qed.

(** At most one entry speaks of a code point when the keys ascend. *)
Lemma packed_entry_unique : forall data cp x x', ascending (map key data) = true ->
  packed_entry data cp x -> packed_entry data cp x' -> x = x'.
Proof.
  intros data cp x x' Ha (pre & y & post & E & H) (pre' & y' & post' & E' & H').
  assert (Hl : length pre = length pre').
  { destruct (lt_eq_lt_dec (length pre) (length pre')) as [[Hlt|He]|Hgt]; [exfalso|exact He|exfalso].
    - assert (key y <= key x').
      { subst data. assert (Hi : nth_error (pre ++ x :: y :: post) (S (length pre)) = Some y).
        { rewrite nth_error_app2 by lia. replace (S (length pre) - length pre)%nat with 1%nat by lia. reflexivity. }
        rewrite E' in Hi. destruct (Nat.eq_dec (S (length pre)) (length pre')) as [He|He].
        - rewrite He, nth_error_app2 in Hi by lia. rewrite Nat.sub_diag in Hi. cbn in Hi. injection Hi as <-. lia.
        - rewrite nth_error_app1 in Hi by lia. apply nth_error_In in Hi.
          rewrite E', map_app in Ha. apply (in_map key) in Hi.
          pose proof (ascending_app _ _ _ (key x') Ha Hi ltac:(left; reflexivity)). lia. }
      lia.
    - assert (key y' <= key x).
      { subst data. assert (Hi : nth_error (pre' ++ x' :: y' :: post') (S (length pre')) = Some y').
        { rewrite nth_error_app2 by lia. replace (S (length pre') - length pre')%nat with 1%nat by lia. reflexivity. }
        rewrite <- E' in Hi. destruct (Nat.eq_dec (S (length pre')) (length pre)) as [He|He].
        - rewrite He, nth_error_app2 in Hi by lia. rewrite Nat.sub_diag in Hi. cbn in Hi. injection Hi as <-. lia.
        - rewrite nth_error_app1 in Hi by lia. apply nth_error_In in Hi.
          rewrite map_app in Ha. apply (in_map key) in Hi.
          pose proof (ascending_app _ _ _ (key x) Ha Hi ltac:(left; reflexivity)). lia. }
      lia. }
  subst data. apply app_inj_tail_iff || idtac.
  assert (Hn : nth_error (pre ++ x :: y :: post) (length pre) = nth_error (pre' ++ x' :: y' :: post') (length pre)) by (rewrite E'; reflexivity).
  rewrite nth_error_app2, Nat.sub_diag in Hn by lia. rewrite nth_error_app2, Hl, Nat.sub_diag in Hn by lia.
  cbn in Hn. congruence.
Qed.

Lemma packed_found : forall data cp, starts_at_zero data -> 0 <= cp ->
  exists i, packed data cp = Ok i /\
    (i = length data \/ (i <> length data /\ exists x, before data i = Ok x /\ packed_entry data cp x)).
Proof.
  intros data cp Hz Hcp. destruct (packed_total data cp Hz Hcp) as (i & x & H1 & H2 & H3 & H4 & H5 & H6).
  exists i. split; [exact H1|]. destruct (Nat.eq_dec i (length data)) as [|Hne]; [left; assumption|right].
  split; [exact Hne|]. exists x. split; [exact H3|].
  destruct (nth_error data i) as [y|] eqn:E.
  2:{ apply nth_error_None in E. lia. }
  specialize (H6 y eq_refl). replace i with (S (i - 1)) in E by lia.
  destruct (nth_split2 data (i - 1) x y H4 E) as (pre & post & Ed & _).
  exists pre, y, post. split; [exact Ed|]. split; [exact H5|exact H6].
Qed.

(** No entry speaks of a code point behind the last key. *)
Lemma packed_none : forall data cp i, ascending (map key data) = true -> starts_at_zero data -> 0 <= cp ->
  packed data cp = Ok i -> i = length data -> forall x, ~ packed_entry data cp x.
Proof.
  intros data cp i Ha Hz Hcp H -> x (pre & y & post & E & Hk).
  destruct (packed_total data cp Hz Hcp) as (j & z & H1 & H2 & H3 & H4 & H5 & H6).
  rewrite H in H1. injection H1 as <-.
  assert (Hz' : key y <= key z); [|lia].
  assert (H4' : nth_error (y :: post) (length post) = Some z).
  { rewrite E in H4. rewrite app_length in H4. cbn [length] in H4. rewrite nth_error_app2 in H4 by lia.
    replace (length pre + S (S (length post)) - 1 - length pre)%nat with (S (length post)) in H4 by lia. exact H4. }
  destruct post as [|w post].
  - cbn in H4'. injection H4' as <-. lia.
  - cbn [length nth_error] in H4'. apply nth_error_In in H4'. subst data. rewrite map_app in Ha.
    assert (Ha' : ascending (map key (y :: w :: post)) = true).
    { revert Ha. clear. induction pre as [|p pre IH]; cbn [map app]; intros H.
      - exact (ascending_tail _ _ H).
      - apply IH. exact (ascending_tail _ _ H). }
    pose proof (ascending_le _ _ _ Ha' (in_map key _ _ H4')). lia.
Qed.

Theorem range_value_spec : forall data cp d, starts_at_zero data -> ascending (map key data) = true -> 0 <= cp ->
  (exists x, packed_entry data cp x /\ range_value data cp d = Ok (low x)) \/
  ((forall x, ~ packed_entry data cp x) /\ range_value data cp d = Ok d).
Proof.
  intros data cp d Hz Ha Hcp. destruct (packed_found data cp Hz Hcp) as (i & H1 & H2). unfold range_value. rewrite H1.
  cbn [bind]. destruct H2 as [->|(Hne & x & H3 & H4)].
  - rewrite Nat.eqb_refl. right. split; [|reflexivity]. exact (packed_none data cp _ Ha Hz Hcp H1 eq_refl).
  - destruct (Nat.eqb_spec i (length data)); [contradiction|]. rewrite H3. cbn [bind]. left. eauto.
Qed.
Theorem range_lookup_spec : forall data cp, starts_at_zero data -> ascending (map key data) = true -> 0 <= cp ->
  exists b, range_lookup data cp = Ok b /\ (b = true <-> exists x, packed_entry data cp x /\ low x <> 0).
Proof.
  intros data cp Hz Ha Hcp. destruct (packed_found data cp Hz Hcp) as (i & H1 & H2). unfold range_lookup. rewrite H1.
  cbn [bind]. destruct H2 as [->|(Hne & x & H3 & H4)].
  - rewrite Nat.eqb_refl. exists false. split; [reflexivity|]. split; [discriminate|].
    intros (x & Hx & _). exfalso. exact (packed_none data cp _ Ha Hz Hcp H1 eq_refl x Hx).
  - destruct (Nat.eqb_spec i (length data)); [contradiction|]. rewrite H3. cbn [bind].
    eexists. split; [reflexivity|]. split.
    + intros Hb. exists x. split; [exact H4|]. lia.
    + intros (x' & Hx' & Hl). rewrite (packed_entry_unique data cp x x' Ha H4 Hx'). lia.
Qed.

(** * Flat tables *)
Lemma binary_search_total : forall data v, exists b, binary_search data v = Ok b.
Proof.
  intros data v. unfold binary_search. destruct (bound_total data (fun x => x <? v)) as (i & H1 & H2 & _). rewrite H1.
  cbn [bind]. destruct (Nat.eqb_spec i (length data)); [eauto|].
  destruct (nth_error data i) eqn:E; [eauto|]. apply nth_error_None in E. lia.
Qed.
Lemma binary_search_sound : forall data v, binary_search data v = Ok true -> In v data.
Proof.
  intros data v. unfold binary_search. destruct (bound_total data (fun x => x <? v)) as (i & H1 & H2 & H3 & _). rewrite H1.
  cbn [bind]. destruct (Nat.eqb_spec i (length data)); [discriminate|].
  destruct (nth_error data i) as [x|] eqn:E; [|discriminate]. intros H. injection H as H. specialize (H3 x eq_refl).
  apply nth_error_In in E. replace v with x by lia. exact E.
Qed.
Lemma ascending_nth : forall data i j x y, ascending data = true -> (i < j)%nat -> nth_error data i = Some x ->
  nth_error data j = Some y -> x < y.
Proof.
  induction data as [|a data IH]; intros i j x y Ha Hij Hi Hj; [destruct i; discriminate|].
  destruct j as [|j]; [lia|]. cbn [nth_error] in Hj. destruct i as [|i].
  - cbn in Hi. injection Hi as <-. exact (ascending_le _ _ _ Ha (nth_error_In _ _ Hj)).
  - cbn [nth_error] in Hi. apply (IH i j x y); auto; [|lia]. exact (ascending_tail _ _ Ha).
Qed.
Lemma binary_search_complete : forall data v, ascending data = true -> In v data -> binary_search data v = Ok true.
Proof.
  intros data v Ha Hin. apply In_nth_error in Hin as (k & Hk). unfold binary_search.
  destruct (bound_total data (fun x => x <? v)) as (i & H1 & H2 & H3 & H4). rewrite H1. cbn [bind].
  assert (i = k); [|subst i].
  { destruct (lt_eq_lt_dec i k) as [[Hlt|He]|Hgt]; [|exact He|].
    - destruct (nth_error data i) as [x|] eqn:E.
      + specialize (H3 x eq_refl). pose proof (ascending_nth _ _ _ _ _ Ha Hlt E Hk). lia.
      + apply nth_error_None in E. assert (k < length data)%nat by (apply nth_error_Some; congruence). lia.
    - destruct (nth_error data (i - 1)) as [x|] eqn:E.
      + specialize (H4 x ltac:(lia) eq_refl). destruct (Nat.eq_dec (i - 1) k) as [He|Hne].
        * rewrite He in E. assert (x = v) by congruence. lia.
        * pose proof (ascending_nth data k (i - 1) _ _ Ha ltac:(lia) Hk E). lia.
      + apply nth_error_None in E. lia. }
  assert (k < length data)%nat by (apply nth_error_Some; congruence).
  destruct (Nat.eqb_spec k (length data)); [lia|]. rewrite Hk. rewrite Z.ltb_irrefl. reflexivity.
Qed.

Theorem flat_lookup_total : forall data u, exists b, flat_lookup data u = Ok b.
Proof. intros data u. unfold flat_lookup. destruct (Nat.ltb _ _); [eauto|apply binary_search_total]. Qed.
(** What is found is listed. *)
Theorem flat_lookup_sound : forall data u, flat_lookup data u = Ok true -> In u data.
Proof.
  intros data u. unfold flat_lookup. destruct (Nat.ltb _ _); [|apply binary_search_sound].
  intros H. injection H as H. apply existsb_exists in H as (x & Hx & E). replace u with x by lia. exact Hx.
Qed.
(** What is listed is found if the table is short, or in ascending order. *)
Theorem flat_lookup_complete : forall data u, (length data < 20)%nat \/ ascending data = true -> In u data ->
  flat_lookup data u = Ok true.
Proof.
  intros data u H Hin. unfold flat_lookup. destruct (Nat.ltb_spec (length data) 20).
  - f_equal. apply existsb_exists. exists u. split; [exact Hin|lia].
  - destruct H as [H|H]; [lia|]. apply binary_search_complete; assumption.
Qed.

(** * Keyed lists *)
Definition value_of (data : list (Z * Z)) (k : Z) : option Z :=
  option_map snd (find (fun p => fst p =? k) data).
Lemma find_nth : forall (data : list (Z * Z)) i k v, ascending (map fst data) = true -> nth_error data i = Some (k, v) ->
  value_of data k = Some v.
Proof.
  induction data as [|[a b] data IH]; intros i k v Ha H; [destruct i; discriminate|]. unfold value_of. cbn [find fst].
  destruct i as [|i].
  - cbn in H. injection H as -> ->. rewrite Z.eqb_refl. reflexivity.
  - cbn [nth_error] in H. cbn [map fst] in Ha. assert (Hlt : a < k).
    { apply (ascending_le _ _ _ Ha). apply nth_error_In in H. apply (in_map fst) in H. exact H. }
    destruct (Z.eqb_spec a k); [lia|]. apply (IH i k v); auto. exact (ascending_tail _ _ Ha).
Qed.
Lemma find_none : forall (data : list (Z * Z)) k, (forall v, ~ In (k, v) data) -> value_of data k = None.
Proof.
  intros data k H. unfold value_of. destruct (find _ data) as [[a b]|] eqn:E; [|reflexivity].
  apply find_some in E as [E1 E2]. cbn in E2. exfalso. apply (H b). replace k with a by lia. exact E1.
Qed.
Lemma lower_found : forall data (k : Z), ascending data = true ->
  exists i, bound data (fun x => x <? k) = Ok i /\ (i <= length data)%nat /\
    (forall j, nth_error data j = Some k -> i = j).
Proof.
  intros data k Ha. destruct (bound_total data (fun x => x <? k)) as (i & H1 & H2 & H3 & H4). exists i.
  split; [exact H1|]. split; [exact H2|]. intros j Hj.
  destruct (lt_eq_lt_dec i j) as [[Hlt|He]|Hgt]; [|exact He|].
  - destruct (nth_error data i) as [x|] eqn:E.
    + specialize (H3 x eq_refl). pose proof (ascending_nth _ _ _ _ _ Ha Hlt E Hj). lia.
    + apply nth_error_None in E. assert (j < length data)%nat by (apply nth_error_Some; congruence). lia.
  - destruct (nth_error data (i - 1)) as [x|] eqn:E.
    + specialize (H4 x ltac:(lia) eq_refl). destruct (Nat.eq_dec (i - 1) j) as [He|Hne].
      * rewrite He in E. assert (x = k) by congruence. lia.
      * pose proof (ascending_nth data j (i - 1) _ _ Ha ltac:(lia) Hj E). lia.
    + apply nth_error_None in E. lia.
Qed.
Theorem numeric_spec : forall data cp, ascending (map fst data) = true -> numeric data cp = Ok (value_of data cp).
Proof.
  intros data cp Ha. unfold numeric. destruct (lower_found (map fst data) cp Ha) as (i & H1 & H2 & H3).
  rewrite H1. cbn [bind]. rewrite map_length in H2.
  assert (Hn : (forall v, nth_error data i <> Some (cp, v)) -> value_of data cp = None).
  { intros H. apply find_none. intros v Hin. apply In_nth_error in Hin as (j & Hj).
    assert (Hj' : nth_error (map fst data) j = Some cp) by (rewrite nth_error_map, Hj; reflexivity).
    rewrite (H3 j Hj') in H. exact (H v Hj). }
  destruct (Nat.eqb_spec i (length data)) as [He|Hne].
  - rewrite Hn; [reflexivity|]. intros v E. assert (i < length data)%nat by (apply nth_error_Some; congruence). lia.
  - destruct (nth_error data i) as [[k v]|] eqn:E.
    + destruct (Z.eqb_spec k cp) as [->|Hk].
      * rewrite (find_nth data i cp v Ha E). reflexivity.
      * rewrite Hn; [reflexivity|]. intros v' H. injection H as -> ->. congruence.
    + apply nth_error_None in E. lia.
Qed.
Theorem list_value_spec : forall data cp d, ascending (map key data) = true ->
  list_value data cp d = Ok (match value_of (map (fun x => (key x, low x)) data) cp with Some v => v | None => d end).
Proof.
  intros data cp d Ha.
  assert (Hk : map fst (map (fun x => (key x, low x)) data) = map key data) by (rewrite map_map; reflexivity).
  pose proof (numeric_spec (map (fun x => (key x, low x)) data) cp ltac:(rewrite Hk; exact Ha)) as H.
  unfold numeric in H. rewrite Hk in H. unfold list_value.
  assert (Hb : forall n f c, bound_loop n (map key data) (fun x => x <? cp) f c = bound_loop n data (fun x => key x <? cp) f c).
  { induction n as [|n IH]; intros f c; cbn [bound_loop]; [reflexivity|]. destruct c; [reflexivity|].
    rewrite nth_error_map. destruct (nth_error data _); cbn [option_map]; [|reflexivity]. destruct (_ <? cp); apply IH. }
  assert (Hb' : bound (map key data) (fun x => x <? cp) = bound data (fun x => key x <? cp)).
  { unfold bound. rewrite map_length. apply Hb. }
  rewrite Hb' in H. destruct (bound data (fun x => key x <? cp)) as [i| | | |]; try discriminate. cbn [bind] in H |- *.
  rewrite map_length in H. destruct (Nat.eqb i (length data)).
  - injection H as <-. reflexivity.
  - rewrite nth_error_map in H. destruct (nth_error data i) as [x|]; [|discriminate]. cbn [option_map] in H.
    destruct (key x =? cp); injection H as <-; reflexivity.
Qed.
