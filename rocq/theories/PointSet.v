(** The set of points of first.hpp as an array of fixed capacity (C55): writes stay inside of the array, the array
    stays sorted, and the test for a collision is the intersection of intervals. *)
From Coq Require Import List ZArith Bool Lia Arith ZifyBool ZifyNat Sorted.
From Verif Require Import Chars Syntax First View Eval Spec CharProofs OptProofs.
Import ListNotations.
Local Open Scope Z_scope.

(** * The array *)
(** first.hpp lines 301-322: [calculate_size_of_first]. [enumeration] has its own overload; [character], [char_range],
    [negate], the properties and [can_be_anything] go to the one with the ellipsis. *)
Fixpoint size_cls (c : cls) : nat :=
  match c with
  | CChar _ | CRange _ _ | CNegate _ | CProp _ => 1%nat
  | CEnum vs => length vs
  | CSet l => list_sum (map size_cls l)
  | CNeg l => S (list_sum (map size_cls l))
  end.
Definition size_item (i : fitem) : nat := match i with FAny => 1%nat | FCls c => size_cls c end.
Definition size_of_first (l : list fitem) : nat := list_sum (map size_item l).

(** Lines 391-402: [points[Capacity+1]] and [used]. *)
Record pset := mkPset { arr : points; used : nat }.
Definition read (a : points) (i : nat) : res (Z * Z) := match nth_error a i with Some x => Ok x | None => UB end.
Definition write (a : points) (i : nat) (x : Z * Z) : res points :=
  if Nat.ltb i (length a) then Ok (firstn i a ++ x :: skipn (S i) a) else UB.
Definition bind {A B} (x : res A) (k : A -> res B) : res B :=
  match x with Ok a => k a | No => No | Fuel => Fuel | UB => UB | Ill => Ill end.
(** Lines 415-432: [lower_bound]; the result is [it], not [first]. *)
Fixpoint bound_loop (fuel : nat) (a : points) (low : Z) (it first count : nat) : res nat :=
  match fuel with
  | O => Fuel
  | S fuel =>
      if Nat.eqb count 0 then Ok it
      else
        let step := Nat.div count 2 in
        let it := (first + step)%nat in
        bind (read a it) (fun x =>
        if fst x <? low then bound_loop fuel a low (S it) (S it) (count - (step + 1))
        else bound_loop fuel a low it first step)
  end.
(** Lines 440-452: the loop that moves the rest up, and the write behind the old end. *)
Fixpoint move_up (count : nat) (a : points) (it : nat) (obj : Z * Z) : res points :=
  bind (read a it) (fun tmp =>
  bind (write a it obj) (fun a' => match count with O => Ok a' | S count => move_up count a' (S it) tmp end)).
(** Lines 433-460: [insert_point]. *)
Definition insert_array (s : pset) (p : Z * Z) : res pset :=
  bind (bound_loop (S (used s)) (arr s) (fst p) 0 0 (used s)) (fun it =>
  if Nat.eqb it (used s) then bind (write (arr s) it p) (fun a => Ok (mkPset a (S (used s))))
  else bind (move_up (used s - it) (arr s) it p) (fun a => Ok (mkPset a (S (used s))))).
Fixpoint insert_all (s : pset) (l : list (Z * Z)) : res pset :=
  match l with [] => Ok s | p :: l => bind (insert_array s p) (fun s' => insert_all s' l) end.
(** Lines 518-539: [populate]; [Ill]: no overload. *)
Fixpoint fill_cls (s : pset) (c : cls) : res pset :=
  match c with
  | CChar v => insert_array s (v, v)
  | CRange a b => insert_array s (a, b)
  | CEnum vs => insert_all s (map (fun v => (v, v)) vs)
  | CSet l =>
      (fix go (l : list cls) (s : pset) : res pset :=
         match l with [] => Ok s | x :: xs => bind (fill_cls s x) (fun s' => go xs s') end) l s
  | CNeg l => match neg_intervals l with Some o => insert_all s o | None => Ill end
  | CNegate _ | CProp _ => bind (write (arr s) 0 (int64_min, int64_max)) (fun a => Ok (mkPset a 1))
  end.
Fixpoint fill (s : pset) (l : list fitem) : res pset :=
  match l with
  | [] => Ok s
  | FAny :: xs => bind (write (arr s) 0 (int64_min, int64_max)) (fun a => fill (mkPset a 1) xs)
  | FCls c :: xs => bind (fill_cls s c) (fun s' => fill s' xs)
  end.
(** Lines 542-549: [collides], on an array of [calculate_size_of_first(rhs) + 1] points. *)
Definition collides_array (rhs lhs : list fitem) : res bool :=
  bind (fill (mkPset (repeat (0, 0) (S (size_of_first rhs))) 0) rhs) (fun s =>
  match check (firstn (used s) (arr s)) lhs with Some b => Ok b | None => Ill end).

(** * The array holds the list of First.v *)
Definition holds (s : pset) (P R : points) : Prop := arr s = P ++ R /\ used s = length P.
Lemma read_in : forall P R i, (i < length P)%nat -> read (P ++ R) i = Ok (nth i P (0, 0)).
Proof. intros P R i H. unfold read. rewrite nth_error_app1 by assumption. rewrite (nth_error_nth' P (0, 0)) by assumption. reflexivity. Qed.
Lemma bound_loop_list : forall fuel P R low it first count, (count < fuel)%nat -> (first + count <= length P)%nat -> (count = 0%nat -> it = first) ->
  bound_loop fuel (P ++ R) low it first count = Ok (lower_bound_loop fuel P low first count).
Proof.
  induction fuel as [|fuel IH]; intros P R low it first count H1 H2 H3; [lia|]. cbn [bound_loop lower_bound_loop].
  destruct (Nat.eqb_spec count 0) as [->|Hc]; [rewrite H3; reflexivity|].
  assert (Hd : (count / 2 < count)%nat) by (apply Nat.div_lt; lia).
  rewrite read_in by lia. cbn [bind]. destruct (_ <? low).
  - apply IH; [lia|lia|reflexivity].
  - apply IH; [lia|lia|lia].
Qed.
Lemma bound_range : forall fuel P low first count, (first <= lower_bound_loop fuel P low first count <= first + count)%nat.
Proof.
  induction fuel as [|fuel IH]; intros P low first count; cbn [lower_bound_loop]; [lia|].
  destruct (Nat.eqb_spec count 0) as [->|Hc]; [lia|]. assert (Hd : (count / 2 < count)%nat) by (apply Nat.div_lt; lia).
  destruct (_ <? low).
  - specialize (IH P low (S (first + count / 2)) (count - (count / 2 + 1))%nat). lia.
  - specialize (IH P low first (count / 2)%nat). lia.
Qed.
Lemma write_at : forall A B x y, write (A ++ x :: B) (length A) y = Ok (A ++ y :: B).
Proof.
  intros A B x y. unfold write. rewrite app_length. cbn [length]. destruct (Nat.ltb_spec (length A) (length A + S (length B))); [|lia].
  rewrite firstn_app, Nat.sub_diag, firstn_all. cbn [firstn]. rewrite app_nil_r.
  replace (skipn (S (length A)) (A ++ x :: B)) with B; [reflexivity|].
  rewrite skipn_app. replace (S (length A) - length A)%nat with 1%nat by lia. rewrite skipn_all2 by lia. reflexivity.
Qed.
Lemma read_at : forall A B x, read (A ++ x :: B) (length A) = Ok x.
Proof. intros A B x. unfold read. rewrite nth_error_app2, Nat.sub_diag by lia. reflexivity. Qed.
Lemma move_up_list : forall B A y R p, move_up (length B) (A ++ B ++ y :: R) (length A) p = Ok (A ++ p :: B ++ R).
Proof.
  induction B as [|b B IH]; intros A y R p; cbn [length move_up app].
  - rewrite read_at. cbn [bind]. rewrite write_at. reflexivity.
  - rewrite read_at. cbn [bind]. rewrite write_at. cbn [bind].
    replace (A ++ p :: B ++ y :: R) with ((A ++ [p]) ++ B ++ y :: R) by (rewrite <- app_assoc; reflexivity).
    replace (S (length A)) with (length (A ++ [p])) by (rewrite app_length; cbn; lia). rewrite IH, <- app_assoc. reflexivity.
Qed.
Lemma insert_array_list : forall s P y R p, holds s P (y :: R) -> exists s', insert_array s p = Ok s' /\ holds s' (insert_point P p) R.
Proof.
  intros [a u] P y R p [H1 H2]. cbn [arr used] in *. subst a u. unfold insert_array. cbn [arr used].
  rewrite bound_loop_list by (try reflexivity; lia). cbn [bind]. fold (lower_bound P (fst p)). unfold insert_point. cbv zeta. set (i := lower_bound P (fst p)).
  assert (Hi : (i <= length P)%nat) by (pose proof (bound_range (S (length P)) P (fst p) 0 (length P)); unfold i, lower_bound; lia).
  destruct (Nat.eqb_spec i (length P)) as [E|E].
  - rewrite E. rewrite write_at. cbn [bind]. eexists. split; [reflexivity|]. unfold holds. cbn [arr used].
    rewrite firstn_all, skipn_all, <- app_assoc. split; [reflexivity|]. rewrite app_length. cbn. lia.
  - assert (L : length (firstn i P) = i) by (apply firstn_length_le; lia).
    assert (K : length (skipn i P) = (length P - i)%nat) by apply skipn_length.
    pose proof (move_up_list (skipn i P) (firstn i P) y R p) as M. rewrite K, L in M. rewrite app_assoc, firstn_skipn in M. rewrite M.
    cbn [bind]. eexists. split; [reflexivity|]. unfold holds. cbn [arr used]. split; [rewrite <- app_assoc; reflexivity|].
    rewrite app_length. cbn [length]. lia.
Qed.
Lemma insert_all_list : forall o s P R, holds s P R -> (length o <= length R)%nat ->
  exists s' R', insert_all s o = Ok s' /\ holds s' (fold_left insert_point o P) R' /\ (length R <= length R' + length o)%nat.
Proof.
  induction o as [|p o IH]; intros s P R H L; cbn [insert_all fold_left].
  - exists s, R. split; [reflexivity|]. split; [assumption|]. cbn. lia.
  - destruct R as [|y R]; [cbn in L; lia|]. destruct (insert_array_list s P y R p H) as (s1 & E & H1). rewrite E. cbn [bind].
    destruct (IH s1 (insert_point P p) R H1 ltac:(cbn in L; lia)) as (s' & R' & E' & H' & L'). exists s', R'. split; [exact E'|]. split; [exact H'|]. cbn [length]. lia.
Qed.
Lemma neg_range_size : forall a b start, (length (fst (neg_helper_range a b start)) <= 1)%nat.
Proof. intros a b start. unfold neg_helper_range. destruct (start <? a); cbn; lia. Qed.
Lemma neg_enum_size : forall vs start, (length (fst (neg_helper_enum vs start)) <= length vs)%nat.
Proof.
  induction vs as [|v vs IH]; intros start; [cbn; lia|]. cbn [neg_helper_enum]. pose proof (neg_range_size v v start) as H.
  destruct (neg_helper_range v v start) as [o1 s1]. specialize (IH s1). destruct (neg_helper_enum vs s1) as [o2 s2]. cbn [fst] in *. rewrite app_length. cbn [length]. lia.
Qed.
Lemma neg_size : forall c start o s, neg_helper c start = Some (o, s) -> (length o <= size_cls c)%nat.
Proof.
  induction c as [v|a b|l IH|l IH|vs|l IH|t] using cls_ind2; intros start o s H; cbn [neg_helper size_cls] in *; try discriminate.
  - injection H as <- _. destruct (start <? v); cbn; lia.
  - injection H as <- _. destruct (start <? a); cbn; lia.
  - revert start o s H. induction IH as [|x l Hx Hl IHl]; intros start o s H; [injection H as <- _; cbn; lia|].
    destruct (neg_helper x start) as [[o1 s1]|] eqn:E; [|discriminate]. cbn [map list_sum fold_right].
    match type of H with match ?g with _ => _ end = _ => destruct g as [[o2 s2]|] eqn:E2; [|discriminate] end. injection H as <- _.
    apply Hx in E. apply IHl in E2. rewrite app_length. unfold list_sum in E2. lia.
  - injection H as H. pose proof (neg_enum_size vs start) as L. rewrite H in L. exact L.
  - injection H as <- _. cbn. lia.
Qed.
Lemma neg_l_size : forall l start o s, neg_helper_l l start = Some (o, s) -> (length o <= list_sum (map size_cls l))%nat.
Proof.
  induction l as [|x l IH]; intros start o s H; cbn [neg_helper_l] in H; [injection H as <- _; cbn; lia|].
  destruct (neg_helper x start) as [[o1 s1]|] eqn:E; [|discriminate]. destruct (neg_helper_l l s1) as [[o2 s2]|] eqn:E2; [|discriminate].
  injection H as <- _. apply neg_size in E. apply IH in E2. rewrite app_length. cbn [map list_sum fold_right]. unfold list_sum in E2. lia.
Qed.
Lemma intervals_size : forall l o, neg_intervals l = Some o -> (length o <= size_cls (CNeg l))%nat.
Proof.
  intros l o H. unfold neg_intervals in H. destruct (neg_helper_l l int64_min) as [[o1 s]|] eqn:E; [|discriminate]. injection H as <-.
  apply neg_l_size in E. rewrite app_length. cbn [size_cls]. destruct (s <? int64_max); cbn [length]; lia.
Qed.
Lemma reset_list : forall s P R, holds s P R -> (1 <= length R)%nat ->
  exists a R', write (arr s) 0 (int64_min, int64_max) = Ok a /\ holds (mkPset a 1) [(int64_min, int64_max)] R' /\ (length R <= length R' + 1)%nat.
Proof.
  intros [a u] P R [H1 H2] L. cbn [arr used] in *. subst a u. destruct P as [|x P].
  - destruct R as [|y R]; [cbn in L; lia|]. exists ((int64_min, int64_max) :: R), R. split; [apply (write_at [] R y)|]. split; [split; reflexivity|]. cbn. lia.
  - exists ((int64_min, int64_max) :: P ++ R), (P ++ R). split; [apply (write_at [] (P ++ R) x)|]. split; [split; reflexivity|]. rewrite app_length. lia.
Qed.
(** What [fill] leaves: the same list, and room for all but [size] more. *)
Definition filled (x : res pset) (y : option points) (R : points) (k : nat) : Prop :=
  match y with
  | Some P => exists s R', x = Ok s /\ holds s P R' /\ (length R <= length R' + k)%nat
  | None => x = Ill
  end.
Lemma enum_fold : forall vs P, fold_left (fun p v => insert_point p (v, v)) vs P = fold_left insert_point (map (fun v => (v, v)) vs) P.
Proof. induction vs as [|v vs IH]; intros P; cbn [fold_left map]; [reflexivity|]. apply IH. Qed.
Lemma fill_cls_list : forall c s P R, holds s P R -> (size_cls c <= length R)%nat -> filled (fill_cls s c) (populate_cls P c) R (size_cls c).
Proof.
  induction c as [v|a b|l IH|l IH|vs|l IH|t] using cls_ind2; intros s P R H L; cbn [size_cls fill_cls populate_cls filled] in *.
  - destruct R as [|y R]; [cbn in L; lia|]. destruct (insert_array_list s P y R (v, v) H) as (s' & E & H'). exists s', R. split; [exact E|]. split; [exact H'|]. cbn. lia.
  - destruct R as [|y R]; [cbn in L; lia|]. destruct (insert_array_list s P y R (a, b) H) as (s' & E & H'). exists s', R. split; [exact E|]. split; [exact H'|]. cbn. lia.
  - revert s P R H L. induction IH as [|x l Hx Hl IHl]; intros s P R H L.
    + exists s, R. split; [reflexivity|]. split; [assumption|]. cbn. lia.
    + cbn [map list_sum fold_right] in *. fold (list_sum (map size_cls l)) in *.
      pose proof (Hx s P R H ltac:(lia)) as F. destruct (populate_cls P x) as [P1|]; cbn [filled] in F; [|rewrite F; reflexivity].
      destruct F as (s1 & R1 & E1 & H1 & L1). rewrite E1. cbn [bind].
      pose proof (IHl s1 P1 R1 H1 ltac:(lia)) as F.
      match goal with |- filled _ ?g _ _ => destruct g as [P2|] end; cbn [filled] in *; [|exact F].
      destruct F as (s2 & R2 & E2 & H2 & L2). exists s2, R2. split; [exact E2|]. split; [exact H2|]. lia.
  - destruct (neg_intervals l) as [o|] eqn:E; [|reflexivity]. apply intervals_size in E. cbn [size_cls] in E.
    destruct (insert_all_list o s P R H ltac:(lia)) as (s' & R' & E' & H' & L'). exists s', R'. split; [exact E'|]. split; [exact H'|]. lia.
  - rewrite enum_fold. destruct (insert_all_list (map (fun v => (v, v)) vs) s P R H ltac:(rewrite map_length; lia)) as (s' & R' & E' & H' & L').
    rewrite map_length in L'. exists s', R'. split; [exact E'|]. split; [exact H'|]. exact L'.
  - destruct (reset_list s P R H L) as (a & R' & E & H' & L'). rewrite E. cbn [bind]. exists (mkPset a 1), R'. auto.
  - destruct (reset_list s P R H L) as (a & R' & E & H' & L'). rewrite E. cbn [bind]. exists (mkPset a 1), R'. auto.
Qed.
Lemma fill_list : forall l s P R, holds s P R -> (size_of_first l <= length R)%nat -> filled (fill s l) (populate P l) R (size_of_first l).
Proof.
  unfold size_of_first. induction l as [|i l IH]; intros s P R H L; cbn [fill populate].
  - exists s, R. split; [reflexivity|]. split; [assumption|]. cbn. lia.
  - cbn [map list_sum fold_right] in *. fold (list_sum (map size_item l)) in *. destruct i as [c|]; cbn [size_item] in *; swap 1 2.
    + destruct (reset_list s P R H ltac:(lia)) as (a & R' & E & H' & L'). rewrite E. cbn [bind].
      pose proof (IH (mkPset a 1) _ R' H' ltac:(lia)) as F. destruct (populate _ l) as [P2|]; cbn [filled] in *; [|exact F].
      destruct F as (s2 & R2 & E2 & H2 & L2). exists s2, R2. split; [exact E2|]. split; [exact H2|]. lia.
    + pose proof (fill_cls_list c s P R H ltac:(lia)) as F. destruct (populate_cls P c) as [P1|]; cbn [filled] in F; [|rewrite F; reflexivity].
      destruct F as (s1 & R1 & E1 & H1 & L1). rewrite E1. cbn [bind].
      pose proof (IH s1 P1 R1 H1 ltac:(lia)) as F. destruct (populate P1 l) as [P2|]; cbn [filled] in *; [|exact F].
      destruct F as (s2 & R2 & E2 & H2 & L2). exists s2, R2. split; [exact E2|]. split; [exact H2|]. lia.
Qed.
Theorem collides_array_list : forall rhs lhs, collides_array rhs lhs = match collides rhs lhs with Some b => Ok b | None => Ill end.
Proof.
  intros rhs lhs. unfold collides_array, collides.
  pose proof (fill_list rhs (mkPset (repeat (0, 0) (S (size_of_first rhs))) 0) [] (repeat (0, 0) (S (size_of_first rhs))) (conj eq_refl eq_refl)
    ltac:(rewrite repeat_length; lia)) as F.
  destruct (populate [] rhs) as [P|]; cbn [filled] in F; [|rewrite F; reflexivity].
  destruct F as (s & R & E & [H1 H2] & _). rewrite E. cbn [bind]. rewrite H1, H2, firstn_app, Nat.sub_diag, firstn_all. cbn [firstn]. rewrite app_nil_r. reflexivity.
Qed.

(** * The array is sorted *)
Definition ordered (P : points) : Prop := forall i j, (i <= j < length P)%nat -> fst (nth i P (0, 0)) <= fst (nth j P (0, 0)).
Lemma bound_loop_spec : forall fuel P low first count, ordered P -> (count < fuel)%nat -> (first + count <= length P)%nat ->
  (forall i, (i < first)%nat -> fst (nth i P (0, 0)) < low) -> (forall i, (first + count <= i < length P)%nat -> low <= fst (nth i P (0, 0))) ->
  let k := lower_bound_loop fuel P low first count in
  (forall i, (i < k)%nat -> fst (nth i P (0, 0)) < low) /\ (forall i, (k <= i < length P)%nat -> low <= fst (nth i P (0, 0))).
Proof.
  induction fuel as [|fuel IH]; intros P low first count O H1 H2 A B; [lia|]. cbv zeta. cbn [lower_bound_loop].
  destruct (Nat.eqb_spec count 0) as [->|Hc]; [rewrite Nat.add_0_r in B; split; assumption|].
  assert (Hd : (count / 2 < count)%nat) by (apply Nat.div_lt; lia).
  destruct (Z.ltb_spec (fst (nth (first + count / 2) P (0, 0))) low) as [K|K].
  - apply IH; [assumption|lia|lia| |].
    + intros i Hi. pose proof (O i (first + count / 2)%nat ltac:(lia)). lia.
    + intros i Hi. apply B. lia.
  - apply IH; [assumption|lia|lia|assumption|]. intros i Hi. pose proof (O (first + count / 2)%nat i ltac:(lia)). lia.
Qed.
Lemma bound_spec : forall P low, ordered P ->
  (forall i, (i < lower_bound P low)%nat -> fst (nth i P (0, 0)) < low) /\ (forall i, (lower_bound P low <= i < length P)%nat -> low <= fst (nth i P (0, 0))).
Proof. intros P low O. apply bound_loop_spec; [assumption|lia|lia|lia|lia]. Qed.
Lemma bound_le : forall P low, (lower_bound P low <= length P)%nat.
Proof. intros P low. pose proof (bound_range (S (length P)) P low 0 (length P)). unfold lower_bound. lia. Qed.
Lemma insert_nth : forall (P : points) k p i, (k <= length P)%nat ->
  nth i (firstn k P ++ p :: skipn k P) (0, 0) = if Nat.ltb i k then nth i P (0, 0) else if Nat.eqb i k then p else nth (i - 1) P (0, 0).
Proof.
  intros P k p i H. assert (L : length (firstn k P) = k) by (apply firstn_length_le; lia).
  destruct (Nat.ltb_spec i k).
  - rewrite app_nth1 by lia. rewrite <- (firstn_skipn k P) at 2. rewrite app_nth1 by lia. reflexivity.
  - rewrite app_nth2 by lia. rewrite L. destruct (Nat.eqb_spec i k) as [->|N]; [rewrite Nat.sub_diag; reflexivity|].
    replace (i - k)%nat with (S (i - 1 - k)) by lia. cbn [nth]. rewrite <- (firstn_skipn k P) at 2. rewrite app_nth2 by lia. rewrite L. reflexivity.
Qed.
Lemma insert_length : forall P p, length (insert_point P p) = S (length P).
Proof.
  intros P p. unfold insert_point. cbv zeta. rewrite app_length. cbn [length]. rewrite skipn_length, firstn_length_le by apply bound_le. pose proof (bound_le P (fst p)). lia.
Qed.
Lemma insert_ordered : forall P p, ordered P -> ordered (insert_point P p).
Proof.
  intros P p O. destruct (bound_spec P (fst p) O) as [A B]. pose proof (bound_le P (fst p)) as L. pose proof (insert_length P p) as LL.
  intros i j H. rewrite LL in H. unfold insert_point. cbv zeta. set (k := lower_bound P (fst p)) in *. rewrite !insert_nth by assumption.
  destruct (Nat.ltb_spec i k), (Nat.ltb_spec j k); try lia.
  - apply O. lia.
  - destruct (Nat.eqb_spec j k); [pose proof (A i ltac:(assumption)); lia|]. apply O. lia.
  - destruct (Nat.eqb_spec i k), (Nat.eqb_spec j k); try lia.
    + apply B. lia.
    + apply O. lia.
Qed.
Lemma insert_all_ordered : forall o P, ordered P -> ordered (fold_left insert_point o P).
Proof. induction o as [|p o IH]; intros P O; [assumption|]. apply IH, insert_ordered, O. Qed.
Lemma one_ordered : forall p, ordered [p].
Proof. intros p i j H. cbn in H. replace i with 0%nat by lia. replace j with 0%nat by lia. lia. Qed.
Lemma populate_cls_ordered : forall c P P', ordered P -> populate_cls P c = Some P' -> ordered P'.
Proof.
  induction c as [v|a b|l IH|l IH|vs|l IH|t] using cls_ind2; intros P P' O H; cbn [populate_cls] in H.
  - injection H as <-. apply insert_ordered, O.
  - injection H as <-. apply insert_ordered, O.
  - revert P O H. induction IH as [|x l Hx Hl IHl]; intros P O H; [injection H as <-; exact O|].
    destruct (populate_cls P x) as [P1|] eqn:E; [|discriminate]. apply (IHl P1); [exact (Hx _ _ O E)|exact H].
  - destruct (neg_intervals l) as [o|]; [|discriminate]. injection H as <-. apply insert_all_ordered, O.
  - injection H as <-. rewrite enum_fold. apply insert_all_ordered, O.
  - injection H as <-. apply one_ordered.
  - injection H as <-. apply one_ordered.
Qed.
Theorem populate_ordered : forall l P P', ordered P -> populate P l = Some P' -> ordered P'.
Proof.
  induction l as [|i l IH]; intros P P' O H; cbn [populate] in H; [injection H as <-; exact O|]. destruct i as [c|]; swap 1 2.
  - exact (IH _ _ (one_ordered _) H).
  - destruct (populate_cls P c) as [P1|] eqn:E; [|discriminate]. exact (IH _ _ (populate_cls_ordered _ _ _ O E) H).
Qed.

(** * Collisions *)
Lemma check_range_spec : forall P lo hi, lo <= hi -> (forall r, In r P -> fst r <= snd r) ->
  (check_range P lo hi = true <-> exists x, lo <= x <= hi /\ inside P x).
Proof.
  intros P lo hi H HP. unfold check_range. rewrite existsb_exists. split.
  - intros (r & I & E). specialize (HP r I).
    exists (Z.max lo (fst r)). split; [lia|]. exists r. split; [exact I|]. lia.
  - intros (x & H1 & r & I & H2). exists r. split; [exact I|]. lia.
Qed.
(** Sets without negation and properties, with ranges in order. *)
Fixpoint positive (c : cls) : bool :=
  match c with
  | CChar _ => true
  | CRange a b => a <=? b
  | CEnum _ => true
  | CSet l => forallb positive l
  | _ => false
  end.
Definition positive_item (i : fitem) : bool := match i with FAny => false | FCls c => positive c end.
Definition proper (P : points) : Prop := forall r, In r P -> fst r <= snd r.
Lemma lit_plain : forall l x, lit_has false l x = (l =? x).
Proof. intros l x. unfold lit_has, fold_test. cbn. apply orb_false_r. Qed.
Lemma inside_insert : forall P p x, inside (insert_point P p) x <-> (fst p <= x <= snd p) \/ inside P x.
Proof.
  intros P p x. unfold inside. split.
  - intros (r & I & H). apply insert_in in I as [->|I]; eauto.
  - intros [H|(r & I & H)]; eexists; (split; [apply insert_in|]); eauto.
Qed.
Lemma proper_insert : forall P p, proper P -> fst p <= snd p -> proper (insert_point P p).
Proof. intros P p H Hp r I. apply insert_in in I as [->|I]; auto. Qed.
Lemma populate_positive : forall c P, positive c = true -> proper P ->
  exists P', populate_cls P c = Some P' /\ proper P' /\ forall x, inside P' x <-> cls_has false c x = true \/ inside P x.
Proof.
  induction c as [v|a b|l IH|l IH|vs|l IH|t] using cls_ind2; intros P Hc HP; cbn [positive populate_cls cls_has] in *; try discriminate.
  - eexists. split; [reflexivity|]. split; [apply proper_insert; [assumption|cbn; lia]|]. intros x. rewrite inside_insert, lit_plain. cbn [fst snd]. rewrite Z.eqb_eq. intuition lia.
  - eexists. split; [reflexivity|]. split; [apply proper_insert; [assumption|cbn; lia]|]. intros x. rewrite inside_insert. cbn [fst snd].
    unfold fold_test. cbn [andb]. rewrite orb_false_r, andb_true_iff, !Z.leb_le. tauto.
  - revert P Hc HP. induction IH as [|y l Hy Hl IHl]; intros P Hc HP.
    + exists P. split; [reflexivity|]. split; [assumption|]. intros x. cbn [existsb]. intuition discriminate.
    + cbn [forallb] in Hc. apply andb_true_iff in Hc as [C1 C2]. destruct (Hy P C1 HP) as (P1 & E1 & H1 & S1). rewrite E1.
      destruct (IHl P1 C2 H1) as (P2 & E2 & H2 & S2). exists P2. split; [exact E2|]. split; [exact H2|]. intros x. rewrite S2, S1. cbn [existsb]. rewrite orb_true_iff. tauto.
  - clear Hc. revert P HP. induction vs as [|v vs IH]; intros P HP; cbn [fold_left].
    + exists P. split; [reflexivity|]. split; [assumption|]. intros x. cbn [existsb]. intuition discriminate.
    + destruct (IH (insert_point P (v, v))) as (P2 & E2 & H2 & S2); [apply proper_insert; [assumption|cbn; lia]|]. exists P2. split; [exact E2|]. split; [exact H2|].
      intros x. rewrite S2, inside_insert. cbn [existsb fst snd]. rewrite orb_true_iff, lit_plain, Z.eqb_eq. intuition lia.
Qed.
Lemma populate_items : forall l P, forallb positive_item l = true -> proper P ->
  exists P', populate P l = Some P' /\ proper P' /\ forall x, inside P' x <-> fin l x = true \/ inside P x.
Proof.
  induction l as [|i l IH]; intros P Hl HP; cbn [populate].
  - exists P. split; [reflexivity|]. split; [assumption|]. intros x. cbn. intuition discriminate.
  - cbn [forallb] in Hl. apply andb_true_iff in Hl as [C1 C2]. destruct i as [c|]; [|discriminate]. cbn [positive_item] in C1.
    destruct (populate_positive c P C1 HP) as (P1 & E1 & H1 & S1). rewrite E1. destruct (IH P1 C2 H1) as (P2 & E2 & H2 & S2).
    exists P2. split; [exact E2|]. split; [exact H2|]. intros x. rewrite S2, S1. unfold fin. cbn [existsb has]. rewrite orb_true_iff. tauto.
Qed.
Lemma check_positive : forall c P, positive c = true -> proper P ->
  exists b, check_cls P c = Some b /\ (b = true <-> exists x, cls_has false c x = true /\ inside P x).
Proof.
  induction c as [v|a b|l IH|l IH|vs|l IH|t] using cls_ind2; intros P Hc HP; cbn [positive check_cls cls_has] in *; try discriminate.
  - eexists. split; [reflexivity|]. rewrite check_range_spec by (lia || assumption). split; intros (x & H1 & H2); exists x; (split; [|exact H2]); rewrite ?lit_plain in *; lia.
  - eexists. split; [reflexivity|]. rewrite check_range_spec by (lia || assumption). split; intros (x & H1 & H2); exists x; (split; [|exact H2]);
      unfold fold_test in *; cbn [andb] in *; lia.
  - revert Hc. induction IH as [|y l Hy Hl IHl]; intros Hc.
    + exists false. split; [reflexivity|]. split; [discriminate|]. intros (x & H & _). discriminate.
    + cbn [forallb] in Hc. apply andb_true_iff in Hc as [C1 C2]. destruct (Hy P C1 HP) as (b1 & E1 & S1). destruct (IHl C2) as (b2 & E2 & S2).
      rewrite E1, E2. eexists. split; [reflexivity|]. rewrite orb_true_iff, S1, S2. cbn [existsb]. split.
      * intros [(x & H1 & H2)|(x & H1 & H2)]; exists x; rewrite H1, ?orb_true_r; auto.
      * intros (x & H1 & H2). apply orb_true_iff in H1 as [H1|H1]; eauto.
  - eexists. split; [reflexivity|]. rewrite existsb_exists. split.
    + intros (v & I & H). apply check_range_spec in H as (x & H1 & H2); [|lia|assumption]. exists x. split; [|exact H2]. apply existsb_exists.
      exists v. split; [exact I|]. rewrite lit_plain. lia.
    + intros (x & H1 & H2). apply existsb_exists in H1 as (v & I & H1). rewrite lit_plain in H1. exists v. split; [exact I|].
      apply check_range_spec; [lia|assumption|]. exists x. split; [lia|exact H2].
Qed.
Lemma check_items : forall l P, forallb positive_item l = true -> proper P ->
  exists b, check P l = Some b /\ (b = true <-> exists x, fin l x = true /\ inside P x).
Proof.
  induction l as [|i l IH]; intros P Hl HP; cbn [check].
  - exists false. split; [reflexivity|]. split; [discriminate|]. intros (x & H & _). discriminate.
  - cbn [forallb] in Hl. apply andb_true_iff in Hl as [C1 C2]. destruct i as [c|]; [|discriminate]. cbn [positive_item] in C1.
    destruct (check_positive c P C1 HP) as (b1 & E1 & S1). destruct (IH P C2 HP) as (b2 & E2 & S2). rewrite E1, E2. eexists. split; [reflexivity|].
    rewrite orb_true_iff, S1, S2. unfold fin. cbn [existsb has]. split.
    + intros [(x & H1 & H2)|(x & H1 & H2)]; exists x; rewrite H1, ?orb_true_r; auto.
    + intros (x & H1 & H2). apply orb_true_iff in H1 as [H1|H1]; eauto.
Qed.
Theorem collides_exact : forall F G, forallb positive_item F = true -> forallb positive_item G = true ->
  exists b, collides F G = Some b /\ (b = true <-> exists x, fin F x = true /\ fin G x = true).
Proof.
  intros F G HF HG. unfold collides. destruct (populate_items F [] HF ltac:(intros r [])) as (P & E & HP & S1). rewrite E.
  destruct (check_items G P HG HP) as (b & E2 & S2). exists b. split; [exact E2|]. rewrite S2. split; intros (x & H1 & H2); exists x.
  - split; [|exact H1]. apply S1 in H2 as [H2|(r & [] & _)]. exact H2.
  - split; [exact H2|]. apply S1. left. exact H1.
Qed.
