(** The set of points behind the greedy optimisation (C55). *)
From Coq Require Import List ZArith Bool Lia String.
From Verif Require Import Chars Syntax First View Eval Api Parser Spec CharProofs OptProofs PointSet Properties2.
Import ListNotations.
Local Open Scope Z_scope.

(** * C55 *)
(** [collides_array] (PointSet.v) is [collides] with the points in an array of [calculate_size_of_first(rhs) + 1]
    places, where a read or write outside of the array is [UB]. It never is, for any two first sets, and the answer is
    that of [collides] in First.v, which the theorems about the optimisation (C30) use. *)
Theorem C55_capacity : forall rhs lhs, collides_array rhs lhs = match collides rhs lhs with Some b => Ok b | None => Ill end.
Proof. exact collides_array_list. Qed.
Print Assumptions C55_capacity.
(** The points are kept in the order of their lower ends. *)
Theorem C55_sorted : forall l P, populate [] l = Some P ->
  forall i j, (i <= j < List.length P)%nat -> fst (nth i P (0, 0)) <= fst (nth j P (0, 0)).
Proof. intros l P. apply populate_ordered. intros i j H. cbn in H. lia. Qed.
Print Assumptions C55_sorted.
(** [lower_bound] is the first place whose lower end is not below the given one. *)
Theorem C55_lower_bound : forall P low, (forall i j, (i <= j < List.length P)%nat -> fst (nth i P (0, 0)) <= fst (nth j P (0, 0))) ->
  (lower_bound P low <= List.length P)%nat /\
  (forall i, (i < lower_bound P low)%nat -> fst (nth i P (0, 0)) < low) /\
  (forall i, (lower_bound P low <= i < List.length P)%nat -> low <= fst (nth i P (0, 0))).
Proof. intros P low O. split; [apply bound_le|exact (bound_spec P low O)]. Qed.
Print Assumptions C55_lower_bound.
(** [check] on an interval tells whether it meets one of the points. *)
Theorem C55_check : forall P lo hi, lo <= hi -> (forall r, In r P -> fst r <= snd r) ->
  (check_range P lo hi = true <-> exists x r, In r P /\ lo <= x <= hi /\ fst r <= x <= snd r).
Proof.
  intros P lo hi H HP. rewrite check_range_spec by assumption. unfold inside. split.
  - intros (x & H1 & r & I & H2). exists x, r. auto.
  - intros (x & r & I & H1 & H2). exists x. split; [exact H1|]. exists r. auto.
Qed.
Print Assumptions C55_check.
(** Two first sets made of characters, ranges in order, enumerations and sets of these collide exactly when they share a
    character. *)
Theorem C55_exact : forall F G, forallb positive_item F = true -> forallb positive_item G = true ->
  exists b, collides F G = Some b /\
    (b = true <-> exists x i j, In i F /\ In j G /\ has i x = true /\ has j x = true).
Proof.
  intros F G HF HG. destruct (collides_exact F G HF HG) as (b & E & S). exists b. split; [exact E|]. rewrite S. unfold fin. split.
  - intros (x & H1 & H2). apply existsb_exists in H1 as (i & I1 & H1). apply existsb_exists in H2 as (j & I2 & H2). exists x, i, j. auto.
  - intros (x & i & j & I1 & I2 & H1 & H2). exists x. split; apply existsb_exists; eauto.
Qed.
Print Assumptions C55_exact.
(** Without a collision nothing is shared, for first sets of any kind made by the parser and any value of a subject. *)
Theorem C55_sound : forall F G x i j, forallb item_ok F = true -> forallb item_ok G = true -> val_ok x = true -> collides F G = Some false ->
  In i F -> In j G -> has i x = true -> has j x = true -> False.
Proof.
  intros F G x i j HF HG Hx E I J Hi Hj. pose proof (no_collision F G x HF HG Hx E) as K. unfold fin in K.
  assert (A : existsb (fun i => has i x) F = true) by (apply existsb_exists; eauto).
  assert (B : existsb (fun i => has i x) G = true) by (apply existsb_exists; eauto). rewrite (K A) in B. discriminate.
Qed.
Print Assumptions C55_sound.
(** With negative sets the answer can be a collision although nothing is shared: [[^ba]] and [b]. The optimisation is
    then not applied. *)
Theorem C55_negative_refuted : exists F G, collides F G = Some true /\ forall x i j, In i F -> In j G -> has i x = true -> has j x = true -> False.
Proof.
  exists [FCls (CNeg [CChar 98; CChar 97])], [FCls (CChar 98)]. split; [vm_compute; reflexivity|].
  intros x i j [<-|[]] [<-|[]] H1 H2. cbn [has cls_has existsb] in *. rewrite !lit_plain in *. lia.
Qed.
Print Assumptions C55_negative_refuted.

(** * Examples *)
Definition sample : list fitem := [FCls (CSet [CRange 97 122; CChar 48; CEnum [95; 45; 46]]); FCls (CNeg [CRange 0 31; CChar 127])].
Example C55_ex_array : size_of_first sample = 8%nat /\
  populate [] sample = Some [(int64_min, -1); (32, 126); (45, 45); (46, 46); (48, 48); (95, 95); (97, 122); (128, int64_max)] /\
  collides_array sample [FCls (CChar 127)] = Ok false /\ collides_array sample [FCls (CRange 120 300)] = Ok true.
Proof. vm_compute. repeat split; reflexivity. Qed.
(** One place less would not do. *)
Example C55_ex_tight : fill (mkPset (repeat (0, 0) 8) 0) sample <> UB /\ fill (mkPset (repeat (0, 0) 7) 0) sample = UB.
Proof. vm_compute. split; [discriminate|reflexivity]. Qed.
