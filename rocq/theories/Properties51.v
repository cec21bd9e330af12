(** C80: the lists of types. TypeList.v has the functions; the specifications here are those of lists and finite sets of the standard library. *)
From Coq Require Import List Bool Arith.
From Verif Require Import TypeList.
Import ListNotations.

(** Which types are the same, and which convert: a type converts to itself. *)
Definition types {A} (eqb conv : A -> A -> bool) : Prop := (forall x y, eqb x y = true <-> x = y) /\ forall x, conv x x = true.

(** "rotate" reverses the list, and reversing twice gives the list back. *)
Theorem C80_rotate : forall A (l : list A), l_rotate l = rev l /\ l_rotate (l_rotate l) = l.
Proof. intros A l. rewrite !rotate_rev. split; [reflexivity|apply rev_involutive]. Qed.
Print Assumptions C80_rotate.
(** The front and the rest. *)
Theorem C80_front : forall A (l : list A) d, l_pop_and_get_front l d = (l_front l d, l_pop_front l) /\
  (l_empty l = true <-> l_size l = 0) /\ (l_empty l = false -> l_push_front (l_front l d) (l_pop_front l) = l) /\
  forall m, l_size (l_concat l m) = l_size l + l_size m.
Proof. intros A [|x l] d; repeat split; intros; cbn in *; try discriminate; try reflexivity. unfold l_size, l_concat. rewrite <- app_length. reflexivity. Qed.
Print Assumptions C80_front.
(** Adding keeps a list without repetitions so and loses nothing; after it the type is found; adding twice is adding once. *)
Theorem C80_add : forall A (eqb conv : A -> A -> bool), types eqb conv -> forall x l,
  (NoDup l -> NoDup (l_add_item conv x l)) /\ incl l (l_add_item conv x l) /\ incl (l_add_item conv x l) (l ++ [x]) /\
  l_exists_in conv x (l_add_item conv x l) = true /\ l_add_item conv x (l_add_item conv x l) = l_add_item conv x l.
Proof.
  intros A eqb conv [E R] x l. split; [apply (add_nodup eqb); exact R|]. split; [intros y; apply add_old|]. split; [|split; [apply (add_exists eqb); exact R|apply (add_idem eqb); exact R]].
  unfold l_add_item. destruct (l_exists_in conv x l); [apply incl_appl|]; apply incl_refl.
Qed.
Print Assumptions C80_add.
(** Removing takes out that type, all of it and nothing else, and keeps the order. *)
Theorem C80_remove : forall A (eqb conv : A -> A -> bool), types eqb conv -> forall x l,
  (forall y, In y (l_remove_item eqb x l) <-> In y l /\ y <> x) /\ exists p, l_remove_item eqb x l = filter p l.
Proof. intros A eqb conv [E R] x l. split; [intros y; apply remove_in; exact E|]. eexists. apply remove_filter. Qed.
Print Assumptions C80_remove.
(** When nothing else converts, these are the operations of finite sets ... *)
Theorem C80_sets : forall A (eqb : A -> A -> bool), types eqb eqb -> forall x l,
  (l_exists_in eqb x l = true <-> In x l) /\ (forall y, In y (l_add_item eqb x l) <-> In y l \/ y = x) /\ l_exists_in eqb x (l_remove_item eqb x l) = false.
Proof.
  intros A eqb [E R] x l.
  assert (X : forall m, l_exists_in eqb x m = true <-> In x m).
  { intros m. rewrite (exists_in_spec eqb eqb). split; [intros (y & I & H); apply E in H; rewrite H; exact I|intros I; exists x; split; [exact I|apply R]]. }
  split; [apply X|]. split.
  - intros y. unfold l_add_item. destruct (l_exists_in eqb x l) eqn:F.
    + apply X in F. split; [tauto|]. intros [I|Q]; [exact I|rewrite Q; exact F].
    + rewrite in_app_iff. cbn. intuition congruence.
  - destruct (l_exists_in eqb x (l_remove_item eqb x l)) eqn:F; [|reflexivity]. apply X in F. apply (remove_in eqb E) in F as [_ F]. destruct (F eq_refl).
Qed.
Print Assumptions C80_sets.
(** ... and otherwise they are not: with a type that converts to [x] in the list, [x] is not added, and removing [x] leaves it to be found. *)
Theorem C80_sets_refuted : exists (A : Type) (eqb conv : A -> A -> bool) x l, types eqb conv /\
  ~ In x (l_add_item conv x l) /\ l_exists_in conv x (l_remove_item eqb x l) = true.
Proof.
  exists bool, Bool.eqb, (fun x y => Bool.eqb x y || (x && negb y)), true, [false]. split; [split|split].
  - intros x y. apply Bool.eqb_true_iff.
  - intros []; reflexivity.
  - vm_compute. intros [H|[]]. discriminate H.
  - vm_compute. reflexivity.
Qed.
Print Assumptions C80_sets_refuted.

Example C80_ex : l_rotate [1; 2; 3] = [3; 2; 1] /\ l_add_item Nat.eqb 2 [1; 2; 3] = [1; 2; 3] /\ l_add_item Nat.eqb 4 [1; 2; 3] = [1; 2; 3; 4] /\
  l_remove_item Nat.eqb 2 [1; 2; 3; 2] = [1; 3] /\ l_pop_and_get_front [1; 2] 7 = (1, [2]) /\ l_pop_and_get_front [] 7 = (7, []).
Proof. vm_compute. repeat split. Qed.
Example C80_ex_types : types Nat.eqb Nat.eqb /\ types Nat.eqb Nat.leb.
Proof. split; (split; [exact Nat.eqb_eq|]); [exact Nat.eqb_refl|exact Nat.leb_refl]. Qed.
