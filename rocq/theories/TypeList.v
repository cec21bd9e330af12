(** The type lists of ctll. Source: /repo/include/ctll/list.hpp lines 8-89.
    A type is an element of [A], [eqb] says whether two types are the same, and [conv x y] whether a value of the type [y] converts implicitly to the type
    [x] (a derived class to its base, for example); every type converts to itself. Values are not modelled: all these types are empty structures.
    [pop_front] of the empty list (line 33) is declared without a body, so it has a type and no value. *)
From Coq Require Import List Bool Arith Lia.
Import ListNotations.

Section Lists.
Context {A : Type} (eqb conv : A -> A -> bool).

(** list.hpp 15: [sizeof...(Ts)]. *)
Definition l_size (l : list A) : nat := length l.
(** list.hpp 19-20: the overload for [empty_list] is no template and is preferred. *)
Definition l_empty (l : list A) : bool := match l with [] => true | _ => false end.
(** list.hpp 24. *)
Definition l_concat (l m : list A) : list A := l ++ m.
(** list.hpp 28. *)
Definition l_push_front (x : A) (l : list A) : list A := x :: l.
(** list.hpp 32-33: the type of the result. *)
Definition l_pop_front (l : list A) : list A := match l with [] => [] | _ :: l' => l' end.
(** list.hpp 42-43: [d] is the type given for the front of an empty list. *)
Definition l_pop_and_get_front (l : list A) (d : A) : A * list A := match l with [] => (d, []) | x :: l' => (x, l') end.
(** list.hpp 47-48. *)
Definition l_front (l : list A) (d : A) : A := match l with [] => d | x :: _ => x end.
(** list.hpp 51-57: a left fold, each step puts the next type in front (line 52). *)
Definition l_rotate (l : list A) : list A := fold_left (fun acc x => x :: acc) l [].

(** list.hpp 68-69: [check(T)] takes whatever converts to [T], otherwise the ellipsis is chosen. *)
Definition l_check (x y : A) : bool := conv x y.
(** list.hpp 70-71: for a type other than [T] the template fits exactly and is preferred to a conversion; for [T] itself the function that is no template is. *)
Definition l_select (x y : A) : option A := if eqb x y then None else Some y.
(** list.hpp 61-66: [operator+] of [not_selected] and of [wrapper]. *)
Definition l_plus (l : list A) (o : option A) : list A := match o with None => l | Some y => l ++ [y] end.
(** list.hpp 74-76: a right fold over [||]. *)
Definition l_exists_in (x : A) (l : list A) : bool := fold_right (fun y b => l_check x y || b) false l.
(** list.hpp 78-84. *)
Definition l_add_item (x : A) (l : list A) : list A := if l_exists_in x l then l else l ++ [x].
(** list.hpp 86-89: a left fold. *)
Definition l_remove_item (x : A) (l : list A) : list A := fold_left (fun acc y => l_plus acc (l_select x y)) l [].

Lemma rotate_rev : forall l, l_rotate l = rev l.
Proof.
  intros l. unfold l_rotate. rewrite <- (app_nil_r (rev l)). generalize (@nil A). induction l as [|x l IH]; intros acc; [reflexivity|].
  cbn [fold_left rev]. rewrite IH, <- app_assoc. reflexivity.
Qed.
Lemma exists_in_spec : forall x l, l_exists_in x l = true <-> exists y, In y l /\ conv x y = true.
Proof.
  intros x l. induction l as [|y l IH]; cbn [l_exists_in fold_right].
  - split; [discriminate|]. intros (y & [] & _).
  - rewrite orb_true_iff. fold (l_exists_in x l). rewrite IH. unfold l_check. split.
    + intros [H|(z & I & H)]; [exists y|exists z]; cbn; tauto.
    + intros (z & [<-|I] & H); [left; exact H|right; exists z; tauto].
Qed.
Lemma remove_filter : forall x l, l_remove_item x l = filter (fun y => negb (eqb x y)) l.
Proof.
  intros x l. unfold l_remove_item. change (filter (fun y => negb (eqb x y)) l) with ([] ++ filter (fun y => negb (eqb x y)) l).
  generalize (@nil A). induction l as [|y l IH]; intros acc; cbn [fold_left filter]; [symmetry; apply app_nil_r|].
  rewrite IH. unfold l_select. destruct (eqb x y); cbn [negb l_plus]; [reflexivity|]. rewrite <- app_assoc. reflexivity.
Qed.

Hypothesis eqb_spec : forall x y, eqb x y = true <-> x = y.
Lemma remove_in : forall x y l, In y (l_remove_item x l) <-> In y l /\ y <> x.
Proof.
  intros x y l. rewrite remove_filter, filter_In, negb_true_iff. split; intros [I H]; split; try exact I.
  - intros ->. assert (E : eqb x x = true) by (apply eqb_spec; reflexivity). congruence.
  - destruct (eqb x y) eqn:E; [apply eqb_spec in E; congruence|reflexivity].
Qed.
Hypothesis conv_refl : forall x, conv x x = true.
Lemma add_old : forall x y l, In y l -> In y (l_add_item x l).
Proof. intros x y l I. unfold l_add_item. destruct (l_exists_in x l); [exact I|]. apply in_or_app. left. exact I. Qed.
Lemma add_nodup : forall x l, NoDup l -> NoDup (l_add_item x l).
Proof.
  intros x l N. unfold l_add_item. destruct (l_exists_in x l) eqn:E; [exact N|].
  assert (M : ~ In x l). { intros I. rewrite (proj2 (exists_in_spec x l)) in E; [discriminate E|]. exists x. split; [exact I|apply conv_refl]. }
  clear E. induction l as [|y l IH]; cbn [app]; [constructor; [intros []|constructor]|].
  inversion N as [|? ? Ny Nl]; subst. constructor.
  - intros I. apply in_app_or in I as [I|[<-|[]]]; [exact (Ny I)|]. apply M. left. reflexivity.
  - apply IH; [exact Nl|]. intros I. apply M. right. exact I.
Qed.
Lemma add_exists : forall x l, l_exists_in x (l_add_item x l) = true.
Proof.
  intros x l. unfold l_add_item. destruct (l_exists_in x l) eqn:E; [exact E|]. apply exists_in_spec. exists x. split; [|apply conv_refl].
  apply in_or_app. right. left. reflexivity.
Qed.
Lemma add_idem : forall x l, l_add_item x (l_add_item x l) = l_add_item x l.
Proof. intros x l. unfold l_add_item at 1. rewrite add_exists. reflexivity. Qed.
End Lists.
