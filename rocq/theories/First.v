(** Greedy-to-possessive optimisation: first sets and their collision test.
    Source: /repo/include/ctre/first.hpp. *)
From Coq Require Import List ZArith NArith Bool.
From Verif Require Import Chars Syntax.
Import ListNotations.
Local Open Scope Z_scope.

(** Elements of the computed type list: a character-like atom or [can_be_anything] (line 8). *)
Inductive fitem := FCls (c : cls) | FAny.

(** first.hpp lines 244-293: contribution of a character-like atom. A property answers
    [can_be_anything] alone and forgets what was collected before. *)
Definition first_cls (c : cls) (acc : list fitem) : list fitem :=
  match c with
  | CChar _ | CRange _ _ => acc ++ [FCls c]
  | CEnum vs => acc ++ map (fun v => FCls (CChar v)) vs
  | CSet l => acc ++ map FCls l
  | CNeg l | CNegate l => acc ++ [FCls (CNeg l)]
  | CProp _ => [FAny]
  end.

Definition is_optional (k : rkind) (a b : N) : bool :=
  match k with
  | Possessive => false
  | _ => N.eqb a 0 && N.eqb b 1
  end.

(** first.hpp lines 11-298: [first(l, list<r, Tail...>)]. [k] computes [first(_, list<Tail...>)].
    [None]: no overload exists (mode_switch, not_boundary, reject), the program is ill-formed. *)
Fixpoint first_re (r : re) (k : list fitem -> option (list fitem)) (acc : list fitem)
  : option (list fitem) :=
  let first_l := fix first_l (l : list re) (k : list fitem -> option (list fitem))
                             (acc : list fitem) : option (list fitem) :=
    match l with
    | [] => k acc
    | x :: xs => first_re x (first_l xs k) acc
    end in
  match r with
  | RCls c => Some (first_cls c acc)
  | RAny => Some [FAny]
  | RStr [] => k acc
  | RStr (x :: _) => Some (acc ++ [FCls (CChar x)])
  | RSelect l =>
      (fix go (l : list re) (acc : list fitem) : option (list fitem) :=
         match l with
         | [] => Some acc
         | x :: xs => match first_re x k acc with Some acc' => go xs acc' | None => None end
         end) l acc
  | RSeq l => first_l l k acc
  | REmpty => k acc
  | RReject => None
  | RRep kd a b l =>
      if is_optional kd a b then
        match first_l l k acc with Some acc' => k acc' | None => None end
      else if N.eqb a 0 then
        match k acc with Some acc' => first_l l k acc' | None => None end
      else first_l l k acc
  | RCap _ l | RNCap _ _ l => first_l l k acc
  | RBack _ | RNBack _ | RAhead _ _ | RBehind _ _ => Some [FAny]
  | RAtomic l => first_l l k acc
  | RBound _ => k acc
  | RNotBound _ => None
  | RAssert ASubjectBegin | RAssert ALineBegin => k acc
  | RAssert _ => Some acc
  | RMode _ => None
  end.

Fixpoint first_l (l : list re) (k : list fitem -> option (list fitem)) (acc : list fitem)
  : option (list fitem) :=
  match l with
  | [] => k acc
  | x :: xs => first_re x (first_l xs k) acc
  end.

Definition first_atom (a : atom) (k : list fitem -> option (list fitem)) (acc : list fitem)
  : option (list fitem) :=
  match a with
  | AR r => first_re r k acc
  | AAccept | AEnd | AEndCycle | AEndAhead => Some acc
  | ANum _ => k acc
  | AStart | AEndBehind => None
  end.

(** [first(acc, stack)]. *)
Fixpoint first_stack (l : list atom) (acc : list fitem) : option (list fitem) :=
  match l with
  | [] => Some acc
  | a :: tl => first_atom a (first_stack tl) acc
  end.

(** first.hpp lines 295-298: [calculate_first(Content{}...)]. *)
Definition calculate_first (l : list atom) : option (list fitem) := first_stack l [].

Definition int64_min : Z := -9223372036854775808.
Definition int64_max : Z := 9223372036854775807.

(** [V+1] in the type of the literal ([char] promotes to [int], [char32_t] wraps). *)
Definition succ_lit (v : Z) : Z := if v <? 128 then v + 1 else u32 (v + 1).

(** first.hpp lines 391-464: [point_set], a sorted array of intervals. *)
Definition points := list (Z * Z).

(** lines 415-432: [lower_bound]; [fuel] bounds the halving loop ([length pts + 1] is enough). *)
Fixpoint lower_bound_loop (fuel : nat) (pts : points) (low : Z) (first count : nat) : nat :=
  match fuel with
  | O => first
  | S fuel' =>
      if Nat.eqb count 0 then first
      else
        let step := Nat.div count 2 in
        let it := (first + step)%nat in
        if fst (nth it pts (0, 0)) <? low
        then lower_bound_loop fuel' pts low (S it) (count - (step + 1))
        else lower_bound_loop fuel' pts low first step
  end.

Definition lower_bound (pts : points) (low : Z) : nat :=
  lower_bound_loop (S (length pts)) pts low 0 (length pts).

(** lines 433-464: [insert_point] / [insert] shift the elements from the insertion point. *)
Definition insert_point (pts : points) (p : Z * Z) : points :=
  let i := lower_bound pts (fst p) in firstn i pts ++ p :: skipn i pts.

(** lines 465-478: [check(low, high)]. *)
Definition check_range (pts : points) (low high : Z) : bool :=
  existsb (fun r =>
    ((fst r <=? low) && (low <=? snd r)) || ((fst r <=? high) && (high <=? snd r))
    || ((low <=? fst r) && (fst r <=? high)) || ((low <=? snd r) && (snd r <=? high))) pts.

(** lines 324-376: [negative_helper] of one element of a negative set: intervals handed to the
    callback and the new start. [None]: no (non-void) overload, for a nested negation. *)
Definition neg_helper_range (a b start : Z) : list (Z * Z) * Z :=
  (if start <? a then [(start, a - 1)] else [], succ_lit b).

Fixpoint neg_helper_enum (vs : list Z) (start : Z) : list (Z * Z) * Z :=
  match vs with
  | [] => ([], start)
  | v :: vs' =>
      let (o1, s1) := neg_helper_range v v start in
      let (o2, s2) := neg_helper_enum vs' s1 in (o1 ++ o2, s2)
  end.

Fixpoint neg_helper (c : cls) (start : Z) : option (list (Z * Z) * Z) :=
  match c with
  | CChar v => Some (neg_helper_range v v start)
  | CRange a b => Some (neg_helper_range a b start)
  | CEnum vs => Some (neg_helper_enum vs start)
  | CSet l =>
      (fix go (l : list cls) (start : Z) : option (list (Z * Z) * Z) :=
         match l with
         | [] => Some ([], start)
         | x :: xs =>
             match neg_helper x start with
             | None => None
             | Some (o1, s1) =>
                 match go xs s1 with None => None | Some (o2, s2) => Some (o1 ++ o2, s2) end
             end
         end) l start
  | CNeg _ | CNegate _ => None
  | CProp _ => Some ([], start)
  end.

Fixpoint neg_helper_l (l : list cls) (start : Z) : option (list (Z * Z) * Z) :=
  match l with
  | [] => Some ([], start)
  | x :: xs =>
      match neg_helper x start with
      | None => None
      | Some (o1, s1) =>
          match neg_helper_l xs s1 with None => None | Some (o2, s2) => Some (o1 ++ o2, s2) end
      end
  end.

(** lines 378-387: the intervals reported for a whole negative set. *)
Definition neg_intervals (l : list cls) : option (list (Z * Z)) :=
  match neg_helper_l l int64_min with
  | None => None
  | Some (o, s) => Some (o ++ (if s <? int64_max then [(s, int64_max)] else []))
  end.

(** lines 518-539: [populate]. Everything without an overload (can_be_anything, property, negate)
    goes to [populate(...)], which replaces the whole set by one full interval. *)
Fixpoint populate_cls (pts : points) (c : cls) : option points :=
  match c with
  | CChar v => Some (insert_point pts (v, v))
  | CRange a b => Some (insert_point pts (a, b))
  | CEnum vs => Some (fold_left (fun p v => insert_point p (v, v)) vs pts)
  | CSet l =>
      (fix go (l : list cls) (pts : points) : option points :=
         match l with
         | [] => Some pts
         | x :: xs => match populate_cls pts x with Some pts' => go xs pts' | None => None end
         end) l pts
  | CNeg l =>
      match neg_intervals l with
      | Some o => Some (fold_left insert_point o pts)
      | None => None
      end
  | CNegate _ | CProp _ => Some [(int64_min, int64_max)]
  end.

Fixpoint populate (pts : points) (l : list fitem) : option points :=
  match l with
  | [] => Some pts
  | FAny :: xs => populate [(int64_min, int64_max)] xs
  | FCls c :: xs => match populate_cls pts c with Some pts' => populate pts' xs | None => None end
  end.

(** lines 481-515: [check]. [None]: there is no overload for [negate]. *)
Fixpoint check_cls (pts : points) (c : cls) : option bool :=
  match c with
  | CChar v => Some (check_range pts v v)
  | CRange a b => Some (check_range pts a b)
  | CEnum vs => Some (existsb (fun v => check_range pts v v) vs)
  | CSet l =>
      (fix go (l : list cls) : option bool :=
         match l with
         | [] => Some false
         | x :: xs =>
             match check_cls pts x, go xs with
             | Some b1, Some b2 => Some (b1 || b2)
             | _, _ => None
             end
         end) l
  | CNeg l =>
      match neg_intervals l with
      | Some o => Some (existsb (fun p => check_range pts (fst p) (snd p)) o)
      | None => None
      end
  | CNegate _ => None
  | CProp _ => Some (negb (Nat.eqb (length pts) 0))
  end.

Fixpoint check (pts : points) (l : list fitem) : option bool :=
  match l with
  | [] => Some false
  | x :: xs =>
      match (match x with
             | FAny => Some (negb (Nat.eqb (length pts) 0))
             | FCls c => check_cls pts c end), check pts xs with
      | Some b1, Some b2 => Some (b1 || b2)
      | _, _ => None
      end
  end.

(** lines 542-549: [collides]. *)
Definition collides (rhs lhs : list fitem) : option bool :=
  match populate [] rhs with Some pts => check pts lhs | None => None end.
