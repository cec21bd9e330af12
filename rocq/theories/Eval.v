(** The backtracking evaluator. Source: /repo/include/ctre/evaluation.hpp and the capture storage of
    /repo/include/ctre/return_type.hpp. *)
From Coq Require Import List ZArith NArith Bool.
From Verif Require Import Chars Syntax First View.
Import ListNotations.

(** return_type.hpp lines 40-76: [captured_content::storage]; [None] is a default-constructed
    iterator. *)
Record slot := mkSlot { s_beg : option nat; s_end : option nat; s_m : bool }.
Definition empty_slot : slot := mkSlot None None false.

(** return_type.hpp lines 247-355: [regex_results]: capture 0 and the list of the others with their
    identifier and optional name (in the order of [find_captures]). *)
Definition entry : Type := nat * option (list Z) * slot.
Record caps := mkCaps { c0 : slot; cl : list entry }.

(** return_type.hpp lines 402-409, 480-490: matched, unmatch, set_start_mark, set_end_mark,
    get_end_position. *)
Definition set_matched (c : caps) : caps :=
  mkCaps (mkSlot (s_beg (c0 c)) (s_end (c0 c)) true) (cl c).
Definition unmatch (c : caps) : caps :=
  mkCaps (mkSlot (s_beg (c0 c)) (s_end (c0 c)) false) (cl c).
Definition set_start_mark (p : nat) (c : caps) : caps :=
  mkCaps (mkSlot (Some p) (s_end (c0 c)) (s_m (c0 c))) (cl c).
Definition set_end_mark (p : nat) (c : caps) : caps :=
  mkCaps (mkSlot (s_beg (c0 c)) (Some p) (s_m (c0 c))) (cl c).

(** Update of the first entry with identifier [id] ([captures::select<id>], lines 279-285).
    [None]: the entry does not exist and the program is ill-formed. *)
Fixpoint upd_id (id : nat) (g : slot -> slot) (l : list entry) : option (list entry) :=
  match l with
  | [] => None
  | (i, nm, s) :: tl =>
      if Nat.eqb i id then Some ((i, nm, g s) :: tl)
      else match upd_id id g tl with Some tl' => Some ((i, nm, s) :: tl') | None => None end
  end.

(** lines 491-498: start_capture, end_capture. Identifier 0 is the outer capture. *)
Definition upd_caps (id : nat) (g : slot -> slot) (c : caps) : option caps :=
  if Nat.eqb id 0 then Some (mkCaps (g (c0 c)) (cl c))
  else match upd_id id g (cl c) with Some l => Some (mkCaps (c0 c) l) | None => None end.
Definition start_capture (id p : nat) (c : caps) : option caps :=
  upd_caps id (fun s => mkSlot (Some p) (s_end s) (s_m s)) c.
Definition end_capture (id p : nat) (c : caps) : option caps :=
  upd_caps id (fun s => mkSlot (s_beg s) (Some p) true) c.

(** lines 293-306, 365-384: [get<Id>()] and [get<Name>()]. *)
Fixpoint find_id (id : nat) (l : list entry) : option slot :=
  match l with
  | [] => None
  | (i, _, s) :: tl => if Nat.eqb i id then Some s else find_id id tl
  end.
Definition get_id (id : nat) (c : caps) : option slot :=
  if Nat.eqb id 0 then Some (c0 c) else find_id id (cl c).
Definition name_eqb (a b : list Z) : bool :=
  if list_eq_dec Z.eq_dec a b then true else false.
Fixpoint get_name (nm : list Z) (l : list entry) : option slot :=
  match l with
  | [] => None
  | (_, Some nm', s) :: tl => if name_eqb nm nm' then Some s else get_name nm tl
  | (_, None, _) :: tl => get_name nm tl
  end.

(** Outcomes: a matched result, [not_matched], fuel exhausted, undefined behaviour, ill-formed
    program (a template that does not compile, found when the evaluator reaches it). *)
Inductive res (A : Type) := Ok (a : A) | No | Fuel | UB | Ill.
Arguments Ok {A} a. Arguments No {A}. Arguments Fuel {A}. Arguments UB {A}. Arguments Ill {A}.

Definition or_ub {A B} (o : option A) (k : A -> res B) : res B :=
  match o with Some a => k a | None => UB end.
Definition or_ill {A B} (o : option A) (k : A -> res B) : res B :=
  match o with Some a => k a | None => Ill end.

(** evaluation.hpp lines 25-41. The counters are not wrapped: a wrap needs 2^64 iterations. *)
Definition less_than_or_infinite (limit i : N) : bool := N.eqb limit 0 || N.ltb i limit.
Definition less_than (limit i : N) : bool := negb (N.eqb limit 0) && N.ltb i limit.

(** evaluation.hpp lines 108-110: [match_string]. *)
Fixpoint match_string (v : view) (ci : bool) (str : list Z) (cur : nat) : res nat :=
  match str with
  | [] => Ok cur
  | ch :: tl =>
      or_ub (vend v cur) (fun e => if e then No else
      or_ub (vget v cur) (fun x =>
      or_ub (vnext v cur) (fun cur' =>
      if match_lit ci ch x then match_string v ci tl cur' else No)))
  end.

(** evaluation.hpp lines 445-455: [match_against_range] on the current range and the span
    [rcur, rend) of a capture. Returns the final position and the [match] flag. *)
Fixpoint match_range_loop (n : nat) (v : view) (cur rcur rend : nat) : res (nat * bool) :=
  match n with
  | O => Fuel
  | S n' =>
      or_ub (vend v cur) (fun e =>
      if negb e && negb (Nat.eqb rend rcur) then
        or_ub (vget v cur) (fun x =>
        or_ub (vget v rcur) (fun y =>
        if Z.eqb x y then
          or_ub (vnext v cur) (fun cur' =>
          or_ub (vnext v rcur) (fun rcur' => match_range_loop n' v cur' rcur' rend))
        else Ok (cur, false)))
      else Ok (cur, Nat.eqb rcur rend))
  end.

(** evaluation.hpp lines 225-267: the two character tests around the current position. *)
Definition around (v : view) (ci : bool) (c : cls) (cur : nat) : res (bool * bool) :=
  or_ub (vend v cur) (fun e =>
  or_ub (if e then Some false else option_map (match_cls ci c) (vget v cur)) (fun after =>
  or_ub (vbeg v cur) (fun b =>
  or_ub (if b then Some false
         else match vprev v cur with
              | Some q => option_map (match_cls ci c) (vget v q)
              | None => None end) (fun before => Ok (before, after))))).

(** evaluation.hpp lines 153-223: the anchors. [Ok true]: holds. *)
Definition eval_assert (v : view) (ml : bool) (a : assertion) (cur : nat) : res bool :=
  match a with
  | ASubjectBegin => or_ub (vbeg v cur) (fun b => Ok b)
  | ASubjectEnd => or_ub (vend v cur) (fun e => Ok e)
  | ASubjectEndLine =>
      or_ub (vend v cur) (fun e =>
      if e then Ok true
      else if ml then
        or_ub (vget v cur) (fun x =>
        if Z.eqb x 10 then
          or_ub (vnext v cur) (fun q => or_ub (vend v q) (fun e' => Ok e'))
        else Ok false)
      else Ok false)
  | ALineBegin =>
      or_ub (vbeg v cur) (fun b =>
      if b then Ok true
      else if ml then
        or_ub (vprev v cur) (fun q => or_ub (vget v q) (fun x => Ok (Z.eqb x 10)))
      else Ok false)
  | ALineEnd =>
      or_ub (vend v cur) (fun e =>
      if e then Ok true
      else if ml then or_ub (vget v cur) (fun x => Ok (Z.eqb x 10))
      else Ok false)
  end.

Definition cycle (l : list re) : list atom := map AR l ++ [AEndCycle].

(** evaluation.hpp lines 384-394: the choice made at compile time for a greedy repetition.
    [opt] is the absence of CTRE_DISABLE_GREEDY_OPT. *)
Definition becomes_possessive (opt : bool) (content : list re) (tl : list atom) : option bool :=
  if opt then
    match calculate_first (map AR content), calculate_first tl with
    | Some f1, Some f2 => match collides f1 f2 with Some b => Some (negb b) | None => None end
    | _, _ => None
    end
  else Some false.

(** evaluation.hpp lines 46-562: [evaluate]. [v] describes the current iterator type, [w] the result
    iterator type; [n] is fuel. The loops of the repetitions are the mutually defined functions:
    [req_loop] lines 280-289 and 399-408, [lazy_loop] lines 295-313, [poss_loop] lines 326-339,
    [rec_loop] lines 344-379 ([evaluate_recursive], not the MSVC variant). *)
Fixpoint eval (opt : bool) (n : nat) (v w : view) (cur : nat) (f : flags) (c : caps)
              (stk : list atom) {struct n} : res caps :=
  match n with
  | O => Fuel
  | S n =>
    match stk with
    | [] => No                                                   (* lines 46-50, the sink *)
    | [AAccept] => Ok (set_matched c)                            (* lines 52-56 *)
    | [AEndCycle] =>                                             (* lines 76-84 *)
        if negb (vconv v) then Ill
        else if f_block f then No else Ok (set_matched (set_end_mark cur c))
    | [AEndAhead] => Ok (set_matched c)                          (* lines 481-486 *)
    | [AEndBehind] => Ok (set_matched c)                         (* lines 488-492 *)
    | AAccept :: _ | AEndCycle :: _ | AEndAhead :: _ | AEndBehind :: _ => No   (* the sink *)
    | AStart :: tl =>                                            (* lines 64-68 *)
        if vconv v then eval opt n v w cur f (set_start_mark cur c) tl else Ill
    | AEnd :: tl =>                                              (* lines 70-74 *)
        if vconv v then eval opt n v w cur f (set_end_mark cur c) tl else Ill
    | ANum id :: tl =>                                           (* lines 427-431 *)
        if vconv v then or_ill (end_capture id cur c) (fun c' => eval opt n v w cur f c' tl)
        else Ill
    | AR r :: tl =>
      match r with
      | RCls k =>                                                (* lines 86-94 *)
          or_ub (vend v cur) (fun e => if e then No else
          or_ub (vget v cur) (fun x =>
          if match_cls (f_ci f) k x then
            or_ub (vnext v cur) (fun cur' => eval opt n v w cur' (consumed_something f true) c tl)
          else No))
      | RAny =>                                                  (* lines 96-105 *)
          or_ub (vend v cur) (fun e => if e then No else
          or_ub (if f_ml f then option_map (fun x => Z.eqb x 10) (vget v cur) else Some false)
            (fun nl => if nl then No else
             or_ub (vnext v cur) (fun cur' =>
               eval opt n v w cur' (consumed_something f true) c tl)))
      | RStr str =>                                              (* lines 107-119 *)
          match match_string v (f_ci f) str cur with
          | Ok cur' =>
              eval opt n v w cur' (consumed_something f (negb (Nat.eqb (length str) 0))) c tl
          | No => No | Fuel => Fuel | UB => UB | Ill => Ill
          end
      | RSelect [] => No                                         (* lines 131-135 *)
      | RSelect (x :: xs) =>                                     (* lines 121-129 *)
          match eval opt n v w cur f c (AR x :: tl) with
          | No => eval opt n v w cur f c (AR (RSelect xs) :: tl)
          | r => r
          end
      | RSeq [] => No                                            (* no overload: the sink *)
      | RSeq [x] => eval opt n v w cur f c (AR x :: tl)          (* lines 137-145 *)
      | RSeq (x :: xs) => eval opt n v w cur f c (AR x :: AR (RSeq xs) :: tl)
      | REmpty => eval opt n v w cur f c tl                      (* lines 147-151 *)
      | RReject => No                                            (* lines 58-62 *)
      | RAssert a =>                                             (* lines 153-223 *)
          match eval_assert v (f_ml f) a cur with
          | Ok true => eval opt n v w cur f c tl
          | Ok false => No
          | No => No | Fuel => Fuel | UB => UB | Ill => Ill
          end
      | RBound k =>                                              (* lines 225-245 *)
          match around v (f_ci f) k cur with
          | Ok (before, after) =>
              if Bool.eqb before after then No else eval opt n v w cur f c tl
          | No => No | Fuel => Fuel | UB => UB | Ill => Ill
          end
      | RNotBound k =>                                           (* lines 247-267 *)
          match around v (f_ci f) k cur with
          | Ok (before, after) =>
              if Bool.eqb before after then eval opt n v w cur f c tl else No
          | No => No | Fuel => Fuel | UB => UB | Ill => Ill
          end
      | RRep k a b content =>
          if negb (N.eqb b 0) && N.ltb b a then No               (* lines 273, 321, 387 *)
          else
          match k with
          | Lazy =>                                              (* lines 269-315 *)
              if negb (vconv v) then Ill else
              match req_loop opt n v w cur f c a 0 content with
              | Ok (cur', c') =>
                  match eval opt n v w cur' (consumed_something f (negb (Nat.eqb cur cur'))) c' tl
                  with
                  | No => lazy_loop opt n v w cur' f c' b a content tl
                  | r => r
                  end
              | No => No | Fuel => Fuel | UB => UB | Ill => Ill
              end
          | Possessive =>                                        (* lines 317-341 *)
              if negb (vconv v) then Ill else
              poss_loop opt n v w cur cur f c a b 0 content tl
          | Greedy =>                                            (* lines 383-419 *)
              match becomes_possessive opt content tl with
              | None => Ill
              | Some true => eval opt n v w cur f c (AR (RRep Possessive a b content) :: tl)
              | Some false =>
                  if negb (vconv v) then Ill else
                  match req_loop opt n v w cur f c a 0 content with
                  | Ok (cur', c') => rec_loop opt n v w cur' f c' b a content tl
                  | No => No | Fuel => Fuel | UB => UB | Ill => Ill
                  end
              end
          end
      | RCap id content | RNCap id _ content =>                  (* lines 421-425, 433-437 *)
          if vconv v then
            or_ill (start_capture id cur c)
              (fun c' => eval opt n v w cur f c' (AR (RSeq content) :: ANum id :: tl))
          else Ill
      | RBack id =>                                              (* lines 469-479 *)
          if negb (vsame v) then Ill else
          or_ill (get_id id c) (fun s =>
          if s_m s then
            or_ub (s_beg s) (fun b => or_ub (s_end s) (fun e =>
            match match_range_loop n v cur b e with
            | Ok (cur', true) =>
                eval opt n v w cur' (consumed_something f (negb (Nat.eqb b e))) c tl
            | Ok (_, false) => No
            | No => No | Fuel => Fuel | UB => UB | Ill => Ill
            end))
          else No)
      | RNBack nm =>                                             (* lines 457-467 *)
          if negb (vsame v) then Ill else
          or_ill (get_name nm (cl c)) (fun s =>
          if s_m s then
            or_ub (s_beg s) (fun b => or_ub (s_end s) (fun e =>
            match match_range_loop n v cur b e with
            | Ok (cur', true) =>
                eval opt n v w cur' (consumed_something f (negb (Nat.eqb b e))) c tl
            | Ok (_, false) => No
            | No => No | Fuel => Fuel | UB => UB | Ill => Ill
            end))
          else No)
      | RAhead false content =>                                  (* lines 494-504 *)
          match eval opt n v w cur f c [AR (RSeq content); AEndAhead] with
          | Ok c' => eval opt n v w cur f (unmatch c') tl
          | r => r
          end
      | RAhead true content =>                                   (* lines 506-515 *)
          match eval opt n v w cur f c [AR (RSeq content); AEndAhead] with
          | Ok _ => No
          | No => eval opt n v w cur f c tl
          | r => r
          end
      | RBehind false content =>                                 (* lines 526-536 *)
          match eval opt n (rev_view v) w cur f c [AR (RSeq content); AEndBehind] with
          | Ok c' => eval opt n v w cur f (unmatch c') tl
          | r => r
          end
      | RBehind true content =>                                  (* lines 538-548 *)
          match eval opt n (rev_view v) w cur f c [AR (RSeq content); AEndBehind] with
          | Ok _ => No
          | No => eval opt n v w cur f c tl
          | r => r
          end
      | RAtomic content =>                                       (* lines 552-556 *)
          eval opt n v w cur f c (AR (RRep Possessive 1 1 content) :: tl)
      | RMode m => eval opt n v w cur (add_mode f m) c tl        (* lines 558-562 *)
      end
    end
  end

with req_loop (opt : bool) (n : nat) (v w : view) (cur : nat) (f : flags) (c : caps)
              (a i : N) (content : list re) {struct n} : res (nat * caps) :=
  match n with
  | O => Fuel
  | S n =>
      if less_than a i then
        match eval opt n v w cur (not_empty_match f) c (cycle content) with
        | Ok c' =>
            or_ub (s_end (c0 c')) (fun p =>
              req_loop opt n v w p f (unmatch c') a (N.succ i) content)
        | No => No | Fuel => Fuel | UB => UB | Ill => Ill
        end
      else Ok (cur, c)
  end

with lazy_loop (opt : bool) (n : nat) (v w : view) (cur : nat) (f : flags) (c : caps)
               (b i : N) (content : list re) (tl : list atom) {struct n} : res caps :=
  match n with
  | O => Fuel
  | S n =>
      if less_than_or_infinite b i then
        match eval opt n v w cur (not_empty_match f) c (cycle content) with
        | Ok c' =>
            or_ub (s_end (c0 c')) (fun p =>
            match eval opt n w w p (consumed_something f true) (unmatch c') tl with
            | No => lazy_loop opt n v w p f (unmatch c') b (N.succ i) content tl
            | r => r
            end)
        | r => r
        end
      else eval opt n v w cur (consumed_something f true) c tl
  end

with poss_loop (opt : bool) (n : nat) (v w : view) (start cur : nat) (f : flags) (c : caps)
               (a b i : N) (content : list re) (tl : list atom) {struct n} : res caps :=
  match n with
  | O => Fuel
  | S n =>
      if less_than_or_infinite b i then
        match eval opt n v w cur (not_empty_match f) c (cycle content) with
        | Ok c' =>
            or_ub (s_end (c0 c')) (fun p =>
              poss_loop opt n v w start p f (unmatch c') a b (N.succ i) content tl)
        | No =>
            if less_than a i then No
            else eval opt n v w cur (consumed_something f (negb (Nat.eqb start cur))) c tl
        | r => r
        end
      else eval opt n v w cur (consumed_something f (negb (Nat.eqb start cur))) c tl
  end

with rec_loop (opt : bool) (n : nat) (v w : view) (cur : nat) (f : flags) (c : caps)
              (b i : N) (content : list re) (tl : list atom) {struct n} : res caps :=
  match n with
  | O => Fuel
  | S n =>
      if less_than_or_infinite b i then
        match eval opt n v w cur (not_empty_match f) c (cycle content) with
        | Ok c' =>
            or_ub (s_end (c0 c')) (fun p =>
            match rec_loop opt n v w p f (unmatch c') b (N.succ i) content tl with
            | No => eval opt n v w cur (consumed_something f true) c tl
            | r => r
            end)
        | No => eval opt n v w cur (consumed_something f true) c tl
        | r => r
        end
      else eval opt n v w cur (consumed_something f true) c tl
  end.
