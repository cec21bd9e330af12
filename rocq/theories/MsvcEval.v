(** The evaluator as it is compiled with CTRE_MSVC_GREEDY_WORKAROUND (evaluation.hpp lines 16-21), which _MSC_VER
    switches on: [evaluate_recursive] (lines 344-379) returns nothing and writes its answer through [R & result],
    and the greedy repetition (lines 410-413) returns what is left in its local [result].

    [option caps] is the content of [result]: [None] while it converts to false (default constructed in line 411, or
    assigned from a failed [evaluate] in line 375). Everything else is a copy of Eval.v, with [ms_] in front. *)
From Coq Require Import List ZArith Bool Arith.
From Verif Require Import Chars Syntax First View Eval Api.
Import ListNotations.

(** [result = evaluate(...)], line 375. *)
Definition assign (x : res caps) : res (option caps) :=
  match x with Ok c => Ok (Some c) | No => Ok None | Fuel => Fuel | UB => UB | Ill => Ill end.
(** [return result], line 413. *)
Definition returned_from (x : res (option caps)) : res caps :=
  match x with Ok (Some c) => Ok c | Ok None => No | No => No | Fuel => Fuel | UB => UB | Ill => Ill end.

(** evaluation.hpp lines 46-562 with the work-around. *)
Fixpoint ms_eval (opt : bool) (n : nat) (v w : view) (cur : nat) (f : flags) (c : caps)
              (stk : list atom) {struct n} : res caps :=
  match n with
  | O => Fuel
  | S n =>
    match stk with
    | [] => No                                                   (* lines 46-50, the sink *)
    | [AAccept] => Ok (set_matched c)                            (* lines 52-56 *)
    | [AEndCycle] =>                                             (* lines 76-84 *)
        if negb (vconv v) then Ill
        else if f_block f then No else Ok (set_matched (set_end_mark cur c))
    | [AEndAhead] => Ok (set_matched c)                          (* lines 481-486 *)
    | [AEndBehind] => Ok (set_matched c)                         (* lines 488-492 *)
    | AAccept :: _ | AEndCycle :: _ | AEndAhead :: _ | AEndBehind :: _ => No   (* the sink *)
    | AStart :: tl =>                                            (* lines 64-68 *)
        if vconv v then ms_eval opt n v w cur f (set_start_mark cur c) tl else Ill
    | AEnd :: tl =>                                              (* lines 70-74 *)
        if vconv v then ms_eval opt n v w cur f (set_end_mark cur c) tl else Ill
    | ANum id :: tl =>                                           (* lines 427-431 *)
        if vconv v then or_ill (end_capture id cur c) (fun c' => ms_eval opt n v w cur f c' tl)
        else Ill
    | AR r :: tl =>
      match r with
      | RCls k =>                                                (* lines 86-94 *)
          or_ub (vend v cur) (fun e => if e then No else
          or_ub (vget v cur) (fun x =>
          if match_cls (f_ci f) k x then
            or_ub (vnext v cur) (fun cur' => ms_eval opt n v w cur' (consumed_something f true) c tl)
          else No))
      | RAny =>                                                  (* lines 96-105 *)
          or_ub (vend v cur) (fun e => if e then No else
          or_ub (if f_ml f then option_map (fun x => Z.eqb x 10) (vget v cur) else Some false)
            (fun nl => if nl then No else
             or_ub (vnext v cur) (fun cur' =>
               ms_eval opt n v w cur' (consumed_something f true) c tl)))
      | RStr str =>                                              (* lines 107-119 *)
          match match_string v (f_ci f) str cur with
          | Ok cur' =>
              ms_eval opt n v w cur' (consumed_something f (negb (Nat.eqb (length str) 0))) c tl
          | No => No | Fuel => Fuel | UB => UB | Ill => Ill
          end
      | RSelect [] => No                                         (* lines 131-135 *)
      | RSelect (x :: xs) =>                                     (* lines 121-129 *)
          match ms_eval opt n v w cur f c (AR x :: tl) with
          | No => ms_eval opt n v w cur f c (AR (RSelect xs) :: tl)
          | r => r
          end
      | RSeq [] => No                                            (* no overload: the sink *)
      | RSeq [x] => ms_eval opt n v w cur f c (AR x :: tl)          (* lines 137-145 *)
      | RSeq (x :: xs) => ms_eval opt n v w cur f c (AR x :: AR (RSeq xs) :: tl)
      | REmpty => ms_eval opt n v w cur f c tl                      (* lines 147-151 *)
      | RReject => No                                            (* lines 58-62 *)
      | RAssert a =>                                             (* lines 153-223 *)
          match eval_assert v (f_ml f) a cur with
          | Ok true => ms_eval opt n v w cur f c tl
          | Ok false => No
          | No => No | Fuel => Fuel | UB => UB | Ill => Ill
          end
      | RBound k =>                                              (* lines 225-245 *)
          match around v (f_ci f) k cur with
          | Ok (before, after) =>
              if Bool.eqb before after then No else ms_eval opt n v w cur f c tl
          | No => No | Fuel => Fuel | UB => UB | Ill => Ill
          end
      | RNotBound k =>                                           (* lines 247-267 *)
          match around v (f_ci f) k cur with
          | Ok (before, after) =>
              if Bool.eqb before after then ms_eval opt n v w cur f c tl else No
          | No => No | Fuel => Fuel | UB => UB | Ill => Ill
          end
      | RRep k a b content =>
          if negb (N.eqb b 0) && N.ltb b a then No               (* lines 273, 321, 387 *)
          else
          match k with
          | Lazy =>                                              (* lines 269-315 *)
              if negb (vconv v) then Ill else
              match ms_req_loop opt n v w cur f c a 0 content with
              | Ok (cur', c') =>
                  match ms_eval opt n v w cur' (consumed_something f (negb (Nat.eqb cur cur'))) c' tl
                  with
                  | No => ms_lazy_loop opt n v w cur' f c' b a content tl
                  | r => r
                  end
              | No => No | Fuel => Fuel | UB => UB | Ill => Ill
              end
          | Possessive =>                                        (* lines 317-341 *)
              if negb (vconv v) then Ill else
              ms_poss_loop opt n v w cur cur f c a b 0 content tl
          | Greedy =>                                            (* lines 383-419 *)
              match becomes_possessive opt content tl with
              | None => Ill
              | Some true => ms_eval opt n v w cur f c (AR (RRep Possessive a b content) :: tl)
              | Some false =>
                  if negb (vconv v) then Ill else
                  match ms_req_loop opt n v w cur f c a 0 content with
                  | Ok (cur', c') => returned_from (ms_rec_loop opt n None v w cur' f c' b a content tl)   (* lines 411-413 *)
                  | No => No | Fuel => Fuel | UB => UB | Ill => Ill
                  end
              end
          end
      | RCap id content | RNCap id _ content =>                  (* lines 421-425, 433-437 *)
          if vconv v then
            or_ill (start_capture id cur c)
              (fun c' => ms_eval opt n v w cur f c' (AR (RSeq content) :: ANum id :: tl))
          else Ill
      | RBack id =>                                              (* lines 469-479 *)
          if negb (vsame v) then Ill else
          or_ill (get_id id c) (fun s =>
          if s_m s then
            or_ub (s_beg s) (fun b => or_ub (s_end s) (fun e =>
            match match_range_loop n v cur b e with
            | Ok (cur', true) =>
                ms_eval opt n v w cur' (consumed_something f (negb (Nat.eqb b e))) c tl
            | Ok (_, false) => No
            | No => No | Fuel => Fuel | UB => UB | Ill => Ill
            end))
          else No)
      | RNBack nm =>                                             (* lines 457-467 *)
          if negb (vsame v) then Ill else
          or_ill (get_name nm (cl c)) (fun s =>
          if s_m s then
            or_ub (s_beg s) (fun b => or_ub (s_end s) (fun e =>
            match match_range_loop n v cur b e with
            | Ok (cur', true) =>
                ms_eval opt n v w cur' (consumed_something f (negb (Nat.eqb b e))) c tl
            | Ok (_, false) => No
            | No => No | Fuel => Fuel | UB => UB | Ill => Ill
            end))
          else No)
      | RAhead false content =>                                  (* lines 494-504 *)
          match ms_eval opt n v w cur f c [AR (RSeq content); AEndAhead] with
          | Ok c' => ms_eval opt n v w cur f (unmatch c') tl
          | r => r
          end
      | RAhead true content =>                                   (* lines 506-515 *)
          match ms_eval opt n v w cur f c [AR (RSeq content); AEndAhead] with
          | Ok _ => No
          | No => ms_eval opt n v w cur f c tl
          | r => r
          end
      | RBehind false content =>                                 (* lines 526-536 *)
          match ms_eval opt n (rev_view v) w cur f c [AR (RSeq content); AEndBehind] with
          | Ok c' => ms_eval opt n v w cur f (unmatch c') tl
          | r => r
          end
      | RBehind true content =>                                  (* lines 538-548 *)
          match ms_eval opt n (rev_view v) w cur f c [AR (RSeq content); AEndBehind] with
          | Ok _ => No
          | No => ms_eval opt n v w cur f c tl
          | r => r
          end
      | RAtomic content =>                                       (* lines 552-556 *)
          ms_eval opt n v w cur f c (AR (RRep Possessive 1 1 content) :: tl)
      | RMode m => ms_eval opt n v w cur (add_mode f m) c tl        (* lines 558-562 *)
      end
    end
  end

with ms_req_loop (opt : bool) (n : nat) (v w : view) (cur : nat) (f : flags) (c : caps)
              (a i : N) (content : list re) {struct n} : res (nat * caps) :=
  match n with
  | O => Fuel
  | S n =>
      if less_than a i then
        match ms_eval opt n v w cur (not_empty_match f) c (cycle content) with
        | Ok c' =>
            or_ub (s_end (c0 c')) (fun p =>
              ms_req_loop opt n v w p f (unmatch c') a (N.succ i) content)
        | No => No | Fuel => Fuel | UB => UB | Ill => Ill
        end
      else Ok (cur, c)
  end

with ms_lazy_loop (opt : bool) (n : nat) (v w : view) (cur : nat) (f : flags) (c : caps)
               (b i : N) (content : list re) (tl : list atom) {struct n} : res caps :=
  match n with
  | O => Fuel
  | S n =>
      if less_than_or_infinite b i then
        match ms_eval opt n v w cur (not_empty_match f) c (cycle content) with
        | Ok c' =>
            or_ub (s_end (c0 c')) (fun p =>
            match ms_eval opt n w w p (consumed_something f true) (unmatch c') tl with
            | No => ms_lazy_loop opt n v w p f (unmatch c') b (N.succ i) content tl
            | r => r
            end)
        | r => r
        end
      else ms_eval opt n v w cur (consumed_something f true) c tl
  end

with ms_poss_loop (opt : bool) (n : nat) (v w : view) (start cur : nat) (f : flags) (c : caps)
               (a b i : N) (content : list re) (tl : list atom) {struct n} : res caps :=
  match n with
  | O => Fuel
  | S n =>
      if less_than_or_infinite b i then
        match ms_eval opt n v w cur (not_empty_match f) c (cycle content) with
        | Ok c' =>
            or_ub (s_end (c0 c')) (fun p =>
              ms_poss_loop opt n v w start p f (unmatch c') a b (N.succ i) content tl)
        | No =>
            if less_than a i then No
            else ms_eval opt n v w cur (consumed_something f (negb (Nat.eqb start cur))) c tl
        | r => r
        end
      else ms_eval opt n v w cur (consumed_something f (negb (Nat.eqb start cur))) c tl
  end

with ms_rec_loop (opt : bool) (n : nat) (result : option caps) (v w : view) (cur : nat) (f : flags) (c : caps)
              (b i : N) (content : list re) (tl : list atom) {struct n} : res (option caps) :=
  match n with
  | O => Fuel
  | S n =>
      let tail := assign (ms_eval opt n v w cur (consumed_something f true) c tl) in      (* line 375 *)
      if less_than_or_infinite b i then
        match ms_eval opt n v w cur (not_empty_match f) c (cycle content) with
        | Ok c' =>
            or_ub (s_end (c0 c')) (fun p =>
            match ms_rec_loop opt n result v w p f (unmatch c') b (N.succ i) content tl with      (* line 363 *)
            | Ok (Some r) => Ok (Some r)                                                      (* lines 364-366 *)
            | Ok None => tail
            | r => r
            end)
        | No => tail
        | Fuel => Fuel | UB => UB | Ill => Ill
        end
      else tail
  end.

(** * The work-around changes nothing *)
Lemma assign_returned : forall x, returned_from (assign x) = x.
Proof. intros []; reflexivity. Qed.

Lemma ms_all : forall opt n,
  (forall v w cur f c stk, ms_eval opt n v w cur f c stk = eval opt n v w cur f c stk) /\
  (forall v w cur f c a i l, ms_req_loop opt n v w cur f c a i l = req_loop opt n v w cur f c a i l) /\
  (forall v w cur f c b i l tl, ms_lazy_loop opt n v w cur f c b i l tl = lazy_loop opt n v w cur f c b i l tl) /\
  (forall v w st cur f c a b i l tl, ms_poss_loop opt n v w st cur f c a b i l tl = poss_loop opt n v w st cur f c a b i l tl) /\
  (forall result v w cur f c b i l tl, ms_rec_loop opt n result v w cur f c b i l tl = assign (rec_loop opt n v w cur f c b i l tl)).
Proof.
  intros opt. induction n as [|n (He & Hq & Hl & Hp & Hr)]; [repeat (split; [intros; reflexivity|]); intros; reflexivity|].
  Ltac same He Hq Hl Hp Hr :=
    repeat (rewrite ?He, ?Hq, ?Hl, ?Hp, ?Hr, ?assign_returned;
      match goal with
      | |- ?x = ?x => reflexivity
      | |- or_ub ?o _ = or_ub ?o _ => destruct o; cbn [or_ub]
      | |- or_ub ?o _ = assign (or_ub ?o _) => destruct o; cbn [or_ub]
      | |- or_ill ?o _ = or_ill ?o _ => destruct o; cbn [or_ill]
      | |- context [match assign ?x with _ => _ end] => destruct x; cbn [assign]
      | |- context [match ?x with _ => _ end] => destruct x
      end).
  split; [|split; [|split; [|split]]]; intros.
  - destruct stk as [|x tl]; [reflexivity|]. destruct x; try solve [destruct tl; reflexivity]; cbn [ms_eval eval]; try solve [same He Hq Hl Hp Hr].
  - cbn [ms_req_loop req_loop]. same He Hq Hl Hp Hr.
  - cbn [ms_lazy_loop lazy_loop]. same He Hq Hl Hp Hr.
  - cbn [ms_poss_loop poss_loop]. same He Hq Hl Hp Hr.
  - cbn [ms_rec_loop rec_loop]. same He Hq Hl Hp Hr; reflexivity.
Qed.
Lemma ms_same : forall opt n v w cur f c stk, ms_eval opt n v w cur f c stk = eval opt n v w cur f c stk.
Proof. intros opt n. exact (proj1 (ms_all opt n)). Qed.

(** wrapper.hpp lines 68-78, 108-117, 80-106 over this evaluator, as in Api.v. *)
Section Exec.
  Variables (opt : bool) (n : nat) (v w : view) (f : flags) (r : re).
  Definition ms_exec_match (begin : nat) : res caps :=
    returned r (ms_eval opt n v w begin f (fresh r) [AStart; AR r; AR (RAssert ASubjectEnd); AEnd; AAccept]).
  Definition ms_exec_starts_with (begin : nat) : res caps :=
    returned r (ms_eval opt n v w begin f (fresh r) [AStart; AR r; AEnd; AAccept]).
  Definition ms_search_last (it : nat) : res caps :=
    match ms_eval opt n v w it f (fresh r) [AStart; AR r; AEnd; AAccept] with
    | No => Ok (set_end_mark it (fresh r))
    | x => x
    end.
  Fixpoint ms_search_loop (m : nat) (it : nat) : res caps :=
    match m with
    | O => Fuel
    | S m' =>
        or_ub (vend v it) (fun e =>
        if negb e && negb (starts_with_anchor f r) then
          match ms_eval opt n v w it f (fresh r) [AStart; AR r; AEnd; AAccept] with
          | No => or_ub (vnext v it) (fun it' => ms_search_loop m' it')
          | x => x
          end
        else ms_search_last it)
    end.
  Definition ms_exec_search (begin : nat) : res caps := ms_search_loop n begin.

  Lemma ms_match_same : forall p, ms_exec_match p = exec_match opt n v w f r p.
  Proof. intros p. unfold ms_exec_match. rewrite ms_same. reflexivity. Qed.
  Lemma ms_starts_same : forall p, ms_exec_starts_with p = exec_starts_with opt n v w f r p.
  Proof. intros p. unfold ms_exec_starts_with. rewrite ms_same. reflexivity. Qed.
  Lemma ms_search_same : forall p, ms_exec_search p = exec_search opt n v w f r p.
  Proof.
    unfold ms_exec_search, exec_search. generalize n at 1 3. intros m. induction m as [|m IH]; intros p; [reflexivity|].
    cbn [ms_search_loop search_loop]. destruct (vend v p) as [e|]; [|reflexivity]. cbn [or_ub].
    destruct (negb e && negb (starts_with_anchor f r)).
    - rewrite ms_same. destruct (eval opt n v w p f (fresh r) [AStart; AR r; AEnd; AAccept]); try reflexivity.
      destruct (vnext v p); [apply IH|reflexivity].
    - unfold ms_search_last, search_last. rewrite ms_same. reflexivity.
  Qed.
End Exec.
