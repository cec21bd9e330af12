(** How many steps an evaluation takes. Source: /repo/include/ctre/evaluation.hpp; the functions below follow the
    recursion of [eval] in Eval.v line by line and count instead of answering. *)
From Coq Require Import List ZArith NArith Bool Lia Arith ZifyBool ZifyN ZifyNat.
From Verif Require Import Chars Syntax First Utf8 View Eval Api EvalMono Term.
Import ListNotations.

(** * The number of steps *)
(** A step is a call of [evaluate] or [evaluate_recursive], a turn of a loop, or a comparison of a character of a
    string or of a back reference. *)
Local Open Scope N_scope.
Definition when {A} (o : option A) (k : A -> N) : N := match o with Some a => k a | None => 0 end.
(** evaluation.hpp lines 445-455. *)
Fixpoint range_cost (n : nat) (v : view) (cur rcur rend : nat) : N :=
  match n with
  | O => 1
  | S n =>
      1 + when (vend v cur) (fun e =>
          if negb e && negb (Nat.eqb rend rcur) then
            when (vget v cur) (fun x => when (vget v rcur) (fun y =>
            if Z.eqb x y then when (vnext v cur) (fun cur' => when (vnext v rcur) (fun rcur' => range_cost n v cur' rcur' rend))
            else 0))
          else 0)
  end.
(** evaluation.hpp lines 46-562. *)
Fixpoint cost (opt : bool) (n : nat) (v w : view) (cur : nat) (f : flags) (c : caps) (stk : list atom) {struct n} : N :=
  match n with
  | O => 1
  | S n =>
    1 +
    match stk with
    | [] | [AAccept] | [AEndCycle] | [AEndAhead] | [AEndBehind] => 0
    | AAccept :: _ | AEndCycle :: _ | AEndAhead :: _ | AEndBehind :: _ => 0
    | AStart :: tl => if vconv v then cost opt n v w cur f (set_start_mark cur c) tl else 0
    | AEnd :: tl => if vconv v then cost opt n v w cur f (set_end_mark cur c) tl else 0
    | ANum id :: tl => if vconv v then when (end_capture id cur c) (fun c' => cost opt n v w cur f c' tl) else 0
    | AR r :: tl =>
      match r with
      | RCls k =>
          when (vend v cur) (fun e => if e then 0 else
          when (vget v cur) (fun x =>
          if match_cls (f_ci f) k x then
            when (vnext v cur) (fun cur' => cost opt n v w cur' (consumed_something f true) c tl)
          else 0))
      | RAny =>
          when (vend v cur) (fun e => if e then 0 else
          when (if f_ml f then option_map (fun x => Z.eqb x 10) (vget v cur) else Some false) (fun nl =>
          if nl then 0 else when (vnext v cur) (fun cur' => cost opt n v w cur' (consumed_something f true) c tl)))
      | RStr str =>
          N.of_nat (length str) +
          match match_string v (f_ci f) str cur with
          | Ok cur' => cost opt n v w cur' (consumed_something f (negb (Nat.eqb (length str) 0))) c tl
          | _ => 0
          end
      | RSelect [] => 0
      | RSelect (x :: xs) =>
          cost opt n v w cur f c (AR x :: tl) +
          match eval opt n v w cur f c (AR x :: tl) with
          | No => cost opt n v w cur f c (AR (RSelect xs) :: tl)
          | _ => 0
          end
      | RSeq [] => 0
      | RSeq [x] => cost opt n v w cur f c (AR x :: tl)
      | RSeq (x :: xs) => cost opt n v w cur f c (AR x :: AR (RSeq xs) :: tl)
      | REmpty => cost opt n v w cur f c tl
      | RReject => 0
      | RAssert a => match eval_assert v (f_ml f) a cur with Ok true => cost opt n v w cur f c tl | _ => 0 end
      | RBound k =>
          match around v (f_ci f) k cur with
          | Ok (before, after) => if Bool.eqb before after then 0 else cost opt n v w cur f c tl
          | _ => 0
          end
      | RNotBound k =>
          match around v (f_ci f) k cur with
          | Ok (before, after) => if Bool.eqb before after then cost opt n v w cur f c tl else 0
          | _ => 0
          end
      | RRep k a b content =>
          if negb (N.eqb b 0) && N.ltb b a then 0
          else
          match k with
          | Lazy =>
              if negb (vconv v) then 0 else
              req_cost opt n v w cur f c a 0 content +
              match req_loop opt n v w cur f c a 0 content with
              | Ok (cur', c') =>
                  cost opt n v w cur' (consumed_something f (negb (Nat.eqb cur cur'))) c' tl +
                  match eval opt n v w cur' (consumed_something f (negb (Nat.eqb cur cur'))) c' tl with
                  | No => lazy_cost opt n v w cur' f c' b a content tl
                  | _ => 0
                  end
              | _ => 0
              end
          | Possessive => if negb (vconv v) then 0 else poss_cost opt n v w cur cur f c a b 0 content tl
          | Greedy =>
              match becomes_possessive opt content tl with
              | None => 0
              | Some true => cost opt n v w cur f c (AR (RRep Possessive a b content) :: tl)
              | Some false =>
                  if negb (vconv v) then 0 else
                  req_cost opt n v w cur f c a 0 content +
                  match req_loop opt n v w cur f c a 0 content with
                  | Ok (cur', c') => rec_cost opt n v w cur' f c' b a content tl
                  | _ => 0
                  end
              end
          end
      | RCap id content | RNCap id _ content =>
          if vconv v then
            when (start_capture id cur c) (fun c' => cost opt n v w cur f c' (AR (RSeq content) :: ANum id :: tl))
          else 0
      | RBack id =>
          if negb (vsame v) then 0 else
          when (get_id id c) (fun s =>
          if s_m s then
            when (s_beg s) (fun b => when (s_end s) (fun e =>
            range_cost n v cur b e +
            match match_range_loop n v cur b e with
            | Ok (cur', true) => cost opt n v w cur' (consumed_something f (negb (Nat.eqb b e))) c tl
            | _ => 0
            end))
          else 0)
      | RNBack nm =>
          if negb (vsame v) then 0 else
          when (get_name nm (cl c)) (fun s =>
          if s_m s then
            when (s_beg s) (fun b => when (s_end s) (fun e =>
            range_cost n v cur b e +
            match match_range_loop n v cur b e with
            | Ok (cur', true) => cost opt n v w cur' (consumed_something f (negb (Nat.eqb b e))) c tl
            | _ => 0
            end))
          else 0)
      | RAhead false content =>
          cost opt n v w cur f c [AR (RSeq content); AEndAhead] +
          match eval opt n v w cur f c [AR (RSeq content); AEndAhead] with
          | Ok c' => cost opt n v w cur f (unmatch c') tl
          | _ => 0
          end
      | RAhead true content =>
          cost opt n v w cur f c [AR (RSeq content); AEndAhead] +
          match eval opt n v w cur f c [AR (RSeq content); AEndAhead] with
          | No => cost opt n v w cur f c tl
          | _ => 0
          end
      | RBehind false content =>
          cost opt n (rev_view v) w cur f c [AR (RSeq content); AEndBehind] +
          match eval opt n (rev_view v) w cur f c [AR (RSeq content); AEndBehind] with
          | Ok c' => cost opt n v w cur f (unmatch c') tl
          | _ => 0
          end
      | RBehind true content =>
          cost opt n (rev_view v) w cur f c [AR (RSeq content); AEndBehind] +
          match eval opt n (rev_view v) w cur f c [AR (RSeq content); AEndBehind] with
          | No => cost opt n v w cur f c tl
          | _ => 0
          end
      | RAtomic content => cost opt n v w cur f c (AR (RRep Possessive 1 1 content) :: tl)
      | RMode m => cost opt n v w cur (add_mode f m) c tl
      end
    end
  end
with req_cost (opt : bool) (n : nat) (v w : view) (cur : nat) (f : flags) (c : caps) (a i : N) (content : list re) {struct n} : N :=
  match n with
  | O => 1
  | S n =>
      1 + (if less_than a i then
        cost opt n v w cur (not_empty_match f) c (cycle content) +
        match eval opt n v w cur (not_empty_match f) c (cycle content) with
        | Ok c' => when (s_end (c0 c')) (fun p => req_cost opt n v w p f (unmatch c') a (N.succ i) content)
        | _ => 0
        end
      else 0)
  end
with lazy_cost (opt : bool) (n : nat) (v w : view) (cur : nat) (f : flags) (c : caps) (b i : N) (content : list re) (tl : list atom) {struct n} : N :=
  match n with
  | O => 1
  | S n =>
      1 + (if less_than_or_infinite b i then
        cost opt n v w cur (not_empty_match f) c (cycle content) +
        match eval opt n v w cur (not_empty_match f) c (cycle content) with
        | Ok c' =>
            when (s_end (c0 c')) (fun p =>
            cost opt n w w p (consumed_something f true) (unmatch c') tl +
            match eval opt n w w p (consumed_something f true) (unmatch c') tl with
            | No => lazy_cost opt n v w p f (unmatch c') b (N.succ i) content tl
            | _ => 0
            end)
        | _ => 0
        end
      else cost opt n v w cur (consumed_something f true) c tl)
  end
with poss_cost (opt : bool) (n : nat) (v w : view) (start cur : nat) (f : flags) (c : caps) (a b i : N) (content : list re) (tl : list atom) {struct n} : N :=
  match n with
  | O => 1
  | S n =>
      1 + (if less_than_or_infinite b i then
        cost opt n v w cur (not_empty_match f) c (cycle content) +
        match eval opt n v w cur (not_empty_match f) c (cycle content) with
        | Ok c' => when (s_end (c0 c')) (fun p => poss_cost opt n v w start p f (unmatch c') a b (N.succ i) content tl)
        | No =>
            if less_than a i then 0
            else cost opt n v w cur (consumed_something f (negb (Nat.eqb start cur))) c tl
        | _ => 0
        end
      else cost opt n v w cur (consumed_something f (negb (Nat.eqb start cur))) c tl)
  end
with rec_cost (opt : bool) (n : nat) (v w : view) (cur : nat) (f : flags) (c : caps) (b i : N) (content : list re) (tl : list atom) {struct n} : N :=
  match n with
  | O => 1
  | S n =>
      1 + (if less_than_or_infinite b i then
        cost opt n v w cur (not_empty_match f) c (cycle content) +
        match eval opt n v w cur (not_empty_match f) c (cycle content) with
        | Ok c' =>
            when (s_end (c0 c')) (fun p =>
            rec_cost opt n v w p f (unmatch c') b (N.succ i) content tl +
            match rec_loop opt n v w p f (unmatch c') b (N.succ i) content tl with
            | No => cost opt n v w cur (consumed_something f true) c tl
            | _ => 0
            end)
        | No => cost opt n v w cur (consumed_something f true) c tl
        | _ => 0
        end
      else cost opt n v w cur (consumed_something f true) c tl)
  end.

(** wrapper.hpp lines 68-78, 108-117 and 80-100. *)
Definition match_cost (opt : bool) (n : nat) (v w : view) (f : flags) (r : re) (p : nat) : N :=
  cost opt n v w p f (fresh r) [AStart; AR r; AR (RAssert ASubjectEnd); AEnd; AAccept].
Definition starts_cost (opt : bool) (n : nat) (v w : view) (f : flags) (r : re) (p : nat) : N :=
  cost opt n v w p f (fresh r) [AStart; AR r; AEnd; AAccept].
Fixpoint search_cost (opt : bool) (n : nat) (v w : view) (f : flags) (r : re) (m it : nat) : N :=
  match m with
  | O => 1
  | S m =>
      1 + when (vend v it) (fun e =>
        starts_cost opt n v w f r it +
        if negb e && negb (starts_with_anchor f r) then
          match eval opt n v w it f (fresh r) [AStart; AR r; AEnd; AAccept] with
          | No => when (vnext v it) (fun it' => search_cost opt n v w f r m it')
          | _ => 0
          end
        else 0)
  end.

(** * A bound *)
(** Iterations of a repetition on a subject of [n] units. *)
Definition turns (n : N) (b : N) : N := if N.eqb b 0 then n else b.
(** [weigh opt n r tl k]: steps of [r] in front of [tl], where [tl] takes at most [k]. *)
Section Weigh.
Variables (opt : bool) (n : N).
Fixpoint weigh (r : re) (tl : list atom) (k : N) {struct r} : N :=
  let seq := fix seq (l : list re) (tl : list atom) (k : N) : N :=
    1 + match l with
        | [] => 0
        | [x] => weigh x tl k
        | x :: xs => weigh x (AR (RSeq xs) :: tl) (seq xs tl k)
        end in
  let sel := fix sel (l : list re) : N := 1 + match l with [] => 0 | x :: xs => weigh x tl k + sel xs end in
  let cyc := fix cyc (l : list re) : N := match l with [] => 2 | x :: xs => weigh x (cycle xs) (cyc xs) end in
  let poss b l := 1 + (1 + cyc l) * (turns n b + 1) + k in
  let full b l := 1 + (1 + cyc l) * (turns n b + 1) + k + (1 + cyc l + k) * (turns n b + 1) in
  match r with
  | RCls _ | RAny | REmpty | RReject | RAssert _ | RBound _ | RNotBound _ | RMode _ => 1 + k
  | RStr t => 1 + N.of_nat (length t) + k
  | RSelect l => sel l
  | RSeq l => seq l tl k
  | RRep Possessive _ b l => poss b l
  | RRep Lazy _ b l => full b l
  | RRep Greedy _ b l => match becomes_possessive opt l tl with Some true => 1 + poss b l | _ => full b l end
  | RAtomic l => 1 + poss 1 l
  | RCap id l | RNCap id _ l => 1 + seq l (ANum id :: tl) (1 + k)
  | RBack _ | RNBack _ => 1 + (n + 1) + k
  | RAhead _ l => 1 + seq l [AEndAhead] 2 + k
  | RBehind _ l => 1 + seq l [AEndBehind] 2 + k
  end.
Fixpoint weighs (stk : list atom) : N :=
  match stk with [] => 1 | AR r :: tl => weigh r tl (weighs tl) | _ :: tl => 1 + weighs tl end.
End Weigh.

Section Bound.
Variables (opt : bool) (len : nat).
Let n := N.of_nat len.
Notation weigh := (weigh opt n).
Notation weighs := (weighs opt n).
Lemma cyc_fix : forall l,
  (fix cyc (l : list re) : N := match l with [] => 2 | x :: xs => weigh x (cycle xs) (cyc xs) end) l = weighs (cycle l).
Proof. induction l as [|x l IH]; [reflexivity|]. change (cycle (x :: l)) with (AR x :: cycle l). cbn [Cost.weighs]. rewrite IH. reflexivity. Qed.
Definition poss_weight (b : N) (l : list re) (k : N) : N := 1 + (1 + weighs (cycle l)) * (turns n b + 1) + k.
Definition full_weight (b : N) (l : list re) (k : N) : N := poss_weight b l k + (1 + weighs (cycle l) + k) * (turns n b + 1).
Lemma weigh_poss : forall a b l tl k, weigh (RRep Possessive a b l) tl k = poss_weight b l k.
Proof. intros. cbn [Cost.weigh]. rewrite cyc_fix. reflexivity. Qed.
Lemma weigh_lazy : forall a b l tl k, weigh (RRep Lazy a b l) tl k = full_weight b l k.
Proof. intros. cbn [Cost.weigh]. rewrite cyc_fix. reflexivity. Qed.
Lemma weigh_greedy : forall a b l tl k, weigh (RRep Greedy a b l) tl k =
  match becomes_possessive opt l tl with Some true => 1 + poss_weight b l k | _ => full_weight b l k end.
Proof. intros. cbn [Cost.weigh]. rewrite cyc_fix. reflexivity. Qed.
Lemma weigh_atomic : forall l tl k, weigh (RAtomic l) tl k = 1 + poss_weight 1 l k.
Proof. intros. cbn [Cost.weigh]. rewrite cyc_fix. reflexivity. Qed.
Lemma weigh_pos : forall r tl k, 1 <= weigh r tl k.
Proof.
  intros r tl k. destruct r; try (cbn [Cost.weigh]; lia); try (destruct l; cbn [Cost.weigh]; lia).
  destruct k0; [rewrite weigh_greedy|rewrite weigh_lazy|rewrite weigh_poss]; unfold full_weight, poss_weight; try destruct (becomes_possessive _ _ _) as [[]|]; lia.
Qed.
Lemma weighs_pos : forall stk, 1 <= weighs stk.
Proof. destruct stk as [|[] stk]; cbn [Cost.weighs]; try lia. apply weigh_pos. Qed.

Definition sterm (stk : list atom) : bool := forallb (fun a => match a with AR r => terminating r | _ => true end) stk.
Lemma sterm_cycle : forall l, forallb terminating l = true -> sterm (cycle l) = true.
Proof. intros l H. unfold sterm, cycle. rewrite forallb_app. rewrite forallb_forall in H. apply andb_true_iff. split; [|reflexivity]. apply forallb_forall. intros a I. apply in_map_iff in I as (r & <- & I). auto. Qed.
(** Forward over the subject with a pattern whose loops consume, or backward. *)
Definition good (v : view) (stk : list atom) : Prop := (fwd len v /\ sterm stk = true) \/ (vconv v = false /\ vsame v = false).
Definition CE (m : nat) : Prop := forall v w p f c stk, good v stk -> fwd len w -> cost opt m v w p f c stk <= weighs stk.
Definition budget (b i : N) (p : nat) : N := if N.eqb b 0 then N.of_nat (len - p) else b - i.
Lemma budget_turns : forall b i p, budget b i p <= turns n b.
Proof. intros. unfold budget, turns, n. destruct (N.eqb b 0); lia. Qed.
(** What is left after one more iteration. *)
Lemma budget_step : forall m v w p f c b i l c' p', fwd len v -> fwd len w -> (b = 0 -> body_eats l = true) -> (b <> 0 -> i < b) ->
  eval opt m v w p (not_empty_match f) c (cycle l) = Ok c' -> s_end (c0 c') = Some p' ->
  budget b (N.succ i) p' + 1 <= budget b i p.
Proof.
  intros m v w p f c b i l c' p' Hv Hw H0 Hi E Es.
  destruct (prog_all opt len m) as [HE _]. destruct (iter_reach opt len m HE v w p f c l c' Hv Hw E) as (q & R1 & R2 & R3 & R4).
  rewrite Es in R1. injection R1 as <-. unfold budget. destruct (N.eqb_spec b 0) as [e|e]; [specialize (R4 (H0 e)); lia|specialize (Hi e); lia].
Qed.
Lemma grow_step : forall X t B B', t <= X * (B' + 1) -> B' + 1 <= B -> X + t <= X * (B + 1).
Proof. intros. nia. Qed.
Lemma grow_here : forall X B, X <= X * (B + 1).
Proof. intros. nia. Qed.

Definition looping (b : N) (l : list re) : Prop := (b = 0 -> body_eats l = true) /\ forallb terminating l = true.
Lemma req_bound : forall m, CE m -> (forall v w p f c a b i l, fwd len v -> fwd len w -> looping b l -> (b = 0 \/ a <= b) ->
    req_cost opt m v w p f c a i l <= (1 + weighs (cycle l)) * (budget b i p + 1)) ->
  forall v w p f c a b i l, fwd len v -> fwd len w -> looping b l -> (b = 0 \/ a <= b) ->
    req_cost opt (S m) v w p f c a i l <= (1 + weighs (cycle l)) * (budget b i p + 1).
Proof.
  intros m HC HR v w p f c a b i l Hv Hw [L1 L2] Hab. cbn [req_cost].
  destruct (less_than a i) eqn:E; [|pose proof (grow_here (1 + weighs (cycle l)) (budget b i p)); lia].
  rewrite lt_spec2 in E. pose proof (HC v w p (not_empty_match f) c (cycle l) (or_introl (conj Hv (sterm_cycle l L2))) Hw) as K.
  set (X := 1 + weighs (cycle l)) in *.
  assert (K' : 1 + (cost opt m v w p (not_empty_match f) c (cycle l) + 0) <= X) by (subst X; lia).
  destruct (eval opt m v w p (not_empty_match f) c (cycle l)) as [c'| | | |] eqn:Ev; try (pose proof (grow_here X (budget b i p)); lia).
  destruct (s_end (c0 c')) as [p'|] eqn:Es; cbn [when]; [|pose proof (grow_here X (budget b i p)); lia].
  pose proof (budget_step _ _ _ _ _ _ b i l _ _ Hv Hw L1 ltac:(lia) Ev Es) as Bd.
  pose proof (HR v w p' f (unmatch c') a b (N.succ i) l Hv Hw (conj L1 L2) Hab) as R.
  pose proof (grow_step X _ _ _ R Bd). lia.
Qed.
Lemma tail_cost : forall m v w p f c tl, CE m -> fwd len v -> fwd len w -> sterm tl = true -> cost opt m v w p f c tl <= weighs tl.
Proof. intros m v w p f c tl HC Hv Hw Ht. apply HC; [left; auto|assumption]. Qed.
Definition CRec (m : nat) : Prop := forall v w p f c b i l tl, fwd len v -> fwd len w -> looping b l -> sterm tl = true ->
  rec_cost opt m v w p f c b i l tl <= (1 + weighs (cycle l) + weighs tl) * (budget b i p + 1).
Lemma rec_bound : forall m, CE m -> CRec m -> CRec (S m).
Proof.
  intros m HC HR v w p f c b i l tl Hv Hw [L1 L2] Ht. cbn [rec_cost].
  pose proof (HC v w p (not_empty_match f) c (cycle l) (or_introl (conj Hv (sterm_cycle l L2))) Hw) as K.
  pose proof (tail_cost m v w p (consumed_something f true) c tl HC Hv Hw Ht) as T.
  set (X := 1 + weighs (cycle l) + weighs tl) in *. pose proof (grow_here X (budget b i p)) as G.
  destruct (less_than_or_infinite b i) eqn:E; [|lia]. unfold less_than_or_infinite in E.
  destruct (eval opt m v w p (not_empty_match f) c (cycle l)) as [c'| | | |] eqn:Ev; try lia.
  destruct (s_end (c0 c')) as [p'|] eqn:Es; cbn [when]; [|lia].
  pose proof (budget_step _ _ _ _ _ _ b i l _ _ Hv Hw L1 ltac:(lia) Ev Es) as Bd.
  pose proof (HR v w p' f (unmatch c') b (N.succ i) l tl Hv Hw (conj L1 L2) Ht) as R. fold X in R.
  pose proof (grow_step X _ _ _ R Bd). destruct (rec_loop _ _ _ _ _ _ _ _ _ _ _); lia.
Qed.
Definition CLaz (m : nat) : Prop := forall v w p f c b i l tl, fwd len v -> fwd len w -> looping b l -> sterm tl = true ->
  lazy_cost opt m v w p f c b i l tl <= (1 + weighs (cycle l) + weighs tl) * (budget b i p + 1).
Lemma laz_bound : forall m, CE m -> CLaz m -> CLaz (S m).
Proof.
  intros m HC HR v w p f c b i l tl Hv Hw [L1 L2] Ht. cbn [lazy_cost].
  pose proof (HC v w p (not_empty_match f) c (cycle l) (or_introl (conj Hv (sterm_cycle l L2))) Hw) as K.
  pose proof (tail_cost m v w p (consumed_something f true) c tl HC Hv Hw Ht) as T.
  set (X := 1 + weighs (cycle l) + weighs tl) in *. pose proof (grow_here X (budget b i p)) as G.
  destruct (less_than_or_infinite b i) eqn:E; [|lia]. unfold less_than_or_infinite in E.
  destruct (eval opt m v w p (not_empty_match f) c (cycle l)) as [c'| | | |] eqn:Ev; try lia.
  destruct (s_end (c0 c')) as [p'|] eqn:Es; cbn [when]; [|lia].
  pose proof (budget_step _ _ _ _ _ _ b i l _ _ Hv Hw L1 ltac:(lia) Ev Es) as Bd.
  pose proof (tail_cost m w w p' (consumed_something f true) (unmatch c') tl HC Hw Hw Ht) as T'.
  pose proof (HR v w p' f (unmatch c') b (N.succ i) l tl Hv Hw (conj L1 L2) Ht) as R. fold X in R.
  pose proof (grow_step X _ _ _ R Bd). destruct (eval opt m w w p' _ _ tl); lia.
Qed.
Definition CPos (m : nat) : Prop := forall v w st p f c a b i l tl, fwd len v -> fwd len w -> looping b l -> sterm tl = true ->
  poss_cost opt m v w st p f c a b i l tl <= (1 + weighs (cycle l)) * (budget b i p + 1) + weighs tl.
Lemma pos_bound : forall m, CE m -> CPos m -> CPos (S m).
Proof.
  intros m HC HR v w st p f c a b i l tl Hv Hw [L1 L2] Ht. cbn [poss_cost].
  pose proof (HC v w p (not_empty_match f) c (cycle l) (or_introl (conj Hv (sterm_cycle l L2))) Hw) as K.
  pose proof (tail_cost m v w p (consumed_something f (negb (Nat.eqb st p))) c tl HC Hv Hw Ht) as T.
  set (X := 1 + weighs (cycle l)) in *. pose proof (grow_here X (budget b i p)) as G.
  destruct (less_than_or_infinite b i) eqn:E; [|lia]. unfold less_than_or_infinite in E.
  destruct (eval opt m v w p (not_empty_match f) c (cycle l)) as [c'| | | |] eqn:Ev; try lia; [|destruct (less_than a i); lia].
  destruct (s_end (c0 c')) as [p'|] eqn:Es; cbn [when]; [|lia].
  pose proof (budget_step _ _ _ _ _ _ b i l _ _ Hv Hw L1 ltac:(lia) Ev Es) as Bd.
  pose proof (HR v w st p' f (unmatch c') a b (N.succ i) l tl Hv Hw (conj L1 L2) Ht) as R. fold X in R.
  set (t := poss_cost opt m v w st p' f (unmatch c') a b (N.succ i) l tl) in *.
  assert (R' : t - weighs tl <= X * (budget b (N.succ i) p' + 1)) by lia.
  pose proof (grow_step X _ _ _ R' Bd). lia.
Qed.
Lemma range_bound : forall m v p b e, fwd len v -> range_cost m v p b e <= N.of_nat (len - p) + 1.
Proof.
  induction m as [|m IH]; intros v p b e Hv; cbn [range_cost]; [lia|].
  destruct (vend v p) as [t|]; cbn [when]; [|lia]. destruct (negb t && negb (Nat.eqb e b))%bool; [|lia].
  destruct (vget v p); cbn [when]; [|lia]. destruct (vget v b); cbn [when]; [|lia]. destruct (Z.eqb _ _); [|lia].
  destruct (vnext v p) as [q|] eqn:E; cbn [when]; [|lia]. destruct (vnext v b) as [q'|]; cbn [when]; [|lia].
  apply Hv in E. pose proof (IH v q q' e Hv). lia.
Qed.
Lemma good_tail : forall v a tl, good v (a :: tl) -> good v tl.
Proof. intros v a tl [[H1 H2]|H]; [left|right; exact H]. split; [exact H1|]. cbn in H2. apply andb_true_iff in H2. apply H2. Qed.
Lemma good_swap : forall v r stk tl, good v (AR r :: tl) -> (terminating r = true -> sterm tl = true -> sterm stk = true) -> good v stk.
Proof.
  intros v r stk tl [[H1 H2]|H] K; [left|right; exact H]. split; [exact H1|]. cbn in H2. apply andb_true_iff in H2 as [A B]. apply K; assumption.
Qed.
Ltac sterm_tac := let A := fresh in let B := fresh in clear; unfold sterm; cbn [forallb terminating]; intros A B; rewrite ?andb_true_iff in *; tauto.
Theorem cost_all : forall m, CE m /\ (forall v w p f c a b i l, fwd len v -> fwd len w -> looping b l -> (b = 0 \/ a <= b) ->
    req_cost opt m v w p f c a i l <= (1 + weighs (cycle l)) * (budget b i p + 1)) /\ CRec m /\ CLaz m /\ CPos m.
Proof.
  induction m as [|m (HE & HRq & HRc & HLz & HPs)].
  { split; [|split; [|split; [|split]]]; [intros v w p f c stk _ _|intros v w p f c a b i l _ _ _ _|intros v w p f c b i l tl _ _ _ _|intros v w p f c b i l tl _ _ _ _|intros v w st p f c a b i l tl _ _ _ _];
      cbn [cost req_cost rec_cost lazy_cost poss_cost]; [apply weighs_pos|nia|nia|nia|nia]. }
  split; [|split; [|split; [|split]]];
    [|apply req_bound; assumption|apply rec_bound; assumption|apply laz_bound; assumption|apply pos_bound; assumption].
  intros v w p f c stk G Hw. destruct stk as [|a tl]; [cbn; lia|].
  assert (Go : forall v' p' f' c', (v' = v) -> cost opt m v' w p' f' c' tl <= weighs tl).
  { intros v' p' f' c' ->. apply HE; [exact (good_tail _ _ _ G)|exact Hw]. }
  pose proof (weighs_pos tl) as Pt.
  destruct a as [r| | | | | | |id].
  2: { cbn [cost Cost.weighs]. destruct tl; lia. }
  2: { cbn [cost Cost.weighs]. destruct (vconv v); [|lia]. pose proof (Go v p f (set_start_mark p c) eq_refl). lia. }
  2: { cbn [cost Cost.weighs]. destruct (vconv v); [|lia]. pose proof (Go v p f (set_end_mark p c) eq_refl). lia. }
  2-4: cbn [cost Cost.weighs]; destruct tl; lia.
  2: { cbn [cost Cost.weighs]. destruct (vconv v); [|lia]. destruct (end_capture id p c) as [c'|]; cbn [when]; [|lia].
       pose proof (Go v p f c' eq_refl). lia. }
  destruct r as
    [ k | | t | l | l | | | k a b l | id l | id nm l | id | nm
    | neg l | neg l | l | k | k | a | md ].
  - cbn [cost Cost.weighs Cost.weigh]. destruct (vend v p) as [[]|]; cbn [when]; try lia.
    destruct (vget v p); cbn [when]; [|lia]. destruct (match_cls _ _ _); [|lia]. destruct (vnext v p) as [q|]; cbn [when]; [|lia].
    pose proof (Go v q (consumed_something f true) c eq_refl). lia.
  - cbn [cost Cost.weighs Cost.weigh]. destruct (vend v p) as [[]|]; cbn [when]; try lia.
    destruct (if f_ml f then _ else _) as [[]|]; cbn [when]; try lia. destruct (vnext v p) as [q|]; cbn [when]; [|lia].
    pose proof (Go v q (consumed_something f true) c eq_refl). lia.
  - cbn [cost Cost.weighs Cost.weigh]. destruct (match_string v (f_ci f) t p) as [q| | | |]; try lia.
    pose proof (Go v q (consumed_something f (negb (Nat.eqb (length t) 0))) c eq_refl). lia.
  - destruct l as [|x xs]; [cbn [cost Cost.weighs Cost.weigh]; lia|].
    assert (E : weighs (AR (RSelect (x :: xs)) :: tl) = 1 + (weighs (AR x :: tl) + weighs (AR (RSelect xs) :: tl))) by reflexivity.
    rewrite E. cbn [cost].
    pose proof (HE v w p f c (AR x :: tl) (good_swap _ _ (AR x :: tl) _ G ltac:(sterm_tac)) Hw).
    pose proof (HE v w p f c (AR (RSelect xs) :: tl) (good_swap _ _ (AR (RSelect xs) :: tl) _ G ltac:(sterm_tac)) Hw).
    destruct (eval opt m v w p f c (AR x :: tl)); lia.
  - destruct l as [|x [|y ys]]; [cbn [cost Cost.weighs Cost.weigh]; lia| |].
    + assert (E : weighs (AR (RSeq [x]) :: tl) = 1 + weighs (AR x :: tl)) by reflexivity. rewrite E. cbn [cost].
      pose proof (HE v w p f c (AR x :: tl) (good_swap _ _ (AR x :: tl) _ G ltac:(sterm_tac)) Hw). lia.
    + assert (E : weighs (AR (RSeq (x :: y :: ys)) :: tl) = 1 + weighs (AR x :: AR (RSeq (y :: ys)) :: tl)) by reflexivity. rewrite E. cbn [cost].
      pose proof (HE v w p f c (AR x :: AR (RSeq (y :: ys)) :: tl) (good_swap _ _ (AR x :: AR (RSeq (y :: ys)) :: tl) _ G ltac:(sterm_tac)) Hw). lia.
  - cbn [cost Cost.weighs Cost.weigh]. pose proof (Go v p f c eq_refl). lia.
  - cbn [cost Cost.weighs Cost.weigh]. lia.
  - cbn [Cost.weighs]. cbn [cost]. destruct (negb (N.eqb b 0) && N.ltb b a)%bool eqn:Eab; [pose proof (weigh_pos (RRep k a b l) tl (weighs tl)); lia|].
    assert (Hab : b = 0 \/ a <= b) by lia.
    assert (Lp : vconv v = true -> fwd len v /\ looping b l /\ sterm tl = true).
    { intros V. destruct G as [[H1 H2]|[H1 _]]; [|congruence]. cbn in H2. apply andb_true_iff in H2 as [A B].
      apply andb_true_iff in A as [A1 A2]. split; [exact H1|]. split; [|exact B]. split; [|exact A2]. intros ->. exact A1. }
    assert (P : forall a, (if negb (vconv v) then 0 else poss_cost opt m v w p p f c a b 0 l tl) + 1 <= poss_weight b l (weighs tl)).
    { intros a'. unfold poss_weight. destruct (vconv v); cbn [negb]; [|nia]. destruct (Lp eq_refl) as (V & L & T).
      pose proof (HPs v w p p f c a' b 0 l tl V Hw L T) as H. pose proof (budget_turns b 0 p). nia. }
    assert (R : forall K, (forall q c', vconv v = true -> K q c' <= weighs tl + (1 + weighs (cycle l) + weighs tl) * (turns n b + 1)) ->
      1 + (if negb (vconv v) then 0 else req_cost opt m v w p f c a 0 l + match req_loop opt m v w p f c a 0 l with Ok (q, c') => K q c' | _ => 0 end)
        <= full_weight b l (weighs tl)).
    { intros K HK. unfold full_weight, poss_weight. destruct (vconv v); cbn [negb]; [|nia]. destruct (Lp eq_refl) as (V & L & T).
      pose proof (HRq v w p f c a b 0 l V Hw L Hab) as H. pose proof (budget_turns b 0 p).
      assert (H' : req_cost opt m v w p f c a 0 l <= (1 + weighs (cycle l)) * (turns n b + 1)) by nia.
      destruct (req_loop opt m v w p f c a 0 l) as [[q c']| | | |]; try nia. specialize (HK q c' eq_refl). nia. }
    destruct k.
    + rewrite weigh_greedy. destruct (becomes_possessive opt l tl) as [[|]|] eqn:Eb.
      * pose proof (HE v w p f c (AR (RRep Possessive a b l) :: tl) (good_swap _ _ (AR (RRep Possessive a b l) :: tl) _ G ltac:(sterm_tac)) Hw) as H.
        cbn [Cost.weighs] in H. rewrite weigh_poss in H. lia.
      * apply R. intros q c' V. destruct (Lp V) as (V' & L & T). pose proof (HRc v w q f c' b a l tl V' Hw L T). pose proof (budget_turns b a q). nia.
      * unfold full_weight, poss_weight. nia.
    + rewrite weigh_lazy.
      apply (R (fun q c' => cost opt m v w q (consumed_something f (negb (Nat.eqb p q))) c' tl +
         match eval opt m v w q (consumed_something f (negb (Nat.eqb p q))) c' tl with No => lazy_cost opt m v w q f c' b a l tl | _ => 0 end)).
      intros q c' V. destruct (Lp V) as (V' & L & T). pose proof (HLz v w q f c' b a l tl V' Hw L T). pose proof (budget_turns b a q).
      pose proof (Go v q (consumed_something f (negb (Nat.eqb p q))) c' eq_refl).
      destruct (eval opt m v w q _ c' tl); nia.
    + rewrite weigh_poss. specialize (P a). lia.
  - assert (E : weighs (AR (RCap id l) :: tl) = 1 + weighs (AR (RSeq l) :: ANum id :: tl)) by reflexivity. rewrite E. cbn [cost].
    destruct (vconv v); [|lia]. destruct (start_capture id p c) as [c'|]; cbn [when]; [|lia].
    pose proof (HE v w p f c' (AR (RSeq l) :: ANum id :: tl) (good_swap _ _ (AR (RSeq l) :: ANum id :: tl) _ G ltac:(sterm_tac)) Hw). lia.
  - assert (E : weighs (AR (RNCap id nm l) :: tl) = 1 + weighs (AR (RSeq l) :: ANum id :: tl)) by reflexivity. rewrite E. cbn [cost].
    destruct (vconv v); [|lia]. destruct (start_capture id p c) as [c'|]; cbn [when]; [|lia].
    pose proof (HE v w p f c' (AR (RSeq l) :: ANum id :: tl) (good_swap _ _ (AR (RSeq l) :: ANum id :: tl) _ G ltac:(sterm_tac)) Hw). lia.
  - cbn [cost Cost.weighs Cost.weigh]. destruct (vsame v) eqn:V; cbn [negb]; [|lia].
    destruct G as [[H1 H2]|[_ H1]]; [|congruence]. destruct (get_id id c) as [s|]; cbn [when]; [|lia]. destruct (s_m s); [|lia].
    destruct (s_beg s) as [b|]; cbn [when]; [|lia]. destruct (s_end s) as [e|]; cbn [when]; [|lia].
    pose proof (range_bound m v p b e H1). destruct (match_range_loop m v p b e) as [[q []]| | | |]; try (unfold n; lia).
    pose proof (Go v q (consumed_something f (negb (Nat.eqb b e))) c eq_refl). unfold n in *; lia.
  - cbn [cost Cost.weighs Cost.weigh]. destruct (vsame v) eqn:V; cbn [negb]; [|lia].
    destruct G as [[H1 H2]|[_ H1]]; [|congruence]. destruct (get_name nm (cl c)) as [s|]; cbn [when]; [|lia]. destruct (s_m s); [|lia].
    destruct (s_beg s) as [b|]; cbn [when]; [|lia]. destruct (s_end s) as [e|]; cbn [when]; [|lia].
    pose proof (range_bound m v p b e H1). destruct (match_range_loop m v p b e) as [[q []]| | | |]; try (unfold n; lia).
    pose proof (Go v q (consumed_something f (negb (Nat.eqb b e))) c eq_refl). unfold n in *; lia.
  - assert (E : weighs (AR (RAhead neg l) :: tl) = 1 + weighs [AR (RSeq l); AEndAhead] + weighs tl) by reflexivity. rewrite E. cbn [cost].
    pose proof (HE v w p f c [AR (RSeq l); AEndAhead] (good_swap _ _ [AR (RSeq l); AEndAhead] _ G ltac:(sterm_tac)) Hw) as H.
    destruct neg; destruct (eval opt m v w p f c [AR (RSeq l); AEndAhead]) as [c'| | | |]; try lia.
    + pose proof (Go v p f c eq_refl). lia.
    + pose proof (Go v p f (unmatch c') eq_refl). lia.
  - assert (E : weighs (AR (RBehind neg l) :: tl) = 1 + weighs [AR (RSeq l); AEndBehind] + weighs tl) by reflexivity. rewrite E. cbn [cost].
    pose proof (HE (rev_view v) w p f c [AR (RSeq l); AEndBehind] (or_intror (conj eq_refl eq_refl)) Hw) as H.
    destruct neg; destruct (eval opt m (rev_view v) w p f c [AR (RSeq l); AEndBehind]) as [c'| | | |]; try lia.
    + pose proof (Go v p f c eq_refl). lia.
    + pose proof (Go v p f (unmatch c') eq_refl). lia.
  - cbn [cost Cost.weighs]. rewrite weigh_atomic.
    pose proof (HE v w p f c (AR (RRep Possessive 1 1 l) :: tl) (good_swap _ _ (AR (RRep Possessive 1 1 l) :: tl) _ G ltac:(sterm_tac)) Hw) as H.
    cbn [Cost.weighs] in H. rewrite weigh_poss in H. lia.
  - cbn [cost Cost.weighs Cost.weigh]. destruct (around v (f_ci f) k p) as [[x y]| | | |]; try lia. destruct (Bool.eqb x y); [lia|].
    pose proof (Go v p f c eq_refl). lia.
  - cbn [cost Cost.weighs Cost.weigh]. destruct (around v (f_ci f) k p) as [[x y]| | | |]; try lia. destruct (Bool.eqb x y); [|lia].
    pose proof (Go v p f c eq_refl). lia.
  - cbn [cost Cost.weighs Cost.weigh]. destruct (eval_assert v (f_ml f) a p) as [[]| | | |]; try lia. pose proof (Go v p f c eq_refl). lia.
  - cbn [cost Cost.weighs Cost.weigh]. pose proof (Go v p (add_mode f md) c eq_refl). lia.
Qed.
End Bound.

(** * The count and the fuel *)
(** An evaluation that runs out of fuel has taken more steps than it had fuel. *)
Lemma range_depth : forall n v p b e, match_range_loop n v p b e = Fuel -> N.of_nat n < range_cost n v p b e.
Proof.
  induction n as [|n IH]; intros v p b e; cbn [match_range_loop range_cost]; [lia|].
  destruct (vend v p) as [t|]; cbn [or_ub when]; [|discriminate]. destruct (negb t && negb (Nat.eqb e b))%bool; [|discriminate].
  destruct (vget v p); cbn [or_ub when]; [|discriminate]. destruct (vget v b); cbn [or_ub when]; [|discriminate]. destruct (Z.eqb _ _); [|discriminate].
  destruct (vnext v p) as [q|]; cbn [or_ub when]; [|discriminate]. destruct (vnext v b) as [q'|]; cbn [or_ub when]; [|discriminate].
  intros H. apply IH in H. lia.
Qed.
Lemma string_fuel : forall v ci t p, match_string v ci t p <> Fuel.
Proof.
  intros v ci. induction t as [|x t IH]; intros p; cbn [match_string]; [discriminate|].
  destruct (vend v p) as [[]|]; cbn [or_ub]; try discriminate. destruct (vget v p) as [y|]; cbn [or_ub]; try discriminate.
  destruct (vnext v p); cbn [or_ub]; try discriminate. destruct (match_lit ci x y); [apply IH|discriminate].
Qed.
Ltac or_case := repeat match goal with |- or_ub ?o _ <> _ => destruct o; cbn [or_ub] | |- (if ?b then _ else _) <> _ => destruct b end; discriminate.
Lemma assert_fuel : forall v ml a p, eval_assert v ml a p <> Fuel.
Proof. intros v ml a p. destruct a; cbn [eval_assert]; or_case. Qed.
Lemma around_fuel : forall v ci k p, around v ci k p <> Fuel.
Proof. intros v ci k p. unfold around. or_case. Qed.
Ltac fuel_case H :=
  repeat first
    [ discriminate H
    | match type of H with
      | or_ub ?o _ = Fuel => destruct o; cbn [or_ub when] in *
      | or_ill ?o _ = Fuel => destruct o; cbn [or_ill when] in *
      | (match ?x with _ => _ end) = Fuel => let E := fresh "E" in destruct x eqn:E; cbn [when] in *
      end ].
Lemma depth_all : forall opt n,
  (forall v w p f c stk, eval opt n v w p f c stk = Fuel -> N.of_nat n < cost opt n v w p f c stk) /\
  (forall v w p f c a i l, req_loop opt n v w p f c a i l = Fuel -> N.of_nat n < req_cost opt n v w p f c a i l) /\
  (forall v w p f c b i l tl, lazy_loop opt n v w p f c b i l tl = Fuel -> N.of_nat n < lazy_cost opt n v w p f c b i l tl) /\
  (forall v w st p f c a b i l tl, poss_loop opt n v w st p f c a b i l tl = Fuel -> N.of_nat n < poss_cost opt n v w st p f c a b i l tl) /\
  (forall v w p f c b i l tl, rec_loop opt n v w p f c b i l tl = Fuel -> N.of_nat n < rec_cost opt n v w p f c b i l tl).
Proof.
  intros opt. induction n as [|n (IHe & IHq & IHl & IHp & IHr)];
    [repeat split; intros; cbn [cost req_cost lazy_cost poss_cost rec_cost]; lia|].
  Ltac close IHe IHq IHl IHp IHr :=
    repeat match goal with
    | E : eval _ _ _ _ _ _ _ _ = Fuel |- _ => apply IHe in E
    | E : req_loop _ _ _ _ _ _ _ _ _ _ = Fuel |- _ => apply IHq in E
    | E : lazy_loop _ _ _ _ _ _ _ _ _ _ _ = Fuel |- _ => apply IHl in E
    | E : poss_loop _ _ _ _ _ _ _ _ _ _ _ _ _ = Fuel |- _ => apply IHp in E
    | E : rec_loop _ _ _ _ _ _ _ _ _ _ _ = Fuel |- _ => apply IHr in E
    | E : match_range_loop _ _ _ _ _ = Fuel |- _ => apply range_depth in E
    | E : match_string _ _ _ _ = Fuel |- _ => destruct (string_fuel _ _ _ _ E)
    | E : eval_assert _ _ _ _ = Fuel |- _ => destruct (assert_fuel _ _ _ _ E)
    | E : around _ _ _ _ = Fuel |- _ => destruct (around_fuel _ _ _ _ E)
    end; lia.
  split; [|split; [|split; [|split]]].
  - intros v w p f c stk H. cbn [eval cost] in *. fuel_case H; close IHe IHq IHl IHp IHr.
  - intros v w p f c a i l H. cbn [req_loop req_cost] in *. fuel_case H; close IHe IHq IHl IHp IHr.
  - intros v w p f c b i l tl H. cbn [lazy_loop lazy_cost] in *. fuel_case H; close IHe IHq IHl IHp IHr.
  - intros v w st p f c a b i l tl H. cbn [poss_loop poss_cost] in *. fuel_case H; close IHe IHq IHl IHp IHr.
  - intros v w p f c b i l tl H. cbn [rec_loop rec_cost] in *. fuel_case H; close IHe IHq IHl IHp IHr.
Qed.

(** More fuel does not change the count of an evaluation that ends. *)
Lemma range_stable : forall n m v p b e, (n <= m)%nat -> match_range_loop n v p b e <> Fuel -> range_cost m v p b e = range_cost n v p b e.
Proof.
  induction n as [|n IH]; intros m v p b e L H; [destruct H; reflexivity|]. destruct m as [|m]; [lia|]. revert H. cbn [match_range_loop range_cost].
  destruct (vend v p) as [t|]; cbn [or_ub when]; [|reflexivity]. destruct (negb t && negb (Nat.eqb e b))%bool; [|reflexivity].
  destruct (vget v p); cbn [or_ub when]; [|reflexivity]. destruct (vget v b); cbn [or_ub when]; [|reflexivity]. destruct (Z.eqb _ _); [|reflexivity].
  destruct (vnext v p) as [q|]; cbn [or_ub when]; [|reflexivity]. destruct (vnext v b) as [q'|]; cbn [or_ub when]; [|reflexivity].
  intros H. rewrite (IH m) by (lia || exact H). reflexivity.
Qed.
Lemma range_again : forall n m v p b e x, (n <= m)%nat -> match_range_loop n v p b e = x -> x <> Fuel -> match_range_loop m v p b e = x.
Proof. intros n m v p b e x L H Nx. destruct (match_range_mono n m v p b e L); congruence. Qed.
Lemma stable_all : forall opt n m, (n <= m)%nat ->
  (forall v w p f c stk, eval opt n v w p f c stk <> Fuel -> cost opt m v w p f c stk = cost opt n v w p f c stk) /\
  (forall v w p f c a i l, req_loop opt n v w p f c a i l <> Fuel -> req_cost opt m v w p f c a i l = req_cost opt n v w p f c a i l) /\
  (forall v w p f c b i l tl, lazy_loop opt n v w p f c b i l tl <> Fuel -> lazy_cost opt m v w p f c b i l tl = lazy_cost opt n v w p f c b i l tl) /\
  (forall v w st p f c a b i l tl, poss_loop opt n v w st p f c a b i l tl <> Fuel -> poss_cost opt m v w st p f c a b i l tl = poss_cost opt n v w st p f c a b i l tl) /\
  (forall v w p f c b i l tl, rec_loop opt n v w p f c b i l tl <> Fuel -> rec_cost opt m v w p f c b i l tl = rec_cost opt n v w p f c b i l tl).
Proof.
  intros opt. induction n as [|n IH]; intros m L; [repeat split; intros * H; destruct H; reflexivity|]. destruct m as [|m]; [lia|].
  assert (L' : (n <= m)%nat) by lia. specialize (IH m L') as (IHe & IHq & IHl & IHp & IHr). clear L.
  Ltac again L' IHe IHq IHl IHp IHr :=
    repeat match goal with
    | E : eval ?o ?n ?v ?w ?p ?f ?c ?s = ?x |- context [eval ?o ?m ?v ?w ?p ?f ?c ?s] =>
        match n with m => fail 1 | _ => rewrite (eval_mono n m o v w p f c s x L' E) by discriminate end
    | E : req_loop ?o ?n ?v ?w ?p ?f ?c ?a ?i ?l = ?x |- context [req_loop ?o ?m ?v ?w ?p ?f ?c ?a ?i ?l] =>
        match n with m => fail 1 | _ => rewrite (req_mono n m o v w p f c a i l x L' E) by discriminate end
    | E : rec_loop ?o ?n ?v ?w ?p ?f ?c ?a ?i ?l ?tl = ?x |- context [rec_loop ?o ?m ?v ?w ?p ?f ?c ?a ?i ?l ?tl] =>
        match n with m => fail 1 | _ => rewrite (rec_mono n m o v w p f c a i l tl x L' E) by discriminate end
    | E : match_range_loop ?n ?v ?p ?b ?e = ?x |- context [match_range_loop ?m ?v ?p ?b ?e] =>
        match n with m => fail 1 | _ => rewrite (range_again n m v p b e x L' E) by discriminate end
    | E : s_end ?x = Some _ |- context [s_end ?x] => rewrite E; cbn [when]
    | E : s_end ?x = None |- context [s_end ?x] => rewrite E; cbn [when]
    end;
    repeat first
    [ rewrite IHe by congruence | rewrite IHq by congruence | rewrite IHl by congruence | rewrite IHp by congruence | rewrite IHr by congruence
    | rewrite (range_stable _ _ _ _ _ _ L') by congruence ]; reflexivity.
  Ltac live_case H :=
  repeat first
    [ solve [destruct H; reflexivity]
    | match type of H with
      | or_ub ?o _ <> Fuel => let E := fresh "E" in destruct o eqn:E; cbn [or_ub when] in *
      | or_ill ?o _ <> Fuel => destruct o; cbn [or_ill when] in *
      | (match ?x with _ => _ end) <> Fuel => let E := fresh "E" in destruct x eqn:E; cbn [when] in *
      end ].
  split; [|split; [|split; [|split]]].
  - intros v w p f c stk H. cbn [eval cost] in *. live_case H; again L' IHe IHq IHl IHp IHr.
  - intros v w p f c a i l H. cbn [req_loop req_cost] in *. live_case H; again L' IHe IHq IHl IHp IHr.
  - intros v w p f c b i l tl H. cbn [lazy_loop lazy_cost] in *. live_case H; again L' IHe IHq IHl IHp IHr.
  - intros v w st p f c a b i l tl H. cbn [poss_loop poss_cost] in *. live_case H; again L' IHe IHq IHl IHp IHr.
  - intros v w p f c b i l tl H. cbn [rec_loop rec_cost] in *. live_case H; again L' IHe IHq IHl IHp IHr.
Qed.
