(** The evaluator once more, counting its steps as it runs: what Cost.v counts is what is done. *)
From Coq Require Import List ZArith NArith Bool Lia Arith ZifyBool ZifyN ZifyNat.
From Verif Require Import Chars Syntax First Utf8 View Eval Api Cost.
Import ListNotations.

(** * Counting *)
(** An outcome and the number of steps made to reach it. *)
Definition cres (A : Type) : Type := (res A * N)%type.
Definition tick {A} (x : cres A) : cres A := (fst x, N.succ (snd x)).
Definition plus {A} (k : N) (x : cres A) : cres A := (fst x, (k + snd x)%N).
Definition free {A} (x : res A) : cres A := (x, 0%N).
Definition kub {A B} (o : option A) (k : A -> cres B) : cres B :=
  match o with Some a => k a | None => free UB end.
Definition kill {A B} (o : option A) (k : A -> cres B) : cres B :=
  match o with Some a => k a | None => free Ill end.
(** The step [x], then [ok] or [no] according to its outcome; other outcomes end the run. *)
Definition kcase {A B} (x : cres A) (ok : A -> cres B) (no : unit -> cres B) : cres B :=
  plus (snd x)
    match fst x with
    | Ok a => ok a | No => no tt | Fuel => free Fuel | UB => free UB | Ill => free Ill
    end.
Definition stop {A} : unit -> cres A := fun _ => free No.

(** evaluation.hpp lines 108-110; one step for every character compared. *)
Fixpoint k_string (v : view) (ci : bool) (str : list Z) (cur : nat) : cres nat :=
  match str with
  | [] => free (Ok cur)
  | ch :: tl =>
      tick (kub (vend v cur) (fun e => if e then free No else
            kub (vget v cur) (fun x =>
            kub (vnext v cur) (fun cur' =>
            if match_lit ci ch x then k_string v ci tl cur' else free No))))
  end.

(** evaluation.hpp lines 445-455; one step for every round of the loop. *)
Fixpoint k_range (n : nat) (v : view) (cur rcur rend : nat) : cres (nat * bool) :=
  match n with
  | O => free Fuel
  | S n' =>
      tick (kub (vend v cur) (fun e =>
      if negb e && negb (Nat.eqb rend rcur) then
        kub (vget v cur) (fun x =>
        kub (vget v rcur) (fun y =>
        if Z.eqb x y then
          kub (vnext v cur) (fun cur' =>
          kub (vnext v rcur) (fun rcur' => k_range n' v cur' rcur' rend))
        else free (Ok (cur, false))))
      else free (Ok (cur, Nat.eqb rcur rend))))
  end.

(** evaluation.hpp lines 46-562, as [eval]; one step for every call of [evaluate] and for every round
    of a loop. *)
Fixpoint k_eval (opt : bool) (n : nat) (v w : view) (cur : nat) (f : flags) (c : caps)
              (stk : list atom) {struct n} : cres caps :=
  match n with
  | O => free Fuel
  | S n => tick
    match stk with
    | [] => free No
    | [AAccept] => free (Ok (set_matched c))
    | [AEndCycle] =>
        if negb (vconv v) then free Ill
        else if f_block f then free No else free (Ok (set_matched (set_end_mark cur c)))
    | [AEndAhead] => free (Ok (set_matched c))
    | [AEndBehind] => free (Ok (set_matched c))
    | AAccept :: _ | AEndCycle :: _ | AEndAhead :: _ | AEndBehind :: _ => free No
    | AStart :: tl =>
        if vconv v then k_eval opt n v w cur f (set_start_mark cur c) tl else free Ill
    | AEnd :: tl =>
        if vconv v then k_eval opt n v w cur f (set_end_mark cur c) tl else free Ill
    | ANum id :: tl =>
        if vconv v then kill (end_capture id cur c) (fun c' => k_eval opt n v w cur f c' tl)
        else free Ill
    | AR r :: tl =>
      match r with
      | RCls k =>
          kub (vend v cur) (fun e => if e then free No else
          kub (vget v cur) (fun x =>
          if match_cls (f_ci f) k x then
            kub (vnext v cur) (fun cur' => k_eval opt n v w cur' (consumed_something f true) c tl)
          else free No))
      | RAny =>
          kub (vend v cur) (fun e => if e then free No else
          kub (if f_ml f then option_map (fun x => Z.eqb x 10) (vget v cur) else Some false)
            (fun nl => if nl then free No else
             kub (vnext v cur) (fun cur' =>
               k_eval opt n v w cur' (consumed_something f true) c tl)))
      | RStr str =>
          kcase (k_string v (f_ci f) str cur)
            (fun cur' => k_eval opt n v w cur' (consumed_something f (negb (Nat.eqb (length str) 0))) c tl)
            stop
      | RSelect [] => free No
      | RSelect (x :: xs) =>
          kcase (k_eval opt n v w cur f c (AR x :: tl))
            (fun c' => free (Ok c'))
            (fun _ => k_eval opt n v w cur f c (AR (RSelect xs) :: tl))
      | RSeq [] => free No
      | RSeq [x] => k_eval opt n v w cur f c (AR x :: tl)
      | RSeq (x :: xs) => k_eval opt n v w cur f c (AR x :: AR (RSeq xs) :: tl)
      | REmpty => k_eval opt n v w cur f c tl
      | RReject => free No
      | RAssert a =>
          kcase (free (eval_assert v (f_ml f) a cur))
            (fun y => if y : bool then k_eval opt n v w cur f c tl else free No) stop
      | RBound k =>
          kcase (free (around v (f_ci f) k cur))
            (fun y => if Bool.eqb (fst y) (snd y) then free No else k_eval opt n v w cur f c tl) stop
      | RNotBound k =>
          kcase (free (around v (f_ci f) k cur))
            (fun y => if Bool.eqb (fst y) (snd y) then k_eval opt n v w cur f c tl else free No) stop
      | RRep k a b content =>
          if negb (N.eqb b 0) && N.ltb b a then free No
          else
          match k with
          | Lazy =>
              if negb (vconv v) then free Ill else
              kcase (k_req opt n v w cur f c a 0 content)
                (fun y =>
                  kcase (k_eval opt n v w (fst y) (consumed_something f (negb (Nat.eqb cur (fst y)))) (snd y) tl)
                    (fun c' => free (Ok c'))
                    (fun _ => k_lazy opt n v w (fst y) f (snd y) b a content tl))
                stop
          | Possessive =>
              if negb (vconv v) then free Ill else
              k_poss opt n v w cur cur f c a b 0 content tl
          | Greedy =>
              match becomes_possessive opt content tl with
              | None => free Ill
              | Some true => k_eval opt n v w cur f c (AR (RRep Possessive a b content) :: tl)
              | Some false =>
                  if negb (vconv v) then free Ill else
                  kcase (k_req opt n v w cur f c a 0 content)
                    (fun y => k_rec opt n v w (fst y) f (snd y) b a content tl) stop
              end
          end
      | RCap id content | RNCap id _ content =>
          if vconv v then
            kill (start_capture id cur c)
              (fun c' => k_eval opt n v w cur f c' (AR (RSeq content) :: ANum id :: tl))
          else free Ill
      | RBack id =>
          if negb (vsame v) then free Ill else
          kill (get_id id c) (fun s =>
          if s_m s then
            kub (s_beg s) (fun b => kub (s_end s) (fun e =>
            kcase (k_range n v cur b e)
              (fun y => if snd y
                 then k_eval opt n v w (fst y) (consumed_something f (negb (Nat.eqb b e))) c tl
                 else free No) stop))
          else free No)
      | RNBack nm =>
          if negb (vsame v) then free Ill else
          kill (get_name nm (cl c)) (fun s =>
          if s_m s then
            kub (s_beg s) (fun b => kub (s_end s) (fun e =>
            kcase (k_range n v cur b e)
              (fun y => if snd y
                 then k_eval opt n v w (fst y) (consumed_something f (negb (Nat.eqb b e))) c tl
                 else free No) stop))
          else free No)
      | RAhead false content =>
          kcase (k_eval opt n v w cur f c [AR (RSeq content); AEndAhead])
            (fun c' => k_eval opt n v w cur f (unmatch c') tl) stop
      | RAhead true content =>
          kcase (k_eval opt n v w cur f c [AR (RSeq content); AEndAhead])
            (fun _ => free No) (fun _ => k_eval opt n v w cur f c tl)
      | RBehind false content =>
          kcase (k_eval opt n (rev_view v) w cur f c [AR (RSeq content); AEndBehind])
            (fun c' => k_eval opt n v w cur f (unmatch c') tl) stop
      | RBehind true content =>
          kcase (k_eval opt n (rev_view v) w cur f c [AR (RSeq content); AEndBehind])
            (fun _ => free No) (fun _ => k_eval opt n v w cur f c tl)
      | RAtomic content => k_eval opt n v w cur f c (AR (RRep Possessive 1 1 content) :: tl)
      | RMode m => k_eval opt n v w cur (add_mode f m) c tl
      end
    end
  end

with k_req (opt : bool) (n : nat) (v w : view) (cur : nat) (f : flags) (c : caps)
              (a i : N) (content : list re) {struct n} : cres (nat * caps) :=
  match n with
  | O => free Fuel
  | S n => tick
      (if less_than a i then
        kcase (k_eval opt n v w cur (not_empty_match f) c (cycle content))
          (fun c' => kub (s_end (c0 c')) (fun p =>
              k_req opt n v w p f (unmatch c') a (N.succ i) content)) stop
      else free (Ok (cur, c)))
  end

with k_lazy (opt : bool) (n : nat) (v w : view) (cur : nat) (f : flags) (c : caps)
               (b i : N) (content : list re) (tl : list atom) {struct n} : cres caps :=
  match n with
  | O => free Fuel
  | S n => tick
      (if less_than_or_infinite b i then
        kcase (k_eval opt n v w cur (not_empty_match f) c (cycle content))
          (fun c' => kub (s_end (c0 c')) (fun p =>
            kcase (k_eval opt n w w p (consumed_something f true) (unmatch c') tl)
              (fun c'' => free (Ok c''))
              (fun _ => k_lazy opt n v w p f (unmatch c') b (N.succ i) content tl))) stop
      else k_eval opt n v w cur (consumed_something f true) c tl)
  end

with k_poss (opt : bool) (n : nat) (v w : view) (start cur : nat) (f : flags) (c : caps)
               (a b i : N) (content : list re) (tl : list atom) {struct n} : cres caps :=
  match n with
  | O => free Fuel
  | S n => tick
      (if less_than_or_infinite b i then
        kcase (k_eval opt n v w cur (not_empty_match f) c (cycle content))
          (fun c' => kub (s_end (c0 c')) (fun p =>
              k_poss opt n v w start p f (unmatch c') a b (N.succ i) content tl))
          (fun _ => if less_than a i then free No
            else k_eval opt n v w cur (consumed_something f (negb (Nat.eqb start cur))) c tl)
      else k_eval opt n v w cur (consumed_something f (negb (Nat.eqb start cur))) c tl)
  end

with k_rec (opt : bool) (n : nat) (v w : view) (cur : nat) (f : flags) (c : caps)
              (b i : N) (content : list re) (tl : list atom) {struct n} : cres caps :=
  match n with
  | O => free Fuel
  | S n => tick
      (if less_than_or_infinite b i then
        kcase (k_eval opt n v w cur (not_empty_match f) c (cycle content))
          (fun c' => kub (s_end (c0 c')) (fun p =>
            kcase (k_rec opt n v w p f (unmatch c') b (N.succ i) content tl)
              (fun c'' => free (Ok c''))
              (fun _ => k_eval opt n v w cur (consumed_something f true) c tl)))
          (fun _ => k_eval opt n v w cur (consumed_something f true) c tl)
      else k_eval opt n v w cur (consumed_something f true) c tl)
  end.

Section CountedCalls.
  Variables (opt : bool) (n : nat) (v w : view) (f : flags) (r : re).
  (** wrapper.hpp lines 68-78. *)
  Definition k_match (begin : nat) : cres caps :=
    kcase (k_eval opt n v w begin f (fresh r) [AStart; AR r; AR (RAssert ASubjectEnd); AEnd; AAccept])
      (fun c => free (Ok c)) (fun _ => free (Ok (fresh r))).
  (** wrapper.hpp lines 108-117. *)
  Definition k_starts_with (begin : nat) : cres caps :=
    kcase (k_eval opt n v w begin f (fresh r) [AStart; AR r; AEnd; AAccept])
      (fun c => free (Ok c)) (fun _ => free (Ok (fresh r))).
  (** wrapper.hpp lines 80-100; one more step for every round. *)
  Fixpoint k_search_loop (m : nat) (it : nat) : cres caps :=
    match m with
    | O => free Fuel
    | S m' =>
        tick (kub (vend v it) (fun e =>
        if negb e && negb (starts_with_anchor f r) then
          kcase (k_eval opt n v w it f (fresh r) [AStart; AR r; AEnd; AAccept])
            (fun c => free (Ok c))
            (fun _ => kub (vnext v it) (fun it' => k_search_loop m' it'))
        else
          kcase (k_eval opt n v w it f (fresh r) [AStart; AR r; AEnd; AAccept])
            (fun c => free (Ok c)) (fun _ => free (Ok (set_end_mark it (fresh r))))))
    end.
  Definition k_search (begin : nat) : cres caps := k_search_loop n begin.
End CountedCalls.

(** * Counting changes no outcome *)
Lemma fst_kub : forall A B (o : option A) (k : A -> cres B) (g : A -> res B), (forall a, fst (k a) = g a) ->
  fst (kub o k) = or_ub o g.
Proof. intros A B [a|] k g H; cbn; auto. Qed.
Lemma fst_kill : forall A B (o : option A) (k : A -> cres B) (g : A -> res B), (forall a, fst (k a) = g a) ->
  fst (kill o k) = or_ill o g.
Proof. intros A B [a|] k g H; cbn; auto. Qed.
Lemma fst_kcase : forall A B (x : cres A) (ok : A -> cres B) no, fst (kcase x ok no) =
  match fst x with Ok a => fst (ok a) | No => fst (no tt) | Fuel => Fuel | UB => UB | Ill => Ill end.
Proof. intros A B [[a| | | |] k] ok no; reflexivity. Qed.
Lemma fst_if : forall A (b : bool) (x y : cres A) x' y', fst x = x' -> fst y = y' ->
  fst (if b then x else y) = if b then x' else y'.
Proof. intros A [] *; auto. Qed.
Lemma fst_tick : forall A (x : cres A), fst (tick x) = fst x.
Proof. reflexivity. Qed.

Lemma k_string_fst : forall v ci str p, fst (k_string v ci str p) = match_string v ci str p.
Proof.
  intros v ci str. induction str as [|ch tl IH]; intros p; [reflexivity|].
  cbn [k_string match_string]. rewrite fst_tick.
  apply fst_kub. intros e. apply fst_if; [reflexivity|]. apply fst_kub. intros x. apply fst_kub. intros q.
  apply fst_if; [apply IH|reflexivity].
Qed.
Lemma k_range_fst : forall n v p b e, fst (k_range n v p b e) = match_range_loop n v p b e.
Proof.
  induction n as [|n IH]; intros v p b e; [reflexivity|].
  cbn [k_range match_range_loop]. rewrite fst_tick.
  apply fst_kub. intros x. apply fst_if; [|reflexivity]. apply fst_kub. intros y. apply fst_kub. intros z.
  apply fst_if; [|reflexivity]. apply fst_kub. intros q. apply fst_kub. intros q'. apply IH.
Qed.

Theorem k_fst : forall opt n,
  (forall v w p f c stk, fst (k_eval opt n v w p f c stk) = eval opt n v w p f c stk) /\
  (forall v w p f c a i l, fst (k_req opt n v w p f c a i l) = req_loop opt n v w p f c a i l) /\
  (forall v w p f c b i l tl, fst (k_lazy opt n v w p f c b i l tl) = lazy_loop opt n v w p f c b i l tl) /\
  (forall v w st p f c a b i l tl, fst (k_poss opt n v w st p f c a b i l tl) = poss_loop opt n v w st p f c a b i l tl) /\
  (forall v w p f c b i l tl, fst (k_rec opt n v w p f c b i l tl) = rec_loop opt n v w p f c b i l tl).
Proof.
  intros opt n. induction n as [|n (HE & HQ & HL & HP & HR)].
  { repeat split; reflexivity. }
  split; [|split; [|split; [|split]]].
  - intros v w p f c stk. cbn [k_eval eval]. rewrite fst_tick.
    destruct stk as [|a tl]; [reflexivity|].
    destruct a as [r| | | | | | |id];
      try (destruct tl; [reflexivity|reflexivity]);
      try (apply fst_if; [apply HE|reflexivity]).
    2:{ destruct tl; [|reflexivity]. destruct (negb (vconv v)), (f_block f); reflexivity. }
    2:{ apply fst_if; [|reflexivity]. apply fst_kill. intros. apply HE. }
    destruct r as
      [ k | | t | l | l | | | k a b l | id l | id nm l | id | nm
      | neg l | neg l | l | k | k | a | m ].
    + apply fst_kub. intros e. apply fst_if; [reflexivity|]. apply fst_kub. intros x.
      apply fst_if; [|reflexivity]. apply fst_kub. intros. apply HE.
    + apply fst_kub. intros e. apply fst_if; [reflexivity|]. apply fst_kub. intros x.
      apply fst_if; [reflexivity|]. apply fst_kub. intros. apply HE.
    + rewrite fst_kcase, k_string_fst. destruct (match_string _ _ _ _); try reflexivity. apply HE.
    + destruct l as [|x xs]; [reflexivity|]. rewrite fst_kcase, HE.
      destruct (eval _ _ _ _ _ _ _ _); try reflexivity. apply HE.
    + destruct l as [|x [|y ys]]; [reflexivity|apply HE|apply HE].
    + apply HE.
    + reflexivity.
    + apply fst_if; [reflexivity|]. destruct k.
      * destruct (becomes_possessive _ _ _) as [[]|]; [apply HE| |reflexivity].
        apply fst_if; [reflexivity|]. rewrite fst_kcase, HQ.
        destruct (req_loop _ _ _ _ _ _ _ _ _ _) as [[p' c']| | | |]; try reflexivity. apply HR.
      * apply fst_if; [reflexivity|]. rewrite fst_kcase, HQ.
        destruct (req_loop _ _ _ _ _ _ _ _ _ _) as [[p' c']| | | |]; try reflexivity.
        cbn [fst snd]. rewrite fst_kcase, HE. destruct (eval _ _ _ _ _ _ _ _); try reflexivity. apply HL.
      * apply fst_if; [reflexivity|]. apply HP.
    + apply fst_if; [|reflexivity]. apply fst_kill. intros. apply HE.
    + apply fst_if; [|reflexivity]. apply fst_kill. intros. apply HE.
    + apply fst_if; [reflexivity|]. apply fst_kill. intros x. apply fst_if; [|reflexivity].
      apply fst_kub. intros b. apply fst_kub. intros e. rewrite fst_kcase, k_range_fst.
      destruct (match_range_loop _ _ _ _ _) as [[q []]| | | |]; try reflexivity. apply HE.
    + apply fst_if; [reflexivity|]. apply fst_kill. intros x. apply fst_if; [|reflexivity].
      apply fst_kub. intros b. apply fst_kub. intros e. rewrite fst_kcase, k_range_fst.
      destruct (match_range_loop _ _ _ _ _) as [[q []]| | | |]; try reflexivity. apply HE.
    + destruct neg; rewrite fst_kcase, HE; destruct (eval _ _ _ _ _ _ _ _); try reflexivity; apply HE.
    + destruct neg; rewrite fst_kcase, HE; destruct (eval _ _ _ _ _ _ _ _); try reflexivity; apply HE.
    + apply HE.
    + rewrite fst_kcase. cbn [free fst]. destruct (around _ _ _ _) as [[x y]| | | |]; try reflexivity.
      apply fst_if; [reflexivity|apply HE].
    + rewrite fst_kcase. cbn [free fst]. destruct (around _ _ _ _) as [[x y]| | | |]; try reflexivity.
      apply fst_if; [apply HE|reflexivity].
    + rewrite fst_kcase. cbn [free fst]. destruct (eval_assert _ _ _ _) as [[]| | | |]; try reflexivity. apply HE.
    + apply HE.
  - intros v w p f c a i l. cbn [k_req req_loop]. rewrite fst_tick. apply fst_if; [|reflexivity].
    rewrite fst_kcase, HE. destruct (eval _ _ _ _ _ _ _ _); try reflexivity. apply fst_kub. intros. apply HQ.
  - intros v w p f c b i l tl. cbn [k_lazy lazy_loop]. rewrite fst_tick. apply fst_if; [|apply HE].
    rewrite fst_kcase, HE. destruct (eval _ _ _ _ _ _ _ _); try reflexivity. apply fst_kub. intros q.
    rewrite fst_kcase, HE. destruct (eval _ _ _ _ _ _ _ _); try reflexivity. apply HL.
  - intros v w st p f c a b i l tl. cbn [k_poss poss_loop]. rewrite fst_tick. apply fst_if; [|apply HE].
    rewrite fst_kcase, HE. destruct (eval _ _ _ _ _ _ _ _); try reflexivity.
    + apply fst_kub. intros. apply HP.
    + apply fst_if; [reflexivity|apply HE].
  - intros v w p f c b i l tl. cbn [k_rec rec_loop]. rewrite fst_tick. apply fst_if; [|apply HE].
    rewrite fst_kcase, HE. destruct (eval _ _ _ _ _ _ _ _); try reflexivity; [|apply HE].
    apply fst_kub. intros q. rewrite fst_kcase, HR. destruct (rec_loop _ _ _ _ _ _ _ _ _ _ _); try reflexivity. apply HE.
Qed.
Definition k_eval_fst opt n := proj1 (k_fst opt n).

Theorem k_match_fst : forall opt n v w f r p, fst (k_match opt n v w f r p) = exec_match opt n v w f r p.
Proof.
  intros. unfold k_match, exec_match, returned. rewrite fst_kcase, k_eval_fst.
  destruct (eval _ _ _ _ _ _ _ _); reflexivity.
Qed.
Theorem k_starts_with_fst : forall opt n v w f r p, fst (k_starts_with opt n v w f r p) = exec_starts_with opt n v w f r p.
Proof.
  intros. unfold k_starts_with, exec_starts_with, returned. rewrite fst_kcase, k_eval_fst.
  destruct (eval _ _ _ _ _ _ _ _); reflexivity.
Qed.
Theorem k_search_fst : forall opt n v w f r p, fst (k_search opt n v w f r p) = exec_search opt n v w f r p.
Proof.
  intros opt n v w f r. unfold k_search, exec_search.
  assert (H : forall m p, fst (k_search_loop opt n v w f r m p) = search_loop opt n v w f r m p); [|intros; apply H].
  induction m as [|m IH]; intros p; [reflexivity|]. cbn [k_search_loop search_loop]. rewrite fst_tick.
  apply fst_kub. intros e. apply fst_if.
  - rewrite fst_kcase, k_eval_fst. destruct (eval _ _ _ _ _ _ _ _); try reflexivity. apply fst_kub. intros. apply IH.
  - unfold search_last. rewrite fst_kcase, k_eval_fst. destruct (eval _ _ _ _ _ _ _ _); reflexivity.
Qed.


(** * Cost.v counts every step *)
Lemma le_kcase : forall A B (x : cres A) (ok : A -> cres B) no y k m, fst x = y -> (snd x <= k)%N ->
  (match y with Ok a => snd (ok a) | No => snd (no tt) | _ => 0 end <= m)%N -> (snd (kcase x ok no) <= k + m)%N.
Proof. intros A B [x j] ok no y k m <- H1 H2. unfold kcase, plus. cbn [fst snd] in *. destruct x; cbn [snd free] in *; lia. Qed.
Lemma le_kub : forall A B (o : option A) (k : A -> cres B) g, (forall a, (snd (k a) <= g a)%N) -> (snd (kub o k) <= when o g)%N.
Proof. intros A B [a|] k g H; cbn; [apply H|lia]. Qed.
Lemma le_kill : forall A B (o : option A) (k : A -> cres B) g, (forall a, (snd (k a) <= g a)%N) -> (snd (kill o k) <= when o g)%N.
Proof. intros A B [a|] k g H; cbn; [apply H|lia]. Qed.
Lemma le_if : forall A (b : bool) (x y : cres A) i j, (snd x <= i)%N -> (snd y <= j)%N -> (snd (if b then x else y) <= if b then i else j)%N.
Proof. intros A [] *; auto. Qed.
Lemma le_free : forall A (x : res A) m, (snd (free x) <= m)%N.
Proof. intros. apply N.le_0_l. Qed.
Lemma le_tick : forall A (x : cres A) m, (snd x <= m)%N -> (snd (tick x) <= 1 + m)%N.
Proof. intros A x m H. unfold tick. cbn [snd]. rewrite <- N.add_1_l. apply N.add_le_mono_l, H. Qed.

Lemma k_string_cost : forall v ci str p, (snd (k_string v ci str p) <= N.of_nat (length str))%N.
Proof.
  intros v ci str. induction str as [|ch tl IH]; intros p; [cbn; lia|]. cbn [k_string length].
  rewrite Nat2N.inj_succ, <- N.add_1_l. apply le_tick.
  destruct (vend v p) as [[]|]; cbn [kub]; try apply le_free.
  destruct (vget v p); cbn [kub]; try apply le_free. destruct (vnext v p); cbn [kub]; try apply le_free.
  destruct (match_lit _ _ _); [apply IH|apply le_free].
Qed.
Lemma k_range_cost : forall n v p b e, (snd (k_range n v p b e) <= range_cost n v p b e)%N.
Proof.
  induction n as [|n IH]; intros v p b e; [cbn; lia|]. cbn [k_range range_cost]. apply le_tick.
  apply le_kub. intros x. apply le_if; [|apply le_free]. apply le_kub. intros y. apply le_kub. intros z.
  apply le_if; [|apply le_free]. apply le_kub. intros q. apply le_kub. intros q'. apply IH.
Qed.

Theorem k_cost : forall opt n,
  (forall v w p f c stk, (snd (k_eval opt n v w p f c stk) <= cost opt n v w p f c stk)%N) /\
  (forall v w p f c a i l, (snd (k_req opt n v w p f c a i l) <= req_cost opt n v w p f c a i l)%N) /\
  (forall v w p f c b i l tl, (snd (k_lazy opt n v w p f c b i l tl) <= lazy_cost opt n v w p f c b i l tl)%N) /\
  (forall v w st p f c a b i l tl, (snd (k_poss opt n v w st p f c a b i l tl) <= poss_cost opt n v w st p f c a b i l tl)%N) /\
  (forall v w p f c b i l tl, (snd (k_rec opt n v w p f c b i l tl) <= rec_cost opt n v w p f c b i l tl)%N).
Proof.
  intros opt n. induction n as [|n (HE & HQ & HL & HP & HR)].
  { repeat split; intros; apply N.le_0_l. }
  destruct (k_fst opt n) as (FE & FQ & FL & FP & FR).
  split; [|split; [|split; [|split]]].
  - intros v w p f c stk. cbn [k_eval cost]. apply le_tick.
    destruct stk as [|a tl]; [apply le_free|].
    destruct a as [r| | | | | | |id];
      try (destruct tl; apply le_free);
      try (apply le_if; [apply HE|apply le_free]).
    2:{ destruct tl; [|apply le_free]. destruct (negb (vconv v)), (f_block f); apply le_free. }
    2:{ apply le_if; [|apply le_free]. apply le_kill. intros. apply HE. }
    destruct r as
      [ k | | t | l | l | | | k a b l | id l | id nm l | id | nm
      | neg l | neg l | l | k | k | a | m ].
    + apply le_kub. intros e. apply le_if; [apply le_free|]. apply le_kub. intros x.
      apply le_if; [|apply le_free]. apply le_kub. intros. apply HE.
    + apply le_kub. intros e. apply le_if; [apply le_free|]. apply le_kub. intros x.
      apply le_if; [apply le_free|]. apply le_kub. intros. apply HE.
    + eapply le_kcase; [apply k_string_fst|apply k_string_cost|].
      destruct (match_string _ _ _ _); try apply le_free; try lia. apply HE.
    + destruct l as [|x xs]; [apply le_free|]. eapply le_kcase; [apply FE|apply HE|].
      destruct (eval _ _ _ _ _ _ _ _); try apply le_free; try lia. apply HE.
    + destruct l as [|x [|y ys]]; [apply le_free|apply HE|apply HE].
    + apply HE.
    + apply le_free.
    + apply le_if; [apply le_free|]. destruct k.
      * destruct (becomes_possessive _ _ _) as [[]|]; [apply HE| |apply le_free].
        apply le_if; [apply le_free|]. eapply le_kcase; [apply FQ|apply HQ|].
        destruct (req_loop _ _ _ _ _ _ _ _ _ _) as [[p' c']| | | |]; try apply le_free; try lia. apply HR.
      * apply le_if; [apply le_free|]. eapply le_kcase; [apply FQ|apply HQ|].
        destruct (req_loop _ _ _ _ _ _ _ _ _ _) as [[p' c']| | | |]; try apply le_free; try lia.
        cbn [fst snd]. eapply le_kcase; [apply FE|apply HE|].
        destruct (eval _ _ _ _ _ _ _ _); try apply le_free; try lia. apply HL.
      * apply le_if; [apply le_free|]. apply HP.
    + apply le_if; [|apply le_free]. apply le_kill. intros. apply HE.
    + apply le_if; [|apply le_free]. apply le_kill. intros. apply HE.
    + apply le_if; [apply le_free|]. apply le_kill. intros x. apply le_if; [|apply le_free].
      apply le_kub. intros b. apply le_kub. intros e. eapply le_kcase; [apply k_range_fst|apply k_range_cost|].
      destruct (match_range_loop _ _ _ _ _) as [[q []]| | | |]; try apply le_free; try lia; cbn [fst snd].
      apply HE.
    + apply le_if; [apply le_free|]. apply le_kill. intros x. apply le_if; [|apply le_free].
      apply le_kub. intros b. apply le_kub. intros e. eapply le_kcase; [apply k_range_fst|apply k_range_cost|].
      destruct (match_range_loop _ _ _ _ _) as [[q []]| | | |]; try apply le_free; try lia; cbn [fst snd].
      apply HE.
    + destruct neg; (eapply le_kcase; [apply FE|apply HE|]; destruct (eval _ _ _ _ _ _ _ _); try apply le_free; try lia; apply HE).
    + destruct neg; (eapply le_kcase; [apply FE|apply HE|]; destruct (eval _ _ _ _ _ _ _ _); try apply le_free; try lia; apply HE).
    + apply HE.
    + change (match around v (f_ci f) k p with Ok (before, after) => if Bool.eqb before after then 0%N else cost opt n v w p f c tl | _ => 0%N end)
        with (0 + match around v (f_ci f) k p with Ok (before, after) => if Bool.eqb before after then 0%N else cost opt n v w p f c tl | _ => 0%N end)%N.
      eapply le_kcase; [reflexivity|apply le_free|]. cbn [free fst].
      destruct (around _ _ _ _) as [[x y]| | | |]; try apply le_free; try lia. apply le_if; [apply le_free|apply HE].
    + change (match around v (f_ci f) k p with Ok (before, after) => if Bool.eqb before after then cost opt n v w p f c tl else 0%N | _ => 0%N end)
        with (0 + match around v (f_ci f) k p with Ok (before, after) => if Bool.eqb before after then cost opt n v w p f c tl else 0%N | _ => 0%N end)%N.
      eapply le_kcase; [reflexivity|apply le_free|]. cbn [free fst].
      destruct (around _ _ _ _) as [[x y]| | | |]; try apply le_free; try lia. apply le_if; [apply HE|apply le_free].
    + change (match eval_assert v (f_ml f) a p with Ok true => cost opt n v w p f c tl | _ => 0%N end)
        with (0 + match eval_assert v (f_ml f) a p with Ok true => cost opt n v w p f c tl | _ => 0%N end)%N.
      eapply le_kcase; [reflexivity|apply le_free|]. cbn [free fst].
      destruct (eval_assert _ _ _ _) as [[]| | | |]; try apply le_free; try lia. apply HE.
    + apply HE.
  - intros v w p f c a i l. cbn [k_req req_cost]. apply le_tick. apply le_if; [|apply le_free].
    eapply le_kcase; [apply FE|apply HE|].
    destruct (eval _ _ _ _ _ _ _ _); try apply le_free; try lia. apply le_kub. intros. apply HQ.
  - intros v w p f c b i l tl. cbn [k_lazy lazy_cost]. apply le_tick. apply le_if; [|apply HE].
    eapply le_kcase; [apply FE|apply HE|].
    destruct (eval _ _ _ _ _ _ _ _); try apply le_free; try lia. apply le_kub. intros q.
    eapply le_kcase; [apply FE|apply HE|]. destruct (eval _ _ _ _ _ _ _ _); try apply le_free; try lia. apply HL.
  - intros v w st p f c a b i l tl. cbn [k_poss poss_cost]. apply le_tick. apply le_if; [|apply HE].
    eapply le_kcase; [apply FE|apply HE|].
    destruct (eval _ _ _ _ _ _ _ _); try apply le_free; try lia.
    + apply le_kub. intros. apply HP.
    + apply le_if; [apply le_free|apply HE].
  - intros v w p f c b i l tl. cbn [k_rec rec_cost]. apply le_tick. apply le_if; [|apply HE].
    eapply le_kcase; [apply FE|apply HE|].
    destruct (eval _ _ _ _ _ _ _ _); try apply le_free; try lia; [|apply HE].
    apply le_kub. intros q. eapply le_kcase; [apply FR|apply HR|].
    destruct (rec_loop _ _ _ _ _ _ _ _ _ _ _); try apply le_free; try lia. apply HE.
Qed.
Definition k_eval_cost opt n := proj1 (k_cost opt n).

Theorem k_match_cost : forall opt n v w f r p, (snd (k_match opt n v w f r p) <= match_cost opt n v w f r p)%N.
Proof.
  intros. unfold k_match, match_cost. rewrite <- (N.add_0_r (cost _ _ _ _ _ _ _ _)).
  eapply le_kcase; [reflexivity|apply k_eval_cost|]. destruct (fst _); cbn [snd free]; lia.
Qed.
Theorem k_starts_with_cost : forall opt n v w f r p, (snd (k_starts_with opt n v w f r p) <= starts_cost opt n v w f r p)%N.
Proof.
  intros. unfold k_starts_with, starts_cost. rewrite <- (N.add_0_r (cost _ _ _ _ _ _ _ _)).
  eapply le_kcase; [reflexivity|apply k_eval_cost|]. destruct (fst _); cbn [snd free]; lia.
Qed.
Theorem k_search_cost : forall opt n v w f r p, (snd (k_search opt n v w f r p) <= search_cost opt n v w f r n p)%N.
Proof.
  intros opt n v w f r. unfold k_search.
  assert (H : forall m p, (snd (k_search_loop opt n v w f r m p) <= search_cost opt n v w f r m p)%N); [|intros; apply H].
  induction m as [|m IH]; intros p; [cbn; lia|]. cbn [k_search_loop search_cost]. apply le_tick.
  apply le_kub. intros e. unfold starts_cost. destruct (negb e && negb (starts_with_anchor f r)).
  - eapply le_kcase; [apply k_eval_fst|apply k_eval_cost|]. destruct (eval _ _ _ _ _ _ _ _); try apply le_free; try lia.
    apply le_kub. intros. apply IH.
  - eapply le_kcase; [apply k_eval_fst|apply k_eval_cost|]. destruct (eval _ _ _ _ _ _ _ _); cbn [snd free]; lia.
Qed.
