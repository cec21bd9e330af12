(** Independent specification of the regex language: which texts match and in which order of
    preference. Only the pattern AST (Chars.cls, Syntax.re) is shared with the model. *)
From Coq Require Import List ZArith NArith Bool Arith.
From Verif Require Import Chars Syntax.
Import ListNotations.

(** * Characters *)

(** The other case of an ASCII letter, any other value unchanged. *)
Definition swap_case (v : Z) : Z :=
  if (65 <=? v)%Z && (v <=? 90)%Z then (v + 32)%Z
  else if (97 <=? v)%Z && (v <=? 122)%Z then (v - 32)%Z
  else v.

(** A case-insensitive test accepts a value when it or its other case is accepted. *)
Definition fold_test (ci : bool) (P : Z -> bool) (v : Z) : bool :=
  P v || (ci && P (swap_case v)).

Definition lit_has (ci : bool) (lit v : Z) : bool := fold_test ci (Z.eqb lit) v.

(** Membership in a character class. *)
Fixpoint cls_has (ci : bool) (c : cls) (v : Z) : bool :=
  match c with
  | CChar lit => lit_has ci lit v
  | CRange a b => fold_test ci (fun x => (a <=? x)%Z && (x <=? b)%Z) v
  | CSet l => existsb (fun c' => cls_has ci c' v) l
  | CNeg l => negb (existsb (fun c' => cls_has ci c' v) l)
  | CEnum vs => existsb (fun lit => lit_has ci lit v) vs
  | CNegate l => negb (existsb (fun c' => cls_has ci c' v) l)
  | CProp tbl => existsb (fun p => (fst p <=? v)%Z && (v <=? snd p)%Z) tbl
  end.

(** * States: position in the subject and the log of group participations, latest first *)

Definition log := list (nat * (nat * nat)).
Definition state : Type := nat * log.

Fixpoint lookup (id : nat) (l : log) : option (nat * nat) :=
  match l with
  | [] => None
  | (i, span) :: tl => if Nat.eqb i id then Some span else lookup id tl
  end.

Section Subject.
  Variable s : list Z.       (* the subject *)
  Variables ml ci : bool.    (* multiline, case-insensitive *)
  Variable names : list Z -> option nat.   (* number of a named group *)

  (** * Zero-width tests at a position *)

  Definition char_before (P : Z -> bool) (p : nat) : bool :=
    match p with O => false | S q => match nth_error s q with Some v => P v | None => false end end.
  Definition char_after (P : Z -> bool) (p : nat) : bool :=
    match nth_error s p with Some v => P v | None => false end.

  Definition at_begin (p : nat) : bool := Nat.eqb p 0.
  Definition at_end (p : nat) : bool := Nat.eqb p (length s).

  Definition holds (a : assertion) (p : nat) : bool :=
    match a with
    | ASubjectBegin => at_begin p
    | ASubjectEnd => at_end p
    | ASubjectEndLine => at_end p || (ml && char_after (Z.eqb 10) p && at_end (S p))
    | ALineBegin => at_begin p || (ml && char_before (Z.eqb 10) p)
    | ALineEnd => at_end p || (ml && char_after (Z.eqb 10) p)
    end.

  (** Exactly one neighbour is in the class. *)
  Definition boundary (c : cls) (p : nat) : bool :=
    xorb (char_before (cls_has ci c) p) (char_after (cls_has ci c) p).

  (** What [.] accepts. *)
  Definition dot (v : Z) : bool := negb (ml && (v =? 10)%Z).

  (** The text [s[p ..]] starts with [t]. *)
  Fixpoint prefix_at (t : list Z) (p : nat) : bool :=
    match t with
    | [] => true
    | v :: tl => match nth_error s p with Some x => Z.eqb x v && prefix_at tl (S p) | None => false end
    end.

  Definition text (b e : nat) : list Z := firstn (e - b) (skipn b s).

  (** * Ordered outcomes *)

  Definition step (P : Z -> bool) (st : state) : list state :=
    match nth_error s (fst st) with
    | Some v => if P v then [(S (fst st), snd st)] else []
    | None => []
    end.

  Fixpoint walk (t : list Z) (st : state) : list state :=
    match t with
    | [] => [st]
    | c :: tl => flat_map (walk tl) (step (lit_has ci c) st)
    end.

  (** Backwards reading, for the content of a lookbehind (which the AST stores reversed). *)
  Definition bstep (P : Z -> bool) (p : nat) : list nat :=
    match p with
    | O => []
    | S q => match nth_error s q with Some v => if P v then [q] else [] | None => [] end
    end.
  Fixpoint bwalk (t : list Z) (p : nat) : list nat :=
    match t with
    | [] => [p]
    | c :: tl => flat_map (bwalk tl) (bstep (lit_has ci c) p)
    end.
  Fixpoint benum (r : re) (p : nat) : list nat :=
    let bseq := fix bseq (l : list re) (p : nat) : list nat :=
      match l with [] => [p] | x :: xs => flat_map (bseq xs) (benum x p) end in
    match r with
    | RCls c => bstep (cls_has ci c) p
    | RAny => bstep dot p
    | RStr t => bwalk t p
    | RSelect l => (fix alt (l : list re) : list nat :=
                      match l with [] => [] | x :: xs => benum x p ++ alt xs end) l
    | RSeq l => bseq l p
    | REmpty => [p]
    | RBound c => if boundary c p then [p] else []
    | RNotBound c => if boundary c p then [] else [p]
    | _ => []
    end.
  Fixpoint bseq (l : list re) (p : nat) : list nat :=
    match l with [] => [p] | x :: xs => flat_map (bseq xs) (benum x p) end.

  (** [cut = false]: the usual backtracking semantics. [cut = true]: the discipline of the library: an
      iteration of a repetition (and an atomic group) has to consume something and keeps only its
      preferred outcome (no backtracking into finished iterations). The theorems of C01-C03 say when
      both agree. *)
  Variable cut : bool.
  Definition keep {A} (l : list A) : list A := if cut then firstn 1 l else l.
  Definition advances (st st' : state) : bool := Nat.ltb (fst st) (fst st').
  Definition progress (st : state) (l : list state) : list state :=
    if cut then filter (advances st) l else l.

  Section Loop.
    Variable body : state -> list state.

    (** Exactly [k] iterations. *)
    Fixpoint mandatory (k : nat) (st : state) : list state :=
      match k with
      | O => [st]
      | S k' => flat_map (mandatory k') (keep (progress st (body st)))
      end.

    (** Further iterations, each of which has to consume something (as in ECMAScript); [b] is the
        maximal number ([0]: no limit) and [i] the number of iterations done. The first argument only
        makes the recursion structural: [S (length s - position)] is never used up. *)
    Fixpoint more_greedy (fuel : nat) (b i : N) (st : state) : list state :=
      match fuel with
      | O => []
      | S fuel' =>
          (if N.eqb b 0 || N.ltb i b
           then flat_map (more_greedy fuel' b (N.succ i)) (keep (filter (advances st) (body st)))
           else [])
          ++ [st]
      end.
    Fixpoint more_lazy (fuel : nat) (b i : N) (st : state) : list state :=
      match fuel with
      | O => []
      | S fuel' =>
          st ::
          (if N.eqb b 0 || N.ltb i b
           then flat_map (more_lazy fuel' b (N.succ i)) (keep (filter (advances st) (body st)))
           else [])
      end.

    (** Repetition [{a,b}] by kind. *)
    Definition iterate (k : rkind) (a b : N) (st : state) : list state :=
      if negb (N.eqb b 0) && N.ltb b a then [] else
      let rest more := flat_map (fun x => more (S (length s - fst x)) b a x)
                                (mandatory (N.to_nat a) st) in
      match k with
      | Greedy => rest more_greedy
      | Lazy => rest more_lazy
      | Possessive => firstn 1 (rest more_greedy)
      end.
  End Loop.

  (** All outcomes of [r] from a state, in order of preference. [RMode] is not covered. *)
  Fixpoint enum (r : re) (st : state) : list state :=
    let seq := fix seq (l : list re) (st : state) : list state :=
      match l with [] => [st] | x :: xs => flat_map (seq xs) (enum x st) end in
    match r with
    | RCls c => step (cls_has ci c) st
    | RAny => step dot st
    | RStr t => walk t st
    | RSelect l => (fix alt (l : list re) : list state :=
                      match l with [] => [] | x :: xs => enum x st ++ alt xs end) l
    | RSeq l => seq l st
    | REmpty => [st]
    | RReject => []
    | RRep k a b l => iterate (seq l) k a b st
    | RCap id l | RNCap id _ l =>
        map (fun st' => (fst st', (id, (fst st, fst st')) :: snd st')) (seq l st)
    | RBack id =>
        match lookup id (snd st) with
        | Some (b, e) => if prefix_at (text b e) (fst st) then [(fst st + (e - b), snd st)] else []
        | None => []
        end
    | RNBack nm =>
        match names nm with
        | Some id =>
            match lookup id (snd st) with
            | Some (b, e) =>
                if prefix_at (text b e) (fst st) then [(fst st + (e - b), snd st)] else []
            | None => []
            end
        | None => []
        end
    | RAhead false l => match seq l st with [] => [] | x :: _ => [(fst st, snd x)] end
    | RAhead true l => match seq l st with [] => [st] | _ :: _ => [] end
    | RBehind false l => match bseq l (fst st) with [] => [] | _ :: _ => [st] end
    | RBehind true l => match bseq l (fst st) with [] => [st] | _ :: _ => [] end
    | RAtomic l => firstn 1 (progress st (seq l st))
    | RBound c => if boundary c (fst st) then [st] else []
    | RNotBound c => if boundary c (fst st) then [] else [st]
    | RAssert a => if holds a (fst st) then [st] else []
    | RMode _ => []
    end.
  Fixpoint enums (l : list re) (st : state) : list state :=
    match l with [] => [st] | x :: xs => flat_map (enums xs) (enum x st) end.
End Subject.

(** * Declarative membership (no order, no possessive/atomic commitment)

    [sem s ml ci names r st st']: from [st], [r] can match up to [st']. *)
Section Sem.
  Variable s : list Z.
  Variables ml ci : bool.
  Variable names : list Z -> option nat.

  Fixpoint iter (R : state -> state -> Prop) (k : nat) (st st' : state) : Prop :=
    match k with
    | O => st' = st
    | S k' => exists m, R st m /\ iter R k' m st'
    end.

  Definition back_sem (id : nat) (st st' : state) : Prop :=
    exists b e, lookup id (snd st) = Some (b, e)
      /\ text s (fst st) (fst st + (e - b)) = text s b e
      /\ fst st + (e - b) <= length s
      /\ st' = (fst st + (e - b), snd st).

  Fixpoint sem (r : re) (st st' : state) : Prop :=
    let seq := fix seq (l : list re) (st st' : state) : Prop :=
      match l with
      | [] => st' = st
      | x :: xs => exists m, sem x st m /\ seq xs m st'
      end in
    match r with
    | RCls c => exists v, nth_error s (fst st) = Some v /\ cls_has ci c v = true
                          /\ st' = (S (fst st), snd st)
    | RAny => exists v, nth_error s (fst st) = Some v /\ ~ (ml = true /\ v = 10%Z)
                        /\ st' = (S (fst st), snd st)
    | RStr t => st' = (fst st + length t, snd st)
                /\ forall i c, nth_error t i = Some c ->
                   exists v, nth_error s (fst st + i) = Some v /\ lit_has ci c v = true
    | RSelect l => (fix alt (l : list re) : Prop :=
                      match l with [] => False | x :: xs => sem x st st' \/ alt xs end) l
    | RSeq l => seq l st st'
    | REmpty => st' = st
    | RReject => False
    | RRep _ a b l =>
        exists k : nat, (a <= N.of_nat k)%N /\ (b = 0%N \/ (N.of_nat k <= b)%N)
                        /\ iter (seq l) k st st'
    | RCap id l | RNCap id _ l =>
        exists m, seq l st m /\ st' = (fst m, (id, (fst st, fst m)) :: snd m)
    | RBack id => back_sem id st st'
    | RNBack nm => exists id, names nm = Some id /\ back_sem id st st'
    | RAhead false l => exists m, seq l st m /\ st' = (fst st, snd m)
    | RAhead true l => st' = st /\ forall m, ~ seq l st m
    | RBehind false l => st' = st /\ bseq s ml ci l (fst st) <> []
    | RBehind true l => st' = st /\ bseq s ml ci l (fst st) = []
    | RAtomic l => seq l st st'
    | RBound c => st' = st /\ boundary s ci c (fst st) = true
    | RNotBound c => st' = st /\ boundary s ci c (fst st) = false
    | RAssert a => st' = st /\ holds s ml a (fst st) = true
    | RMode _ => False
    end.
  Fixpoint sems (l : list re) (st st' : state) : Prop :=
    match l with
    | [] => st' = st
    | x :: xs => exists m, sem x st m /\ sems xs m st'
    end.
End Sem.

(** Number of a named group: the first group with this name, in the order of [groups]. *)
Fixpoint name_number (groups : list (nat * option (list Z))) (nm : list Z) : option nat :=
  match groups with
  | [] => None
  | (id, Some nm') :: tl => if list_eq_dec Z.eq_dec nm nm' then Some id else name_number tl nm
  | (_, None) :: tl => name_number tl nm
  end.
