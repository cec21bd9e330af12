(** The lists of search_all, tokenize and split for any account [first] of what an attempt at a position gives, and with the account of
    C64, which is exact for all patterns it covers. *)
From Coq Require Import List ZArith NArith Bool Arith Lia.
From Verif Require Import Chars Syntax First View Eval Api Spec CharProofs EvalMono EvalInv SpecProps ApiProofs Checks EvalSound
  Match Term Anchor Iter IterProofs Views RangeSim Mode ModeSem ModeEnum ModeCalls ModeOpt ModeRefine Follow ModeTop Compiles Total RangeSpec RangeEnd
  EvalTop Possess Committed CommittedRefine CommittedTop.
Import ListNotations.

(** * The lists *)
Section Lists.
Variable s : list Z.
(** The end and the groups of the match at a position, if there is one. *)
Variable first : nat -> option state.
Fixpoint nearest (d p : nat) : option (nat * state) :=
  match first p with
  | Some st => Some (p, st)
  | None => match d with O => None | S d' => nearest d' (S p) end
  end.
Fixpoint matches_by (fuel : nat) (start : bool) (p : nat) : list (nat * state) :=
  match fuel with
  | O => []
  | S fuel' =>
      if negb start && Nat.eqb p (length s) then []
      else match nearest (length s - p) p with
           | Some (b, st) => (b, st) :: matches_by fuel' false (fst st)
           | None => []
           end
  end.
Fixpoint tokens_by (fuel : nat) (start : bool) (p : nat) : list (nat * state) :=
  match fuel with
  | O => []
  | S fuel' =>
      if negb start && Nat.eqb p (length s) then []
      else match first p with
           | Some st => (p, st) :: tokens_by fuel' false (fst st)
           | None => []
           end
  end.
(** No match is empty. *)
Definition eating : Prop := forall p lg, p <= length s -> first p <> Some (p, lg).
End Lists.
Definition listed (a : range_method) (s : list Z) (first : nat -> option state) : list (nat * state) :=
  match a with
  | GSearchAll => matches_by s first (S (length s)) true 0
  | GTokenize => tokens_by s first (S (length s)) true 0
  | GSplit => pieces s 0 (matches_by s first (S (length s)) true 0)
  end.
(** These are the lists of C57 when [first] is the preferred outcome. *)
Lemma nearest_same : forall s f r d p, nearest (first_at s f r) d p = leftmost s f r d p.
Proof. intros s f r. induction d as [|d IH]; intros p; cbn [nearest leftmost]; destruct (first_at s f r p); auto. Qed.
Lemma matches_same : forall s f r fuel start p, matches_by s (first_at s f r) fuel start p = matches_from s f r fuel start p.
Proof.
  intros s f r. induction fuel as [|fuel IH]; intros start p; [reflexivity|]. cbn [matches_by matches_from]. rewrite nearest_same.
  destruct (negb start && Nat.eqb p (length s)); [reflexivity|]. destruct (leftmost s f r (length s - p) p) as [[b st]|]; [|reflexivity]. rewrite IH. reflexivity.
Qed.
Lemma tokens_same : forall s f r fuel start p, tokens_by s (first_at s f r) fuel start p = tokens_from s f r fuel start p.
Proof.
  intros s f r. induction fuel as [|fuel IH]; intros start p; [reflexivity|]. cbn [tokens_by tokens_from].
  destruct (negb start && Nat.eqb p (length s)); [reflexivity|]. destruct (first_at s f r p); [|reflexivity]. rewrite IH. reflexivity.
Qed.
(** Two accounts that agree give the same lists. *)
Lemma listed_ext : forall a s g h, (forall p, p <= length s -> g p = h p) -> (forall p st, p <= length s -> g p = Some st -> p <= fst st <= length s) -> listed a s g = listed a s h.
Proof.
  intros a s g h E B.
  assert (Nr : forall d p, p + d <= length s -> nearest g d p = nearest h d p).
  { induction d as [|d IH]; intros p L; cbn [nearest]; rewrite <- E by lia; destruct (g p); auto. apply IH. lia. }
  assert (Nb : forall d p b st, p + d <= length s -> nearest g d p = Some (b, st) -> fst st <= length s).
  { induction d as [|d IH]; intros p b st L H; cbn [nearest] in H; destruct (g p) as [x|] eqn:G; try discriminate.
    - injection H as <- <-. apply (B p x); [lia|exact G].
    - injection H as <- <-. apply (B p x); [lia|exact G].
    - apply (IH (S p) b st); [lia|exact H]. }
  assert (M : forall fuel start p, p <= length s -> matches_by s g fuel start p = matches_by s h fuel start p).
  { induction fuel as [|fuel IH]; intros start p L; [reflexivity|]. cbn [matches_by]. destruct (negb start && Nat.eqb p (length s)); [reflexivity|].
    rewrite <- Nr by lia. destruct (nearest g (length s - p) p) as [[b st]|] eqn:G; [|reflexivity]. rewrite IH; [reflexivity|]. apply (Nb (length s - p) p b st); [lia|exact G]. }
  assert (T : forall fuel start p, p <= length s -> tokens_by s g fuel start p = tokens_by s h fuel start p).
  { induction fuel as [|fuel IH]; intros start p L; [reflexivity|]. cbn [tokens_by]. destruct (negb start && Nat.eqb p (length s)); [reflexivity|].
    rewrite <- E by exact L. destruct (g p) as [st|] eqn:G; [|reflexivity]. rewrite IH; [reflexivity|]. apply (B p st); assumption. }
  destruct a; cbn [listed]; rewrite ?M, ?T by lia; reflexivity.
Qed.

(** Is every match not empty, or at least at the end of the subject; for split, is no match empty and is there none at the very end; for
    split of an anchored pattern, does it match the whole subject (or fail in an empty one). *)
Definition ends_by (a : range_method) (anchored : bool) (s : list Z) (first : nat -> option state) : bool :=
  let len := length s in
  match a with
  | GSplit =>
      if anchored then
        match first 0 with
        | Some (e, _) => Nat.eqb e len && negb (Nat.eqb len 0)
        | None => Nat.eqb len 0
        end
      else
        match first len with
        | Some _ => false
        | None => forallb (fun x => Nat.ltb (fst x) (fst (snd x))) (listed GSearchAll s first)
        end
  | _ => forallb (fun x => Nat.ltb (fst x) (fst (snd x)) || Nat.eqb (fst (snd x)) len) (listed a s first)
  end.
Lemma leads_by : forall len (l : list (nat * state)),
  forallb (fun x => Nat.ltb (fst x) (fst (snd x)) || Nat.eqb (fst (snd x)) len) l = true <-> Forall (leads_on len) l.
Proof.
  intros len l. rewrite forallb_forall, Forall_forall. unfold leads_on. split; intros H x Hx; specialize (H x Hx).
  - apply orb_true_iff in H as [H|H]; [left; apply Nat.ltb_lt, H|right; apply Nat.eqb_eq, H].
  - apply orb_true_iff. destruct H as [H|H]; [left; apply Nat.ltb_lt, H|right; apply Nat.eqb_eq, H].
Qed.
Lemma nonempty_by : forall l : list (nat * state), forallb (fun x => Nat.ltb (fst x) (fst (snd x))) l = true <-> Forall nonempty l.
Proof.
  intros l. rewrite forallb_forall, Forall_forall. unfold nonempty. split; intros H x Hx; specialize (H x Hx); apply Nat.ltb_lt; exact H.
Qed.
(** Without empty matches the loops end, but for split of an anchored pattern. *)
Lemma eating_ends : forall a anchored s first, (forall p e lg, p <= length s -> first p = Some (e, lg) -> p <= e <= length s) -> eating s first ->
  (a = GSplit -> anchored = false) -> ends_by a anchored s first = true.
Proof.
  intros a anchored s first B H Ha.
  assert (N1 : forall d p b e lg, p + d <= length s -> nearest first d p = Some (b, (e, lg)) -> b < e <= length s).
  { induction d as [|d IH]; intros p b e lg L X; cbn [nearest] in X; destruct (first p) as [[e' lg']|] eqn:F; try discriminate.
    - injection X as <- <- <-. destruct (Nat.eq_dec p e'); [subst; destruct (H e' lg' ltac:(lia) F)|]. apply B in F; lia.
    - injection X as <- <- <-. destruct (Nat.eq_dec p e'); [subst; destruct (H e' lg' ltac:(lia) F)|]. apply B in F; lia.
    - apply (IH (S p) b e lg); [lia|exact X]. }
  assert (M : forall fuel start p, p <= length s -> Forall nonempty (matches_by s first fuel start p)).
  { induction fuel as [|fuel IH]; intros start p L; cbn [matches_by]; [constructor|]. destruct (negb start && Nat.eqb p (length s)); [constructor|].
    destruct (nearest first (length s - p) p) as [[b [e lg]]|] eqn:X; [|constructor]. apply N1 in X; [|lia].
    constructor; [unfold nonempty; cbn [fst snd]; lia|]. apply IH. cbn [fst]. lia. }
  assert (T : forall fuel start p, p <= length s -> Forall nonempty (tokens_by s first fuel start p)).
  { induction fuel as [|fuel IH]; intros start p L; cbn [tokens_by]; [constructor|]. destruct (negb start && Nat.eqb p (length s)); [constructor|].
    destruct (first p) as [[e lg]|] eqn:X; [|constructor]. assert (p <> e) by (intros ->; exact (H e lg L X)). apply B in X; [|exact L].
    constructor; [unfold nonempty; cbn [fst snd]; lia|]. apply IH. cbn [fst]. lia. }
  assert (W : forall l, Forall nonempty l -> Forall (leads_on (length s)) l) by (apply Forall_impl; intros x Hx; left; exact Hx).
  destruct a; unfold ends_by; cbv zeta.
  - apply leads_by, W, M. lia.
  - apply leads_by, W, T. lia.
  - rewrite (Ha eq_refl). destruct (first (length s)) as [[e lg]|] eqn:X.
    + pose proof (B _ _ _ (le_n _) X). assert (e = length s) by lia. subst e. destruct (H _ _ (le_n _) X).
    + apply nonempty_by, M. lia.
Qed.

(** * The ranges *)
Section Ranges.
Variables (opt : bool) (s : list Z) (f : flags) (r : re).
Hypothesis Hw : well_numbered r.
Hypothesis Ht : terminating r = true.
Hypothesis Hc : compiles opt true r tail_starts = true.
Variable first : nat -> option state.
Let len := length s.
Let v := arr_view s.
Hypothesis attempt_first : forall n p, p <= len ->
  match attempt opt n s f r p with
  | Ok c => exists e lg, first p = Some (e, lg) /\ group c 0 = Some (p, e) /\ captures_are r c lg
  | No => first p = None
  | _ => True
  end.

Lemma finds_first : forall p c, p <= len -> finds opt s f r p c ->
  exists e lg, first p = Some (e, lg) /\ group c 0 = Some (p, e) /\ captures_are r c lg.
Proof. intros p c Hl [n H]. pose proof (attempt_first n p Hl) as P. rewrite H in P. exact P. Qed.
Lemma misses_first : forall p, p <= len -> misses opt s f r p -> first p = None.
Proof.
  intros p Hl Hm. destruct (exec_total opt s f r Hw Ht Hc MStarts p ltac:(discriminate) Hl) as (c & n & H). cbn [exec] in H. unfold exec_starts_with in H.
  pose proof (attempt_first n p Hl) as P. unfold attempt in P. apply returned_cases in H as [H|[H _]].
  - destruct (Hm c). exists n. exact H.
  - rewrite H in P. exact P.
Qed.

Lemma nearest_none : forall d p, (forall q, p <= q <= p + d -> first q = None) -> nearest first d p = None.
Proof.
  induction d as [|d IH]; intros p H; cbn [nearest]; rewrite H by lia; [reflexivity|]. apply IH. intros q Hq. apply H. lia.
Qed.
Lemma nearest_some : forall d p b st, p <= b <= p + d -> first b = Some st ->
  (forall q, p <= q < b -> first q = None) -> nearest first d p = Some (b, st).
Proof.
  induction d as [|d IH]; intros p b st Hb Hf H; cbn [nearest].
  - assert (b = p) by lia. subst b. rewrite Hf. reflexivity.
  - destruct (Nat.eq_dec b p) as [->|Hne]; [rewrite Hf; reflexivity|]. rewrite H by lia. apply IH; auto; try lia.
    intros q Hq. apply H. lia.
Qed.

(** * Exactly when they end *)
Hypothesis first_range : forall p e lg, p <= len -> first p = Some (e, lg) -> p <= e <= len.
Hypothesis no_zero : ~ In 0 (map fst (find_captures r)).
Definition by_matches : list (nat * state) := matches_by s first (S len) true 0.
Definition by_tokens : list (nat * state) := tokens_by s first (S len) true 0.
Definition by_pieces : list (nat * state) := pieces s 0 by_matches.
(** Leftmost from [p] on, and at [p] only. *)
Definition next_match (p : nat) : option (nat * state) := nearest first (len - p) p.
Definition next_token (p : nat) : option (nat * state) := match first p with Some st => Some (p, st) | None => None end.
Lemma matches_list : forall fuel start p, matches_by s first fuel start p = list_from s next_match fuel start p.
Proof. induction fuel as [|fuel IH]; intros start p; [reflexivity|]. cbn [matches_by list_from]. fold len. fold (next_match p).
  destruct (negb start && Nat.eqb p len); [reflexivity|]. destruct (next_match p) as [[b st]|]; [rewrite IH|]; reflexivity. Qed.
Lemma tokens_list : forall fuel start p, tokens_by s first fuel start p = list_from s next_token fuel start p.
Proof. induction fuel as [|fuel IH]; intros start p; [reflexivity|]. cbn [tokens_by list_from]. unfold next_token at 1.
  destruct (negb start && Nat.eqb p (length s)); [reflexivity|]. destruct (first p) as [st|]; [rewrite IH|]; reflexivity. Qed.

Lemma search_look : zero_safe r = true -> forall n p c, p <= len -> exec_search opt n v v f r p = Ok c ->
  match next_match p with
  | Some (b, (e, lg)) => matched c = true /\ p <= b <= e /\ e <= len /\ s_beg (c0 c) = Some b /\ s_end (c0 c) = Some e /\ reports r c (b, (e, lg))
  | None => matched c = false
  end.
Proof.
  intros Hz n p c Hl H. unfold next_match. apply search_from in H; try assumption.
  destruct H as [(M & q & e & Q1 & Q2 & Q3 & Q4 & Q5 & Q6 & Q7) | (M & N & _)].
  - destruct (finds_first q c ltac:(lia) Q3) as (e' & lg & F1 & F2 & F3).
    assert (e' = e) by congruence. subst e'.
    rewrite (nearest_some (len - p) p q (e, lg)); [|unfold len in *; lia|exact F1|].
    + repeat split; try assumption; try lia.
    + intros q' Hq. apply (misses_first); [lia|]. apply Q4. exact Hq.
  - rewrite nearest_none; [exact M|]. intros q Hq. apply (misses_first); [unfold len in *; lia|]. apply N. unfold len in *. lia.
Qed.
Lemma token_look : forall n p c, p <= len -> exec_starts_with opt n v v f r p = Ok c ->
  match next_token p with
  | Some (b, (e, lg)) => matched c = true /\ p <= b <= e /\ e <= len /\ s_beg (c0 c) = Some b /\ s_end (c0 c) = Some e /\ reports r c (b, (e, lg))
  | None => matched c = false
  end.
Proof.
  intros n p c Hl H. unfold next_token. apply starts_from in H; try assumption. destruct H as [(M & Q3 & e & Q1 & Q6 & Q7) | (M & N)].
  - destruct (finds_first p c Hl Q3) as (e' & lg & F1 & F2 & F3).
    assert (e' = e) by congruence. subst e'. rewrite F1. repeat split; try assumption; try lia.
    destruct Q3 as [m Q3]. apply found in Q3; try assumption. destruct Q3 as (_ & ? & E1 & _). exact E1.
  - rewrite (misses_first p Hl N). exact M.
Qed.
Lemma leftmost_from : forall d p b st, nearest first d p = Some (b, st) -> p <= b <= p + d /\ first b = Some st.
Proof.
  induction d as [|d IH]; intros p b st H; cbn [nearest] in H; destruct (first p) as [st'|] eqn:E; try discriminate.
  - injection H as <- <-. split; [lia|exact E].
  - injection H as <- <-. split; [lia|exact E].
  - apply IH in H as [H1 H2]. split; [lia|exact H2].
Qed.
Lemma match_again : forall p b lg, p <= len -> next_match p = Some (b, (b, lg)) -> next_match b = Some (b, (b, lg)).
Proof.
  intros p b lg Hl H. apply leftmost_from in H as [H1 H2]. unfold next_match. destruct (len - b); cbn [nearest]; rewrite H2; reflexivity.
Qed.
Lemma token_again : forall p b lg, p <= len -> next_token p = Some (b, (b, lg)) -> next_token b = Some (b, (b, lg)).
Proof. intros p b lg _ H. unfold next_token in *. destruct (first p) as [st|] eqn:E; [|discriminate]. injection H as <- ->. rewrite E. reflexivity. Qed.

Theorem search_all_exact : zero_safe r = true ->
  (Forall (leads_on len) (by_matches) ->
    exists l N, (forall n, N <= n -> ctre_search_all opt n s f r = Ok l) /\ Forall2 (reports r) l (by_matches)) /\
  (~ Forall (leads_on len) (by_matches) -> forall n, ctre_search_all opt n s f r = Fuel).
Proof.
  intros Hz. unfold by_matches. rewrite matches_list.
  assert (A : forall p, p <= length s -> exists c N, forall n, N <= n -> exec_search opt n v v f r p = Ok c).
  { intros p Hl. exact (exec_answers opt s f r Hw Ht Hc MSearch p ltac:(discriminate) Hl). }
  split; intros H.
  - exact (all_ends s r (fun n => exec_search opt n v v f r) next_match A (search_look Hz) H).
  - apply (never_fuel opt s f r Hw Hc GSearchAll). intros n l.
    exact (all_never s r (fun n => exec_search opt n v v f r) next_match (search_look Hz) match_again H n l).
Qed.
Theorem tokenize_exact :
  (Forall (leads_on len) (by_tokens) ->
    exists l N, (forall n, N <= n -> ctre_tokenize opt n s f r = Ok l) /\ Forall2 (reports r) l (by_tokens)) /\
  (~ Forall (leads_on len) (by_tokens) -> forall n, ctre_tokenize opt n s f r = Fuel).
Proof.
  unfold by_tokens. rewrite tokens_list.
  assert (A : forall p, p <= length s -> exists c N, forall n, N <= n -> exec_starts_with opt n v v f r p = Ok c).
  { intros p Hl. exact (exec_answers opt s f r Hw Ht Hc MStarts p ltac:(discriminate) Hl). }
  split; intros H.
  - exact (all_ends s r (fun n => exec_starts_with opt n v v f r) next_token A token_look H).
  - apply (never_fuel opt s f r Hw Hc GTokenize). intros n l.
    exact (all_never s r (fun n => exec_starts_with opt n v v f r) next_token token_look token_again H n l).
Qed.

(** split: a match at the very end of the subject is looked for as well, and found again and again. *)
Lemma matches_cuts : first len = None -> forall fuel (start : bool) p, p <= len -> matches_by s first fuel start p = cuts_from next_match fuel p.
Proof. 
  intros Hn. induction fuel as [|fuel IH]; intros start p Hl; [reflexivity|]. cbn [matches_by cuts_from]. fold len. fold (next_match p).
  destruct (negb start && Nat.eqb p len) eqn:E.
  - apply andb_true_iff in E as [_ E]. apply Nat.eqb_eq in E. subst p. unfold next_match. rewrite Nat.sub_diag. cbn [nearest]. rewrite Hn. reflexivity.
  - destruct (next_match p) as [[b [e lg]]|] eqn:L; [|reflexivity]. rewrite IH; [reflexivity|]. cbn [fst].
    apply leftmost_from in L as [L1 L2]. apply first_range in L2; [apply L2|lia].
Qed.
Lemma cuts_empty : first len <> None -> forall fuel p, p <= len -> len - p < fuel -> ~ Forall nonempty (cuts_from next_match fuel p).
Proof. 
  intros Hn. induction fuel as [|fuel IH]; intros p Hl Hf HA; [lia|]. cbn [cuts_from] in HA.
  destruct (next_match p) as [[b [e lg]]|] eqn:L.
  - inversion HA as [|? ? A1 A2]; subst. unfold nonempty in A1. cbn [fst snd] in *. apply leftmost_from in L as [L1 L2].
    apply first_range in L2; [|lia]. apply (IH e); [lia|lia|exact A2].
  - clear - Hn Hl L. apply Hn. unfold next_match in L. remember (len - p) as d eqn:E. revert p Hl E L.
    induction d as [|d IH]; intros p Hl E L; cbn [nearest] in L; destruct (first p) eqn:F; try discriminate.
    + replace len with p by lia. exact F.
    + apply (IH (S p)); [lia|lia|exact L].
Qed.
(** Not anchored: nothing is found at the end of the subject, and no match is empty. *)
Definition splits : Prop := first len = None /\ Forall nonempty (by_matches).
Lemma splits_dec : splits \/ ~ splits.
Proof.
  unfold splits. destruct (first len); [right; intros [H _]; discriminate|].
  destruct (Forall_dec nonempty (fun x => lt_dec (fst x) (fst (snd x))) (by_matches)); [left; auto|right; tauto].
Qed.
Theorem split_exact : zero_safe r = true -> starts_with_anchor f r = false ->
  (splits -> exists l N, (forall n, N <= n -> ctre_split opt n s f r = Ok l) /\ Forall2 (reports r) l (by_pieces)) /\
  (~ splits -> forall n, ctre_split opt n s f r = Fuel).
Proof.
  intros Hz Ha.
  assert (A : forall p, p <= length s -> exists c N, forall n, N <= n -> exec_search opt n v v f r p = Ok c).
  { intros p Hl. exact (exec_answers opt s f r Hw Ht Hc MSearch p ltac:(discriminate) Hl). }
  split.
  - intros [H1 H2]. unfold by_pieces.
    assert (E : by_matches = cuts_from next_match (S len) 0) by (apply (matches_cuts H1); lia). rewrite E in H2 |- *.
    apply (split_all_ends s r (fun n => exec_search opt n v v f r) next_match A (search_look Hz)); [|exact no_zero|exact H2].
    intros n p c Hl X L. pose proof (search_look Hz n p c Hl X) as M. rewrite L in M. apply search_from in X; try assumption.
    destruct X as [(M' & _) | (_ & _ & X)]; [congruence|]. apply X. exact Ha.
  - intros H. apply (never_fuel opt s f r Hw Hc GSplit). intros n l.
    apply (split_all_never s r (fun n => exec_search opt n v v f r) next_match (search_look Hz) match_again (S len)).
    destruct (first len) eqn:E.
    + apply cuts_empty; [congruence|lia|lia].
    + intros F. apply H. split; [exact E|]. unfold by_matches. fold len. rewrite (matches_cuts E (S len) true 0 ltac:(lia)). exact F.
Qed.
(** Anchored: the failing search leaves the position where it began as the end, so only a match of the whole subject (or
    nothing at all in an empty subject) ends the loop. *)
Definition anchored_splits : Prop :=
  if Nat.eqb len 0 then first 0 = None else exists lg, first 0 = Some (len, lg).
Theorem split_anchored_exact : zero_safe r = true -> starts_with_anchor f r = true ->
  (anchored_splits -> exists l N, (forall n, N <= n -> ctre_split opt n s f r = Ok l) /\ Forall2 (reports r) l (by_pieces)) /\
  (~ anchored_splits -> forall n, ctre_split opt n s f r = Fuel).
Proof.
  intros Hz Ha.
  assert (A : forall p, p <= length s -> exists c N, forall n, N <= n -> exec_search opt n v v f r p = Ok c).
  { intros p Hl. exact (exec_answers opt s f r Hw Ht Hc MSearch p ltac:(discriminate) Hl). }
  assert (M0 : forall p, 0 < p -> misses opt s f r p).
  { intros p Hp0 c' [m Hc']. apply (anchored_nowhere_else opt m s f r p c' Hz Ha) in Hc'; [assumption|lia]. }
  assert (None0 : forall p, 0 < p -> p <= len -> first p = None).
  { intros p Hp0 Hl. apply (misses_first p Hl). apply M0. exact Hp0. }
  assert (Next0 : next_match 0 = match first 0 with Some st => Some (0, st) | None => None end).
  { unfold next_match. destruct (first 0) as [st|] eqn:E.
    - destruct (len - 0); cbn [nearest]; rewrite E; reflexivity.
    - apply nearest_none. intros q Hq. destruct q as [|q]; [exact E|]. apply None0; lia. }
  assert (NextS : forall p, 0 < p -> p <= len -> next_match p = None).
  { intros p Hp0 Hl. unfold next_match. apply nearest_none. intros q Hq. apply None0; lia. }
  assert (Left : forall n p c, p <= len -> exec_search opt n v v f r p = Ok c -> next_match p = None -> c = set_end_mark p (fresh r)).
  { intros n p c Hl E L. apply (anchored_exec opt s f r Hw n p c Hz Ha Hl); [|exact E].
    pose proof (search_look Hz n p c Hl E) as M. rewrite L in M. apply search_from in E; try assumption.
    destruct E as [(M' & _) | (_ & E & _)]; [congruence|]. apply E. lia. }
  destruct (A 0 ltac:(lia)) as (c1 & N1 & H1). pose proof (search_look Hz N1 0 c1 ltac:(lia) (H1 N1 (le_n _))) as L. rewrite Next0 in L.
  unfold anchored_splits. destruct (first 0) as [[e lg]|] eqn:F0.
  - destruct L as (M & L1 & L2 & L3 & L4 & L5). set (c2 := set_start_mark 0 (set_end_mark 0 c1)).
    assert (P : reports r c2 (0, (0, lg))) by (apply piece_reports with (e := e); [exact no_zero|exact M|exact L5]).
    destruct (Nat.eqb_spec len 0) as [Z0|Z0].
    + (* empty subject, found: found again *)
      split; [intros; discriminate|]. intros _. apply (never_fuel opt s f r Hw Hc GSplit). intros n l.
      apply (split_all_never s r (fun n => exec_search opt n v v f r) next_match (search_look Hz) match_again 1).
      cbn [cuts_from]. rewrite Next0. intros FA. inversion FA as [|? ? A1 A2]; subst. unfold nonempty in A1. cbn [fst snd] in A1. lia.
    + split.
      * intros [lg' E]. injection E as -> ->.
        destruct (A len (le_n _)) as (c3 & N3 & H3). pose proof (NextS len ltac:(lia) (le_n _)) as L6.
        pose proof (Left N3 len c3 (le_n _) (H3 N3 (le_n _)) L6) as E3.
        exists [c2; set_matched (set_start_mark len c3)], (S (S (S (max N1 N3)))). split.
        { intros [|[|[|n]]] Hn; try lia. change (ctre_split opt (S (S (S n))) s f r) with (si_all (exec_search opt (S (S (S n))) v v f r) v r (S (S (S n)))).
          unfold si_all, si_begin. rewrite H1 by lia. cbn [bind]. unfold si_take, modify_match. rewrite M, L3, L4. cbn [or_ub bind].
          fold c2. remember (exec_search opt (S (S (S n))) v v f r) as ex eqn:Eex.
          assert (Hex : ex len = Ok c3) by (subst ex; apply H3; lia). clear Eex.
          cbn [si_loop]. unfold si_ne_end. cbn [si_match]. change (matched c2) with (matched c1). rewrite M.
          unfold si_next. cbn [si_cur si_last]. unfold v; cbn [arr_view vend or_ub]. rewrite andb_false_r, Hex. cbn [bind].
          unfold si_take. rewrite E3. cbn [bind or_ub match_rest matched]. change (matched (set_end_mark len (fresh r))) with false. cbv iota.
          unfold match_rest. cbn [c0 s_end set_matched set_start_mark set_end_mark or_ub bind si_match si_cur si_last]. 
          change (s_m _) with true. cbv iota. fold len. rewrite Nat.eqb_refl. cbn [andb bind]. reflexivity. }
        unfold by_pieces, by_matches. rewrite matches_list. cbn [list_from negb andb]. rewrite Next0. cbn [fst].
        assert (X : forall k, list_from s next_match k false len = []) by (intros [|k]; [reflexivity|]; cbn [list_from]; unfold len; rewrite Nat.eqb_refl; reflexivity).
        fold len. rewrite X. cbn [pieces]. constructor; [exact P|]. constructor; [|constructor]. rewrite E3. apply rest_reports. exact no_zero.
      * intros Hno. apply (never_fuel opt s f r Hw Hc GSplit). intros n l H.
        assert (He : e <> len) by (intros ->; apply Hno; eauto).
        change (si_all (exec_search opt n v v f r) v r n = Ok l) in H. unfold si_all, si_begin in H.
        apply bind_ok in H as (it & H2 & H). apply bind_ok in H2 as (c & H2 & H3).
        pose proof (search_look Hz n 0 c ltac:(lia) H2) as K. rewrite Next0 in K. destruct K as (K & K1 & K2 & K3 & K4 & _).
        unfold si_take, modify_match in H3. rewrite K, K3, K4 in H3. cbn [or_ub] in H3. injection H3 as <-.
        destruct (Nat.eq_dec e 0) as [->|E0].
        { revert H. refine (split_loop_stuck s r (fun n => exec_search opt n v v f r) next_match (search_look Hz) n 0 lg ltac:(lia) Next0 n _ l _). exact K. }
        revert H. apply anchored_loop; try assumption; [unfold len in *; lia|apply M0; lia].
  - pose proof (Left N1 0 c1 ltac:(lia) (H1 N1 (le_n _)) Next0) as E1. destruct (Nat.eqb_spec len 0) as [Z0|Z0].
    + split; [|intros X; contradiction X; reflexivity]. intros _. exists [set_matched (set_start_mark 0 c1)], (S (S N1)). split.
      * intros [|[|n]] Hn; try lia. change (ctre_split opt (S (S n)) s f r) with (si_all (exec_search opt (S (S n)) v v f r) v r (S (S n))).
        unfold si_all, si_begin. rewrite H1 by lia. cbn [bind]. unfold si_take. rewrite L. unfold match_rest. rewrite E1 at 1.
        cbn [c0 s_end set_matched set_start_mark set_end_mark or_ub bind]. rewrite E1.
        pose proof (si_rest s r (exec_search opt (S (S n)) v v f r) (set_matched (set_start_mark 0 (set_end_mark 0 (fresh r)))) n eq_refl) as R.
        assert (Z1 : length s = 0) by exact Z0. rewrite Z1 in R. exact R.
      * unfold by_pieces, by_matches. rewrite matches_list. cbn [list_from negb andb]. rewrite Next0. cbn [pieces]. constructor; [|constructor].
        rewrite E1. pose proof (rest_reports s r no_zero 0) as R. assert (Z1 : length s = 0) by exact Z0. rewrite Z1 in *. exact R.
    + split; [intros [lg E]; discriminate|]. intros _. apply (never_fuel opt s f r Hw Hc GSplit). intros n l H.
      change (si_all (exec_search opt n v v f r) v r n = Ok l) in H. unfold si_all, si_begin in H.
      apply bind_ok in H as (it & H2 & H). apply bind_ok in H2 as (c & H2 & H3).
      pose proof (Left n 0 c ltac:(lia) H2 Next0) as ->. unfold si_take in H3. change (matched (set_end_mark 0 (fresh r))) with false in H3.
      cbv iota in H3. unfold match_rest in H3. cbn [c0 s_end set_matched set_start_mark set_end_mark or_ub] in H3. injection H3 as <-.
      revert H. apply anchored_loop; try assumption; [unfold len in *; lia| |reflexivity].
      pose proof (search_from opt s f r Hw n 0 _ Hz ltac:(lia) H2) as [(X & _)|(_ & X & _)]; [discriminate|]. apply X. lia.
Qed.
Theorem range_by : forall a, (a <> GTokenize -> zero_safe r = true) ->
  if ends_by a (starts_with_anchor f r) s first then
    exists l N, (forall n, N <= n -> range_array a opt n s f r = Ok l) /\ Forall2 (reports r) l (listed a s first)
  else forall n, range_array a opt n s f r = Fuel.
Proof.
  intros a Hz. destruct a; unfold ends_by, range_array; cbv zeta.
  - destruct (search_all_exact (Hz ltac:(discriminate))) as [E1 E2].
    match goal with |- if ?b then _ else _ => destruct b eqn:B end.
    + apply E1. apply leads_by. exact B.
    + apply E2. rewrite <- leads_by. intros X. exact (diff_true_false (eq_trans (eq_sym X) B)).
  - destruct tokenize_exact as [E1 E2].
    match goal with |- if ?b then _ else _ => destruct b eqn:B end.
    + apply E1. apply leads_by. exact B.
    + apply E2. rewrite <- leads_by. intros X. exact (diff_true_false (eq_trans (eq_sym X) B)).
  - specialize (Hz ltac:(discriminate)). destruct (starts_with_anchor f r) eqn:Ha.
    + destruct (split_anchored_exact Hz Ha) as [E1 E2]. unfold anchored_splits, len in *.
      destruct (first 0) as [[e lg]|]; destruct (Nat.eqb_spec (length s) 0) as [Z0|Z0].
      * rewrite andb_false_r. apply E2. discriminate.
      * rewrite andb_true_r. destruct (Nat.eqb_spec e (length s)) as [->|E]; [apply E1; eauto|apply E2]. intros [lg' X]. congruence.
      * apply E1. reflexivity.
      * apply E2. intros [lg X]. discriminate.
    + destruct (split_exact Hz Ha) as [E1 E2]. unfold splits, len in *.
      destruct (first (length s)) as [st|]; [apply E2; intros [X _]; discriminate|].
      match goal with |- if ?b then _ else _ => destruct b eqn:B end.
      * apply E1. split; [reflexivity|]. apply nonempty_by. exact B.
      * apply E2. intros [_ X]. apply nonempty_by in X. exact (diff_true_false (eq_trans (eq_sym X) B)).
Qed.
End Ranges.

(** * The exact account *)
Definition exact_at (opt : bool) (s : list Z) (f : flags) (r : re) (p : nat) : option state := hd_error (committed opt tail_starts s f r p).
Section Exact.
Variables (opt : bool) (s : list Z) (f : flags) (r : re).
Hypothesis s_ok : forallb val_ok s = true.
Hypothesis r_ok : meant_check f r = true.
Hypothesis Hw : well_numbered r.
Lemma exact_first : forall n p, p <= length s ->
  match attempt opt n s f r p with
  | Ok c => exists e lg, exact_at opt s f r p = Some (e, lg) /\ group c 0 = Some (p, e) /\ captures_are r c lg
  | No => exact_at opt s f r p = None
  | _ => True
  end.
Proof.
  intros n p Hp. pose proof (c_starts_first opt s f r s_ok r_ok n p Hp) as H. unfold exact_at. destruct (attempt opt n s f r p) eqn:E; auto.
  - destruct H as ([e lg] & rest & H1 & H2 & H3). exists e, lg. rewrite H1. split; [reflexivity|]. split; [|exact H3].
    destruct (attempt_ok _ _ _ _ _ _ _ Hw Hp E) as (E1 & E2 & _). apply c0_group; assumption.
  - rewrite H. reflexivity.
Qed.
Lemma exact_ids : ~ In 0 (map fst (find_captures r)).
Proof. apply andb_true_iff in r_ok as [F1 _]. exact (xwf_ids _ _ _ _ F1). Qed.
Lemma exact_eating : nullfree r = true -> eating s (exact_at opt s f r).
Proof.
  intros Hn p lg Hp E. unfold exact_at, committed in E.
  destruct (xenum s (names_of r) (possessify opt r tail_starts) (mode_of f, (f_block f, (p, [])))) as [|y l] eqn:X; [discriminate|].
  cbn [map hd_error] in E. injection E as E.
  destruct (xenum_progress s (names_of r) (possessify opt r tail_starts) (mode_of f, (f_block f, (p, []))) y) as [H _].
  - split; [exact Hp|constructor].
  - rewrite X. left. reflexivity.
  - specialize (H (proj1 (possessify_eats opt r tail_starts) Hn)). unfold ate in H. rewrite E in H. cbn [fst snd] in H. lia.
Qed.
Lemma exact_range : forall p e lg, p <= length s -> exact_at opt s f r p = Some (e, lg) -> p <= e <= length s.
Proof.
  intros p e lg Hp E. unfold exact_at, committed in E.
  destruct (xenum s (names_of r) (possessify opt r tail_starts) (mode_of f, (f_block f, (p, [])))) as [|y l] eqn:X; [discriminate|].
  cbn [map hd_error] in E. injection E as E.
  destruct (xenum_forth s (names_of r) (possessify opt r tail_starts) (mode_of f, (f_block f, (p, []))) y) as [[H _] H2].
  - rewrite X. left. reflexivity.
  - split; [exact Hp|constructor].
  - rewrite E in H, H2. cbn [fst snd] in H, H2. lia.
Qed.
Theorem range_exact : forall a, terminating r = true -> compiles opt true r tail_starts = true -> (a <> GTokenize -> zero_safe r = true) ->
  if ends_by a (starts_with_anchor f r) s (exact_at opt s f r) then
    exists l N, (forall n, N <= n -> range_array a opt n s f r = Ok l) /\ Forall2 (reports r) l (listed a s (exact_at opt s f r))
  else forall n, range_array a opt n s f r = Fuel.
Proof. intros a Ht Hc Hz. apply (range_by opt s f r Hw Ht Hc (exact_at opt s f r) exact_first exact_range exact_ids a Hz). Qed.
End Exact.
