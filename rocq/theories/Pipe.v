(** A capture or a result as the subject of another call, and calls piped behind one another.
    Source: /repo/include/ctre/wrapper.hpp lines 169-177, 201-203, 261-277, /repo/include/ctre/range.hpp lines 9-132,
    /repo/include/ctre/return_type.hpp lines 71-76, 499-504.

    A capture holds two iterators into the subject of the call it comes from; the next call gets these two as begin and end. The
    model keeps positions of the one underlying array [s] throughout. *)
From Coq Require Import List ZArith NArith Bool Lia Arith.
From Verif Require Import Chars Syntax First Utf8 View Eval Api Spec CharProofs EvalInv ApiProofs Match Sim Utf8Proofs Iter Views IterProofs RangeSim
  Total RangeSpec Utf8Subject Checks Term Compiles Mode ModeCalls ModeTop Possess Committed CommittedRefine CommittedTop RangeExact.
Import ListNotations.

(** * A part of an array as the subject *)
(** The iterators from [b] up to [e] in [s]. Reading, or stepping, outside of this part is undefined here although [s] goes on. *)
Definition part_view (s : list Z) (b e : nat) : view := {|
  vend := fun p => Some (Nat.eqb p e);
  vbeg := fun p => Some (Nat.eqb p b);
  vget := fun p => if Nat.leb b p && Nat.ltb p e then nth_error s p else None;
  vnext := fun p => if Nat.ltb p e then Some (S p) else None;
  vprev := fun p => if Nat.ltb b p then Some (pred p) else None;
  vconv := true; vsame := true |}.
(** wrapper.hpp lines 175-177: [exec(begin, end)]. *)
Definition on_part (a : method) (opt : bool) (n : nat) (s : list Z) (b e : nat) (f : flags) (r : re) : res caps :=
  exec a opt n (part_view s b e) (part_view s b e) f r b.
(** wrapper.hpp lines 201-203 on a capture: [std::begin], [std::end] are its two iterators (return_type.hpp lines 71-76). Both
    value-initialised: an empty subject of its own. *)
Definition on_slot (a : method) (opt : bool) (n : nat) (s : list Z) (sl : slot) (f : flags) (r : re) : res caps :=
  match s_beg sl, s_end sl with
  | Some b, Some e => if Nat.leb b e && Nat.leb e (length s) then on_part a opt n s b e f r else UB
  | None, None => on_array a opt n [] f r
  | _, _ => UB
  end.
(** On a result: capture 0 (return_type.hpp lines 499-504). *)
Definition on_result (a : method) (opt : bool) (n : nat) (s : list Z) (f : flags) (r : re) (c : caps) : res caps :=
  on_slot a opt n s (c0 c) f r.

(** * Ranges as sources of results *)
(** What [multi_subject_range] uses of the range below it: begin, [first != last], [*first], [++first] (range.hpp lines 45-82). *)
Record source := mkSource { cursor : Type; start : res cursor; more : cursor -> bool; here : cursor -> caps; advance : cursor -> res cursor }.
(** [for (auto && x : source) out.push_back(x);], at most [m] rounds. *)
Fixpoint gather_from (src : source) (m : nat) (it : cursor src) : res (list caps) :=
  match m with
  | O => Fuel
  | S m' =>
      if more src it then bind (advance src it) (fun it' => bind (gather_from src m' it') (fun l => Ok (here src it :: l)))
      else Ok []
  end.
Definition gather (src : source) (m : nat) : res (list caps) := bind (start src) (gather_from src m).

(** regex_range and regex_split_range (range.hpp lines 9-40) on the part [b], [e]; [n] bounds each search. *)
Definition range_source (a : range_method) (opt : bool) (n : nat) (s : list Z) (b e : nat) (f : flags) (r : re) : source :=
  let v := part_view s b e in
  match a with
  | GSearchAll => let ex := exec_search opt n v v f r in mkSource riter (bind (ex b) (ri_advance b)) ri_ne_end ri_match (ri_next ex v r)
  | GTokenize => let ex := exec_starts_with opt n v v f r in mkSource riter (bind (ex b) (ri_advance b)) ri_ne_end ri_match (ri_next ex v r)
  | GSplit => let ex := exec_search opt n v v f r in mkSource siter (bind (ex b) (si_take b false)) si_ne_end si_match (si_next ex v r)
  end.
Definition range_part (a : range_method) (opt : bool) (n : nat) (s : list Z) (b e : nat) (f : flags) (r : re) : res (list caps) :=
  gather (range_source a opt n s b e f r) n.
(** A range on a capture, e.g. [ctre::search_all<"...">(m.get<1>())]. *)
Definition range_slot (a : range_method) (opt : bool) (n : nat) (s : list Z) (sl : slot) (f : flags) (r : re) : res (list caps) :=
  match s_beg sl, s_end sl with
  | Some b, Some e => if Nat.leb b e && Nat.leb e (length s) then range_part a opt n s b e f r else UB
  | None, None => range_array a opt n [] f r
  | _, _ => UB
  end.

(** multi_subject_range over a range of results (range.hpp lines 42-132): [ex] the call on one of them, [none] a default constructed
    result; [k] bounds the loop of [find_first]. *)
Section Pipe.
Variables (src : source) (ex : caps -> res caps) (none : caps).
(** lines 62-68. *)
Fixpoint pipe_find (k : nat) (it : cursor src) : res (cursor src * caps) :=
  match k with
  | O => Fuel
  | S k' =>
      if more src it then bind (ex (here src it)) (fun c => if matched c then Ok (it, c) else bind (advance src it) (pipe_find k'))
      else Ok (it, none)
  end.
(** lines 60, 70-82, 113-115, 126-131. *)
Definition piped (k : nat) : source :=
  mkSource (cursor src * caps) (bind (start src) (pipe_find k)) (fun it => more src (fst it)) snd
    (fun it => bind (advance src (fst it)) (pipe_find k)).
End Pipe.
(** [range | re1 | re2 | ...] (wrapper.hpp lines 275-277) with [match], [search] or [starts_with] each. *)
Record stage := mkStage { st_method : method; st_flags : flags; st_re : re }.
Definition stage_exec (opt : bool) (n : nat) (s : list Z) (g : stage) : caps -> res caps := on_result (st_method g) opt n s (st_flags g) (st_re g).
Fixpoint pipeline (opt : bool) (n : nat) (s : list Z) (src : source) (l : list stage) : source :=
  match l with
  | [] => src
  | g :: l' => pipeline opt n s (piped src (stage_exec opt n s g) (fresh (st_re g)) n) l'
  end.

(** * Calls on a part *)
Section Part.
Variables (s : list Z) (b e : nat).
Hypothesis Hbe : b <= e <= length s.
Let Q (i j : nat) : Prop := j = b + i /\ i <= e - b.
Lemma text_length : length (text s b e) = e - b.
Proof. unfold text. rewrite firstn_length, skipn_length. lia. Qed.
Lemma text_at : forall i, i < e - b -> nth_error (text s b e) i = nth_error s (b + i).
Proof.
  intros i H. unfold text.
  assert (A : forall (l : list Z) k j, j < k -> nth_error (firstn k l) j = nth_error l j).
  { induction l as [|x l IH]; intros [|k] [|j] L; try lia; try reflexivity. cbn. apply IH. lia. }
  assert (B : forall (l : list Z) k j, nth_error (skipn k l) j = nth_error l (k + j)).
  { induction l as [|x l IH]; intros [|k] j; try reflexivity; [destruct j; reflexivity|]. cbn. apply IH. }
  rewrite A by exact H. apply B.
Qed.
Lemma part_sim : vsim Q eq true true (arr_view (text s b e)) (part_view s b e).
Proof.
  constructor; cbn [arr_view part_view vend vbeg vget vnext vprev vconv vsame]; try reflexivity; try (intros _); rewrite ?text_length.
  - intros p p' [-> H]. constructor. destruct (Nat.eqb_spec p (e - b)), (Nat.eqb_spec (b + p) e); auto; lia.
  - intros p p' [-> H]. constructor. destruct (Nat.eqb_spec p 0), (Nat.eqb_spec (b + p) b); auto; lia.
  - intros p p' [-> H]. destruct (Nat.eq_dec p (e - b)) as [->|Hn].
    + replace (nth_error (text s b e) (e - b)) with (@None Z); [constructor|]. symmetry. apply nth_error_None. rewrite text_length. lia.
    + rewrite text_at by lia. destruct (Nat.leb_spec b (b + p)); [|lia]. destruct (Nat.ltb_spec (b + p) e); [|lia]. cbn [andb].
      destruct (nth_error s (b + p)); constructor. reflexivity.
  - intros p p' [-> H]. destruct (Nat.ltb_spec p (e - b)); [|constructor]. destruct (Nat.ltb_spec (b + p) e); [|lia].
    constructor. split; lia.
  - intros p p' [-> H]. destruct p; [constructor|]. destruct (Nat.ltb_spec b (b + S p)); [|lia]. constructor. split; lia.
Qed.
Lemma part_0 : Q 0 b.
Proof. split; lia. Qed.
Lemma part_eqb : forall x y x' y', Q x x' -> Q y y' -> Nat.eqb x y = Nat.eqb x' y'.
Proof. intros x y x' y' [-> _] [-> _]. destruct (Nat.eqb_spec x y), (Nat.eqb_spec (b + x) (b + y)); auto; lia. Qed.
Lemma part_exec : forall a opt n f r p p', Q p p' ->
  rrel (crel Q) (exec a opt n (arr_view (text s b e)) (arr_view (text s b e)) f r p) (exec a opt n (part_view s b e) (part_view s b e) f r p').
Proof.
  intros a opt n f r p p' Hp. pose proof (any_pok r) as Hr. pose proof part_sim as Hv. pose proof part_eqb as He.
  destruct a; cbn [exec];
    [eapply sim_match with (okf := @eq flags) (Rv := @eq Z) (back := true) (lazy := true) (prev := true)
    |eapply sim_starts with (okf := @eq flags) (Rv := @eq Z) (back := true) (lazy := true) (prev := true)
    |eapply sim_search with (okf := @eq flags) (Rv := @eq Z) (back := true) (lazy := true) (prev := true)];
    try exact Hr; try assumption; try (intros; subst; auto); intros _; assumption.
Qed.
(** A call on a part is the call on its text alone, moved. *)
Theorem part_same : forall a opt n f r, well_numbered r ->
  on_part a opt n s b e f r = move_res (Nat.add b) (on_array a opt n (text s b e) f r).
Proof.
  intros a opt n f r Hw. apply (rrel_move Q); [intros i j [-> _]; reflexivity| |apply on_array_no_ub; assumption].
  apply part_exec, part_0.
Qed.

Lemma gather_ri : forall ex v (r : re) st m it,
  gather_from (mkSource riter st ri_ne_end ri_match (ri_next ex v r)) m it = ri_loop ex v r m it.
Proof.
  intros ex v r st. induction m as [|m IH]; intros it; [reflexivity|]. cbn [gather_from ri_loop more here advance].
  destruct (ri_ne_end it); [|reflexivity]. destruct (ri_next ex v r it); try reflexivity. cbn [bind]. rewrite IH. reflexivity.
Qed.
Lemma gather_si : forall ex v (r : re) st m it,
  gather_from (mkSource siter st si_ne_end si_match (si_next ex v r)) m it = si_loop ex v r m it.
Proof.
  intros ex v r st. induction m as [|m IH]; intros it; [reflexivity|]. cbn [gather_from si_loop more here advance].
  destruct (si_ne_end it); [|reflexivity]. destruct (si_next ex v r it); try reflexivity. cbn [bind]. rewrite IH. reflexivity.
Qed.
Lemma bind_ext : forall A B (x : res A) (k k' : A -> res B), (forall y, k y = k' y) -> bind x k = bind x k'.
Proof. intros A B [] k k' H; cbn [bind]; auto. Qed.
(** So are the ranges. *)
Theorem range_part_same : forall a opt n f r, well_numbered r ->
  range_part a opt n s b e f r = move_list (Nat.add b) (range_array a opt n (text s b e) f r).
Proof.
  intros a opt n f r Hw. apply (list_move Q); [intros i j [-> _]; reflexivity| |apply range_no_ub; assumption].
  pose proof part_0 as H0.
  destruct a; unfold range_part, gather, range_source, range_array, range_of, range_search_all, range_tokenize, range_split, ri_all, si_all,
    ri_begin, si_begin; cbn [start].
  - rewrite (bind_ext _ _ _ _ _ (gather_ri _ _ _ _ n)). eapply rrel_bind.
    + eapply rrel_bind; [exact (part_exec MSearch opt n f r 0 b H0)|]. intros c c'. apply sim_advance, H0.
    + intros i j. apply sim_ri_loop with (Rv := eq) (back := true) (prev := true); [exact part_sim|]. exact (part_exec MSearch opt n f r).
  - rewrite (bind_ext _ _ _ _ _ (gather_ri _ _ _ _ n)). eapply rrel_bind.
    + eapply rrel_bind; [exact (part_exec MStarts opt n f r 0 b H0)|]. intros c c'. apply sim_advance, H0.
    + intros i j. apply sim_ri_loop with (Rv := eq) (back := true) (prev := true); [exact part_sim|]. exact (part_exec MStarts opt n f r).
  - rewrite (bind_ext _ _ _ _ _ (gather_si _ _ _ _ n)). eapply rrel_bind.
    + eapply rrel_bind; [exact (part_exec MSearch opt n f r 0 b H0)|]. intros c c'. apply sim_take, H0.
    + intros i j. apply sim_si_loop with (Rv := eq) (back := true) (prev := true); [exact part_sim|]. exact (part_exec MSearch opt n f r).
Qed.
End Part.

Lemma text_all : forall s, text s 0 (length s) = s.
Proof. intros s. unfold text. rewrite Nat.sub_0_r. apply firstn_all. Qed.
(** The whole array is one of its parts. *)
Theorem whole_part : forall s a opt n f r, well_numbered r -> on_part a opt n s 0 (length s) f r = on_array a opt n s f r.
Proof.
  intros s a opt n f r Hw. rewrite part_same by (auto; lia). rewrite text_all. destruct (on_array a opt n s f r); try reflexivity.
  cbn [move_res]. f_equal. apply move_id.
Qed.
Theorem whole_range : forall s a opt n f r, well_numbered r -> range_part a opt n s 0 (length s) f r = range_array a opt n s f r.
Proof.
  intros s a opt n f r Hw. rewrite range_part_same by (auto; lia). rewrite text_all. apply move_list_id.
Qed.

(** * Pipes filter *)
Section Filter.
Variables (src : source) (ex : caps -> res caps) (none : caps).
Lemma find_spec : forall l m it cs k, gather_from src m it = Ok l -> Forall2 (fun x c => ex x = Ok c) l cs -> length l < k ->
  exists it' c', pipe_find src ex none k it = Ok (it', c') /\
    match filter matched cs with
    | [] => more src it' = false
    | c :: rest => c' = c /\ more src it' = true /\ exists x l' m' cs', m' <= m /\ gather_from src m' it' = Ok (x :: l') /\
        Forall2 (fun x c => ex x = Ok c) l' cs' /\ filter matched cs' = rest /\ length l' < length l
    end.
Proof.
  induction l as [|x l IH]; intros m it cs k G F K; (destruct k as [|k]; [lia|]); (destruct m as [|m]; [discriminate|]); inversion F as [|? c ? cs' F1 F2]; subst;
    cbn [gather_from] in G; cbn [pipe_find].
  - destruct (more src it) eqn:M.
    + destruct (advance src it) as [it1| | | |]; try discriminate. cbn [bind] in G.
      destruct (gather_from src m it1); discriminate.
    + exists it, none. cbn [filter]. auto.
  - destruct (more src it) eqn:M; [|discriminate].
    destruct (advance src it) as [it1| | | |] eqn:A; try discriminate. cbn [bind] in G.
    destruct (gather_from src m it1) as [l1| | | |] eqn:G1; try discriminate. cbn [bind] in G. injection G as <- <-.
    rewrite F1. cbn [bind filter]. destruct (matched c) eqn:Mc.
    + exists it, c. split; [reflexivity|]. split; [reflexivity|]. split; [exact M|]. exists (here src it), l1, (S m), cs'.
      split; [lia|]. split; [cbn [gather_from]; rewrite M, A; cbn [bind]; rewrite G1; reflexivity|]. cbn [length]. auto.
    + cbn [bind]. destruct (IH m it1 cs' k G1 F2 ltac:(cbn [length] in K; lia)) as (it' & c' & E1 & E2). exists it', c'. split; [exact E1|].
      destruct (filter matched cs') as [|c1 rest]; [exact E2|]. destruct E2 as (-> & M' & y & l' & m' & cs'' & L1 & L2 & L3 & L4 & L5).
      split; [reflexivity|]. split; [exact M'|]. exists y, l', m', cs''. cbn [length]. repeat split; auto; lia.
Qed.
Lemma pipe_from : forall d l m it cs k, length l <= d -> gather_from src m it = Ok l -> Forall2 (fun x c => ex x = Ok c) l cs -> length l < k ->
  forall m2, m <= m2 -> bind (pipe_find src ex none k it) (gather_from (piped src ex none k) m2) = Ok (filter matched cs).
Proof.
  induction d as [|d IH]; intros l m it cs k D G F K m2 M2; destruct (find_spec l m it cs k G F K) as (it' & c' & E1 & E2); rewrite E1; cbn [bind];
    (destruct m2 as [|m2]; [destruct m; [discriminate|lia]|]); cbn [gather_from piped more fst here snd advance].
  - destruct l as [|]; [|cbn [length] in D; lia]. inversion F. subst. cbn [filter] in *. rewrite E2. reflexivity.
  - destruct (filter matched cs) as [|c rest]; [rewrite E2; reflexivity|].
    destruct E2 as (-> & M & x & l' & m' & cs' & L1 & L2 & L3 & L4 & L5). rewrite M.
    destruct m' as [|m']; [discriminate|]. cbn [gather_from] in L2. rewrite M in L2.
    destruct (advance src it') as [it1| | | |]; try discriminate. cbn [bind] in L2 |- *.
    destruct (gather_from src m' it1) as [l1| | | |] eqn:G1; try discriminate. cbn [bind] in L2. injection L2 as _ <-.
    pose proof (IH l1 m' it1 cs' k ltac:(lia) G1 L3 ltac:(lia) m2 ltac:(lia)) as X.
    destruct (pipe_find src ex none k it1) as [q| | | |]; try discriminate. cbn [bind] in X |- *. rewrite X. cbn [bind]. rewrite L4. reflexivity.
Qed.
(** Piping behind a source whose loop ends: the results of the call on each element in turn, without the failures. *)
Theorem pipe_filter : forall l m cs k, gather src m = Ok l -> Forall2 (fun x c => ex x = Ok c) l cs -> length l < k ->
  gather (piped src ex none k) m = Ok (filter matched cs).
Proof.
  intros l m cs k G F K. unfold gather in *. cbn [piped start].
  destruct (start src) as [it| | | |]; try discriminate. cbn [bind] in *. exact (pipe_from (length l) l m it cs k ltac:(lia) G F K m ltac:(lia)).
Qed.
End Filter.

(** * What comes out *)
(** An outcome on the text of a part, as one on the array. *)
Definition shift (b : nat) (x : nat * state) : nat * state :=
  (b + fst x, (b + fst (snd x), map (fun y : nat * (nat * nat) => (fst y, (b + fst (snd y), b + snd (snd y)))) (snd (snd x)))).
(** What stage [g] makes of the piece [x]: the outcome of its call on the text of [x] alone (C64). *)
Definition narrowed (opt : bool) (s : list Z) (g : stage) (x : nat * state) : option (nat * state) :=
  option_map (shift (fst x)) (hd_error (means (st_method g) opt (text s (fst x) (fst (snd x))) (st_flags g) (st_re g))).
Fixpoint keep {A B : Type} (h : A -> option B) (l : list A) : list B :=
  match l with [] => [] | x :: l' => match h x with Some y => y :: keep h l' | None => keep h l' end end.
Fixpoint pipe_list (opt : bool) (s : list Z) (gs : list stage) (l : list (nat * state)) : list (nat * state) :=
  match gs with [] => l | g :: gs' => pipe_list opt s gs' (keep (narrowed opt s g) l) end.
Fixpoint last_re (r : re) (gs : list stage) : re := match gs with [] => r | g :: gs' => last_re (st_re g) gs' end.
Definition stage_ok (opt : bool) (g : stage) : bool :=
  meant_check (st_flags g) (st_re g) && terminating (st_re g) && compiles opt true (st_re g) (tail_of (st_method g)).

Lemma group_move : forall g c id, group (move g c) id = option_map (fun x => (g (fst x), g (snd x))) (group c id).
Proof.
  intros g c id. destruct (get_id id c) as [sl|] eqn:E.
  - unfold group. rewrite (get_moved _ _ _ _ E), E. destruct sl as [[x|] [y|] []]; reflexivity.
  - unfold group. rewrite E. destruct (get_id id (move g c)) as [sl|] eqn:F; [|reflexivity].
    apply get_unmoved in F as (sl0 & F & _). congruence.
Qed.
Lemma lookup_shift : forall b id lg, lookup id (map (fun y : nat * (nat * nat) => (fst y, (b + fst (snd y), b + snd (snd y)))) lg) =
  option_map (fun x => (b + fst x, b + snd x)) (lookup id lg).
Proof.
  intros b id. induction lg as [|[i [x y]] lg IH]; [reflexivity|]. cbn [map lookup fst snd]. destruct (Nat.eqb i id); [reflexivity|exact IH].
Qed.
Lemma reports_move : forall r c b x, reports r c x -> reports r (move (Nat.add b) c) (shift b x).
Proof.
  intros r c b [p [e lg]] [H1 H2]. cbn [fst snd] in *. split.
  - rewrite group_move, H1. reflexivity.
  - intros id I. cbn [shift fst snd]. rewrite group_move, (H2 id I), lookup_shift. reflexivity.
Qed.
Lemma val_text : forall s b e, forallb val_ok s = true -> forallb val_ok (text s b e) = true.
Proof.
  intros s b e H. rewrite forallb_forall in *. intros x I. apply H. unfold text in I.
  rewrite <- (firstn_skipn b s). apply in_or_app. right. rewrite <- (firstn_skipn (e - b) (skipn b s)). apply in_or_app. left. exact I.
Qed.
Lemma whole_slot : forall c b e, group c 0 = Some (b, e) -> s_beg (c0 c) = Some b /\ s_end (c0 c) = Some e.
Proof. intros c b e H. unfold group in H. cbn in H. destruct (c0 c) as [[x|] [y|] []]; try discriminate. injection H as -> ->. auto. Qed.

Definition inside (s : list Z) (x : nat * state) : Prop := fst x <= fst (snd x) <= length s.
Section Stage.
Variables (opt : bool) (s : list Z).
Hypothesis s_ok : forallb val_ok s = true.
Lemma call_inside : forall a n t f r c b e, well_numbered r -> on_array a opt n t f r = Ok c -> matched c = true -> group c 0 = Some (b, e) -> b <= e <= length t.
Proof.
  intros a n t f r c b e Hw H Hm Hg.
  assert (X : exists b e, group c 0 = Some (b, e) /\ b <= e <= length t).
  { destruct a; [apply (call_groups ctre_match opt n t f r c 0 (c0 c))|apply (call_groups ctre_starts_with opt n t f r c 0 (c0 c))
      |apply (call_groups ctre_search opt n t f r c 0 (c0 c))]; unfold entry_point; auto. }
  destruct X as (b' & e' & E & L). rewrite Hg in E. injection E as -> ->. exact L.
Qed.
Lemma stage_means : forall g, well_numbered (st_re g) -> stage_ok opt g = true -> forall c x, inside s x -> group c 0 = Some (fst x, fst (snd x)) ->
  exists c', answers (fun n => stage_exec opt n s g c) c' /\
    match narrowed opt s g x with
    | Some y => matched c' = true /\ reports (st_re g) c' y /\ inside s y
    | None => matched c' = false
    end.
Proof.
  intros [a f r] Hw Hg c [b [e lg]] Hx Hc. unfold stage_ok, stage_exec, narrowed in *. cbn [st_method st_flags st_re fst snd] in *.
  apply andb_true_iff in Hg as [Hg C]. apply andb_true_iff in Hg as [K T]. unfold inside in Hx. cbn [fst snd] in Hx.
  destruct (calls_mean opt (text s b e) f r (val_text s b e s_ok) K Hw T a C) as (c1 & (N0 & A) & H).
  exists (move (Nat.add b) c1). split.
  - exists N0. intros m Hm. unfold on_result, on_slot. destruct (whole_slot c b e Hc) as [-> ->].
    destruct (Nat.leb_spec b e); [|lia]. destruct (Nat.leb_spec e (length s)); [|lia]. cbn [andb].
    rewrite part_same by (auto; lia). rewrite A by exact Hm. reflexivity.
  - destruct (hd_error (means a opt (text s b e) f r)) as [[b1 [e1 lg1]]|]; cbn [option_map tells] in *; [|exact H].
    destruct H as (H1 & H2 & H3). split; [exact H1|]. split; [apply reports_move; split; assumption|].
    pose proof (call_inside a N0 _ f r c1 b1 e1 Hw (A N0 (Nat.le_refl _)) H1 H2) as L. rewrite text_length in L by lia.
    unfold inside. cbn [shift fst snd]. lia.
Qed.

(** The elements of a source, from some fuel on. *)
Definition supplies (src : nat -> source) (r : re) (l : list (nat * state)) : Prop :=
  exists cs N, (forall n, N <= n -> gather (src n) n = Ok cs) /\ Forall2 (reports r) cs l.
Lemma pipe_stage : forall src r l g, supplies src r l -> Forall (inside s) l -> well_numbered (st_re g) -> stage_ok opt g = true ->
  supplies (fun n => piped (src n) (stage_exec opt n s g) (fresh (st_re g)) n) (st_re g) (keep (narrowed opt s g) l) /\
  Forall (inside s) (keep (narrowed opt s g) l).
Proof.
  intros src r l g (cs & N & G & F) I Hw Hg.
  assert (X : exists ds N1, (forall n, N1 <= n -> Forall2 (fun x c => stage_exec opt n s g x = Ok c) cs ds) /\
    Forall2 (reports (st_re g)) (filter matched ds) (keep (narrowed opt s g) l) /\ Forall (inside s) (keep (narrowed opt s g) l)).
  { clear G. induction F as [|c x cs l [Hc _] F IH].
    - exists [], 0. repeat constructor.
    - inversion I as [|? ? I1 I2]. subst. destruct (IH I2) as (ds & N1 & D1 & D2 & D3).
      destruct (stage_means g Hw Hg c x I1 Hc) as (d & (N2 & A) & H). exists (d :: ds), (N1 + N2). split.
      + intros n Hn. constructor; [apply A; lia|apply D1; lia].
      + cbn [filter keep]. destruct (narrowed opt s g x) as [y|].
        * destruct H as (-> & H1 & H2). split; constructor; assumption.
        * rewrite H. split; assumption. }
  destruct X as (ds & N1 & D1 & D2 & D3). split; [|exact D3]. exists (filter matched ds), (N + N1 + S (length cs)). split; [|exact D2].
  intros n Hn. apply (pipe_filter (src n) _ _ cs n ds n); [apply G; lia|apply D1; lia|lia].
Qed.
(** Any number of stages. *)
Theorem pipeline_means : forall gs src r l, supplies src r l -> Forall (inside s) l -> Forall (fun g => well_numbered (st_re g)) gs ->
  forallb (stage_ok opt) gs = true -> supplies (fun n => pipeline opt n s (src n) gs) (last_re r gs) (pipe_list opt s gs l).
Proof.
  induction gs as [|g gs IH]; intros src r l S1 I W C; [exact S1|]. cbn [pipeline last_re pipe_list].
  cbn [forallb] in C. apply andb_true_iff in C as [C1 C2]. inversion W as [|? ? W1 W2]. subst.
  destruct (pipe_stage src r l g S1 I W1 C1) as [K1 K2]. exact (IH (fun n => piped (src n) (stage_exec opt n s g) (fresh (st_re g)) n) (st_re g) _ K1 K2 W2 C2).
Qed.
End Stage.

(** The pieces of the ranges lie inside. *)
Section Inside.
Variables (t : list Z) (first : nat -> option state).
Hypothesis first_range : forall p e lg, p <= length t -> first p = Some (e, lg) -> p <= e <= length t.
Lemma nearest_inside : forall d p b st, nearest first d p = Some (b, st) -> p <= b <= p + d /\ first b = Some st.
Proof.
  induction d as [|d IH]; intros p b st H; cbn [nearest] in H; destruct (first p) eqn:E; try discriminate;
    try (injection H as <- <-; split; [lia|exact E]). apply IH in H as [L H]. split; [lia|exact H].
Qed.
Lemma matches_inside : forall fuel start p, p <= length t -> Forall (inside t) (matches_by t first fuel start p) /\
  Forall (inside t) (pieces t p (matches_by t first fuel start p)).
Proof.
  assert (N0 : forall p, p <= length t -> Forall (inside t) (pieces t p [])).
  { intros p H. constructor; [|constructor]. unfold inside. cbn [fst snd]. lia. }
  induction fuel as [|fuel IH]; intros start p Hp; cbn [matches_by]; [split; [constructor|apply N0, Hp]|].
  destruct (negb start && Nat.eqb p (length t)); [split; [constructor|apply N0, Hp]|].
  destruct (nearest first (length t - p) p) as [[b [e lg]]|] eqn:E; [|split; [constructor|apply N0, Hp]].
  apply nearest_inside in E as [L E]. apply first_range in E as L2; [|lia]. cbn [fst].
  destruct (IH false e ltac:(lia)) as [I1 I2]. split; [constructor; [|exact I1]; unfold inside; cbn [fst snd]; lia|].
  cbn [pieces]. constructor; [|exact I2]. unfold inside. cbn [fst snd]. lia.
Qed.
Lemma tokens_inside : forall fuel start p, p <= length t -> Forall (inside t) (tokens_by t first fuel start p).
Proof.
  induction fuel as [|fuel IH]; intros start p Hp; cbn [tokens_by]; [constructor|].
  destruct (negb start && Nat.eqb p (length t)); [constructor|]. destruct (first p) as [[e lg]|] eqn:E; [|constructor].
  apply first_range in E as L2; [|lia]. cbn [fst]. constructor; [unfold inside; cbn [fst snd]; lia|apply IH; lia].
Qed.
Lemma listed_inside : forall a, Forall (inside t) (listed a t first).
Proof.
  intros []; unfold listed; [apply matches_inside; lia|apply tokens_inside; lia|].
  apply (matches_inside (S (length t)) true 0). lia.
Qed.
End Inside.
Lemma inside_shift : forall s b e l, b <= e <= length s -> Forall (inside (text s b e)) l -> Forall (inside s) (map (shift b) l).
Proof.
  intros s b e l L H. induction H as [|x l Hx _ IH]; [constructor|]. cbn [map]. constructor; [|exact IH].
  unfold inside in *. rewrite text_length in Hx by exact L. cbn [shift fst snd]. lia.
Qed.
