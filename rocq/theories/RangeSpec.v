(** The lists of matches, tokens and pieces, defined from the outcomes of the pattern alone, and the proof
    that search_all, tokenize and split produce them. *)
From Coq Require Import List ZArith NArith Bool Arith Lia.
From Verif Require Import Chars Syntax First View Eval Api Spec CharProofs EvalMono EvalInv SpecProps ApiProofs Checks EvalSound
  Match Term Anchor Iter IterProofs Views RangeSim Mode ModeSem ModeEnum ModeCalls ModeOpt ModeRefine Follow ModeTop Compiles Total.
Import ListNotations.

(** * The lists *)
Section Lists.
Variables (s : list Z) (f : flags) (r : re).
(** Where the pattern ends when it begins at [p], with the groups: the preferred outcome. *)
Definition first_at (p : nat) : option state := hd_error (moutcomes false s f r p).
(** The least [q] with [p <= q <= p + d] at which there is an outcome. *)
Fixpoint leftmost (d p : nat) : option (nat * state) :=
  match first_at p with
  | Some st => Some (p, st)
  | None => match d with O => None | S d' => leftmost d' (S p) end
  end.
(** Each match begins at the leftmost possible place behind the one before; after a match that ends at the
    end of the subject there is no other. [fuel] bounds the number of matches. *)
Fixpoint matches_from (fuel : nat) (start : bool) (p : nat) : list (nat * state) :=
  match fuel with
  | O => []
  | S fuel' =>
      if negb start && Nat.eqb p (length s) then []
      else match leftmost (length s - p) p with
           | Some (b, st) => (b, st) :: matches_from fuel' false (fst st)
           | None => []
           end
  end.
Definition all_matches : list (nat * state) := matches_from (S (length s)) true 0.
(** Tokens: each match begins where the one before ended. *)
Fixpoint tokens_from (fuel : nat) (start : bool) (p : nat) : list (nat * state) :=
  match fuel with
  | O => []
  | S fuel' =>
      if negb start && Nat.eqb p (length s) then []
      else match first_at p with
           | Some st => (p, st) :: tokens_from fuel' false (fst st)
           | None => []
           end
  end.
Definition all_tokens : list (nat * state) := tokens_from (S (length s)) true 0.
(** The pieces between the matches [ms], with the groups of the match that follows. *)
Fixpoint pieces (p : nat) (ms : list (nat * state)) : list (nat * state) :=
  match ms with
  | [] => [(p, (length s, []))]
  | (b, (e, lg)) :: ms' => (p, (b, lg)) :: pieces e ms'
  end.
Definition all_pieces : list (nat * state) := pieces 0 all_matches.
End Lists.

(** A result that reports the span [b, e) and the groups in [lg]. *)
Definition reports (r : re) (c : caps) (x : nat * state) : Prop :=
  group c 0 = Some (fst x, fst (snd x)) /\ captures_are r c (snd (snd x)).

(** * Consuming patterns *)
Section Consuming.
Variables (s : list Z) (names : list Z -> option nat) (cut : bool).
Notation menum := (menum s names cut).
Notation menums := (menums s names cut).
Notation strictly x y := (st_ok s (snd x) -> fst (snd x) < fst (snd y)).

Lemma mandatory_more : forall body, (forall st st', In st' (body st) -> forth s st st') ->
  (forall st st', In st' (body st) -> st_ok s st -> fst st < fst st') ->
  forall k st st', In st' (mandatory cut body (S k) st) -> st_ok s st -> fst st < fst st'.
Proof.
  intros body Hf Hb k st st' H Hs. cbn [mandatory] in H. apply in_flat_map in H as (m & H1 & H2).
  apply keep_in, (progress_in s names) in H1.
  pose proof (Hb _ _ H1 Hs). destruct (Hf _ _ H1 Hs) as [Hm _].
  destruct (mandatory_R s names cut (forth s) (forth_refl s) (forth_trans s names) body Hf k m st' H2 Hm). lia.
Qed.
Lemma consuming_menum : forall r, consuming r = true -> forall x y, In y (menum r x) -> strictly x y.
Proof.
  induction r as
    [ | r l IHr IHl | c | | t | l IH | l IH | | | kd a b l IH | id l IH | id nm l IH | id | nm
    | neg l IH | neg l IH | l IH | c | c | a | md ]
    using re_ind2 with (Q := fun l =>
      (existsb consuming l = true -> forall x y, In y (menums l x) -> strictly x y) /\
      (forallb consuming l = true -> forall x y, In y (menum (RSelect l) x) -> strictly x y));
    try (intros; discriminate).
  - split; [discriminate|]. intros _ x y [].
  - destruct IHl as [I1 I2]. split.
    + cbn [existsb]. intros H x y Hy Hs. rewrite menums_cons in Hy. apply in_flat_map in Hy as (z & Z1 & Z2).
      destruct (menum_forth s names cut r x z Z1 Hs) as [Hz Z3].
      destruct (menums_forth s names cut l z y Z2 Hz) as [_ Z4].
      apply orb_true_iff in H as [H|H].
      * pose proof (IHr H _ _ Z1 Hs). lia.
      * pose proof (I1 H _ _ Z2 Hz). lia.
    + cbn [forallb]. intros H x y Hy. apply andb_true_iff in H as [H1 H2]. rewrite menum_select_cons in Hy.
      apply in_app_iff in Hy as [Hy|Hy]; eauto.
  - intros _ x y H _. apply in_map_iff in H as (st & <- & H). cbn [enum] in H.
    apply step_forth in H as [_ H]; [|exact names]. cbn [snd]. lia.
  - intros _ x y H _. apply in_map_iff in H as (st & <- & H). cbn [enum] in H.
    apply step_forth in H as [_ H]; [|exact names]. cbn [snd]. lia.
  - intros Ht x y H _. apply in_map_iff in H as (st & <- & H). cbn [enum] in H.
    apply walk_forth in H as [_ H]; [|exact names]. cbn [snd]. cbn [consuming] in Ht. destruct (length t); [discriminate|lia].
  - intros H. apply (proj2 IH H).
  - intros H. apply (proj1 IH H).
  - intros _ x y [].
  - cbn [consuming]. intros H x y Hy Hs. apply andb_true_iff in H as [Ha Hb]. apply negb_true_iff, N.eqb_neq in Ha.
    rewrite menum_rep in Hy. apply in_map_iff in Hy as (st & <- & Hy). cbn [snd].
    assert (F : forall st st', In st' (mbody s names cut l (fst x) st) -> forth s st st') by apply mbody_forth.
    assert (B : forall st st', In st' (mbody s names cut l (fst x) st) -> st_ok s st -> fst st < fst st').
    { intros s1 s2 H1. apply in_map_iff in H1 as (z & <- & H1). exact (proj1 IH Hb _ _ H1). }
    unfold iterate in Hy. destruct (negb (N.eqb b 0) && N.ltb b a)%bool; [contradiction|].
    assert (E : exists k, N.to_nat a = S k) by (exists (pred (N.to_nat a)); lia). destruct E as [k E]. rewrite E in Hy.
    assert (X : forall more, (forall j b i s1 s2, In s2 (more j b i s1) -> forth s s1 s2) ->
      In st (flat_map (fun z => more (S (length s - fst z)) b a z) (mandatory cut (mbody s names cut l (fst x)) (S k) (snd x))) ->
      fst (snd x) < fst st).
    { intros more Hm H. apply in_flat_map in H as (z & Z1 & Z2). pose proof (mandatory_more _ F B _ _ _ Z1 Hs).
      destruct (mandatory_R s names cut (forth s) (forth_refl s) (forth_trans s names) _ F _ _ _ Z1 Hs) as [Hz _].
      destruct (Hm _ _ _ _ _ Z2 Hz). lia. }
    destruct kd; [| |apply firstn1_in in Hy]; (eapply X; [|exact Hy]); intros j b' i s1 s2 H.
    + eapply (greedy_R s names cut (forth s) (forth_refl s) (forth_trans s names)); eassumption.
    + eapply (lazy_R s names cut (forth s) (forth_refl s) (forth_trans s names)); eassumption.
    + eapply (greedy_R s names cut (forth s) (forth_refl s) (forth_trans s names)); eassumption.
  - intros H x y Hy. rewrite menum_cap in Hy. apply in_map_iff in Hy as (z & <- & Hz). exact (proj1 IH H _ _ Hz).
  - intros H x y Hy. rewrite menum_ncap in Hy. apply in_map_iff in Hy as (z & <- & Hz). exact (proj1 IH H _ _ Hz).
  - intros H x y Hy. rewrite menum_atomic in Hy. apply in_map_iff in Hy as (st & <- & Hy). cbn [snd].
    apply firstn1_in, (progress_in s names) in Hy. apply in_map_iff in Hy as (z & <- & Hz). destruct x as [m st].
    exact (proj1 IH H _ _ Hz).
Qed.
End Consuming.

Lemma consuming_moutcomes : forall s f r p e lg, consuming r = true -> p <= length s ->
  In (e, lg) (moutcomes false s f r p) -> p < e.
Proof.
  intros s f r p e lg Hc Hp H. unfold moutcomes in H. apply in_map_iff in H as ([m st] & E & H). cbn [snd] in E. subst st.
  apply (consuming_menum s _ false r Hc) in H; [exact H|]. split; [exact Hp|constructor].
Qed.

(** The first outcome is never empty before the end / anywhere. *)
Definition moves_on (s : list Z) (f : flags) (r : re) : Prop :=
  forall p lg, p < length s -> first_at s f r p <> Some (p, lg).
Definition never_empty (s : list Z) (f : flags) (r : re) : Prop :=
  forall p lg, p <= length s -> first_at s f r p <> Some (p, lg).
Lemma never_moves : forall s f r, never_empty s f r -> moves_on s f r.
Proof. intros s f r H p lg Hl. apply H. lia. Qed.
Lemma consuming_never : forall s f r, consuming r = true -> never_empty s f r.
Proof.
  intros s f r H p lg Hl E. unfold first_at in E. destruct (moutcomes false s f r p) as [|x rest] eqn:M; [discriminate|].
  injection E as ->. assert (I : In (p, lg) (moutcomes false s f r p)) by (rewrite M; left; reflexivity).
  apply consuming_moutcomes in I; [lia|exact H|exact Hl].
Qed.

(** * The ranges *)
Section Ranges.
Variables (opt : bool) (s : list Z) (f : flags) (r : re).
Hypothesis s_ok : forallb val_ok s = true.
Hypothesis Hw : well_numbered r.
Hypothesis Ht : terminating r = true.
Hypothesis Hp : mpriority_check opt f r tail_starts = true.
Hypothesis Hc : compiles opt true r tail_starts = true.
Let len := length s.
Let v := arr_view s.

Lemma prefix_first : forall n p, p <= len ->
  match attempt opt n s f r p with
  | Ok c => exists e lg, first_at s f r p = Some (e, lg) /\ group c 0 = Some (p, e) /\ captures_are r c lg
  | No => first_at s f r p = None
  | _ => True
  end.
Proof.
  intros n p Hl. pose proof Hp as H. unfold mpriority_check in H.
  apply andb_true_iff in H as [H H2]. apply andb_true_iff in H as [H3 H4].
  assert (P := m_attempt_priority opt s f r s_ok H3 n p H4). specialize (P ltac:(apply mow_check_sound; assumption) Hl).
  destruct (attempt opt n s f r p) eqn:E; auto.
  - destruct P as (e & lg & rest & P1 & P2 & P3). exists e, lg. unfold first_at. rewrite P1. split; [reflexivity|].
    split; [|exact P3]. destruct (found opt s f r Hw n p _ Hl E) as (_ & e' & _ & E2 & E3 & _). congruence.
  - unfold first_at. rewrite P. reflexivity.
Qed.
Lemma exec_total : forall a p, a <> MMatch -> p <= len -> exists c n, exec a opt n v v f r p = Ok c.
Proof.
  intros a p Ha Hl. destruct (answered (fun n => exec a opt n v v f r p)) as (c & n & H).
  - destruct a; [contradiction| |]; cbn [exec]; [apply starts_settles_at|apply search_settles_at]; assumption.
  - intros n. apply exec_never_no.
  - intros n. apply exec_no_ub; assumption.
  - intros n. eapply exec_no_ill; [apply arr_views|]. destruct a; [contradiction| |]; exact Hc.
  - exists c, n. apply H. lia.
Qed.
Lemma finds_first : forall p c, p <= len -> finds opt s f r p c ->
  exists e lg, first_at s f r p = Some (e, lg) /\ group c 0 = Some (p, e) /\ captures_are r c lg.
Proof. intros p c Hl [n H]. pose proof (prefix_first n p Hl) as P. rewrite H in P. exact P. Qed.
Lemma misses_first : forall p, p <= len -> misses opt s f r p -> first_at s f r p = None.
Proof.
  intros p Hl Hm. destruct (exec_total MStarts p ltac:(discriminate) Hl) as (c & n & H). cbn [exec] in H. unfold exec_starts_with in H.
  pose proof (prefix_first n p Hl) as P. unfold attempt in P. fold v in P. apply returned_cases in H as [H|[H _]].
  - destruct (Hm c). exists n. exact H.
  - rewrite H in P. exact P.
Qed.

Lemma moves_no_empty : moves_on s f r -> no_empty_before_end opt s f r.
Proof.
  intros H p c Hl Hf Hg. destruct (finds_first p c ltac:(unfold len; lia) Hf) as (e & lg & F1 & F2 & _).
  assert (e = p) by congruence. subst e. exact (H p lg Hl F1).
Qed.
Lemma never_no_empty : never_empty s f r -> no_empty opt s f r.
Proof.
  intros H p c Hl Hf Hg. destruct (finds_first p c Hl Hf) as (e & lg & F1 & F2 & _).
  assert (e = p) by congruence. subst e. exact (H p lg Hl F1).
Qed.

Lemma leftmost_none : forall d p, (forall q, p <= q <= p + d -> first_at s f r q = None) -> leftmost s f r d p = None.
Proof.
  induction d as [|d IH]; intros p H; cbn [leftmost]; rewrite H by lia; [reflexivity|]. apply IH. intros q Hq. apply H. lia.
Qed.
Lemma leftmost_some : forall d p b st, p <= b <= p + d -> first_at s f r b = Some st ->
  (forall q, p <= q < b -> first_at s f r q = None) -> leftmost s f r d p = Some (b, st).
Proof.
  induction d as [|d IH]; intros p b st Hb Hf H; cbn [leftmost].
  - assert (b = p) by lia. subst b. rewrite Hf. reflexivity.
  - destruct (Nat.eq_dec b p) as [->|Hne]; [rewrite Hf; reflexivity|]. rewrite H by lia. apply IH; auto; try lia.
    intros q Hq. apply H. lia.
Qed.

Lemma listing_matches : moves_on s f r -> forall l fuel (start : bool) p, p <= len -> (if start then S (len - p) else len - p) <= fuel ->
  listing opt s f r start p l -> Forall2 (reports r) l (matches_from s f r fuel start p).
Proof.
  intros Hm. induction l as [|c l IH]; intros fuel start p Hl Hf H.
  - destruct fuel as [|fuel]; [constructor|]. cbn [matches_from]. destruct H as [[-> ->]|H].
    + rewrite Nat.eqb_refl. constructor.
    + destruct (negb start && Nat.eqb p (length s)); [constructor|].
      rewrite leftmost_none; [constructor|]. intros q Hq. apply misses_first; [unfold len; lia|]. apply H. unfold len in *. lia.
  - destruct H as (b & e & G & H1 & H2 & H3 & H4 & H5 & H6).
    assert (Hb : b <= len) by (unfold len; lia).
    destruct (finds_first b c Hb H3) as (e' & lg & F1 & F2 & F3). assert (e' = e) by congruence. subst e'.
    assert (Hgt : b < len -> b < e).
    { intros Hlt. destruct (Nat.eq_dec b e) as [<-|]; [|lia]. destruct (Hm b lg Hlt F1). }
    destruct fuel as [|fuel]; [exfalso; destruct start; [lia|]; destruct H5 as [H5|H5]; [discriminate|unfold len in *; lia]|].
    cbn [matches_from].
    assert (E : negb start && Nat.eqb p (length s) = false).
    { destruct start; [reflexivity|]. destruct H5 as [H5|H5]; [discriminate|]. apply Nat.eqb_neq. lia. }
    rewrite E. rewrite (leftmost_some (length s - p) p b (e, lg)); [|unfold len in *; lia|exact F1|].
    + constructor; [split; assumption|]. cbn [fst]. apply IH; [exact H2| |exact H6].
      unfold len in *. destruct start; [lia|]. destruct H5 as [H5|H5]; [discriminate|]. destruct (Nat.eq_dec b (length s)); lia.
    + intros q Hq. apply misses_first; [unfold len in *; lia|]. apply H4. exact Hq.
Qed.
Lemma tokens_match : moves_on s f r -> forall l fuel (start : bool) p, p <= len -> (if start then S (len - p) else len - p) <= fuel ->
  tokens opt s f r start p l -> Forall2 (reports r) l (tokens_from s f r fuel start p).
Proof.
  intros Hm. induction l as [|c l IH]; intros fuel start p Hl Hf H.
  - destruct fuel as [|fuel]; [constructor|]. cbn [tokens_from]. destruct H as [[-> ->]|H].
    + rewrite Nat.eqb_refl. constructor.
    + destruct (negb start && Nat.eqb p (length s)); [constructor|]. rewrite misses_first by assumption. constructor.
  - destruct H as (e & G & H1 & H3 & H5 & H6).
    destruct (finds_first p c Hl H3) as (e' & lg & F1 & F2 & F3). assert (e' = e) by congruence. subst e'.
    assert (Hgt : p < len -> p < e).
    { intros Hlt. destruct (Nat.eq_dec p e) as [<-|]; [|lia]. destruct (Hm p lg Hlt F1). }
    destruct fuel as [|fuel]; [exfalso; destruct start; [lia|]; destruct H5 as [H5|H5]; [discriminate|unfold len in *; lia]|].
    cbn [tokens_from].
    assert (E : negb start && Nat.eqb p (length s) = false).
    { destruct start; [reflexivity|]. destruct H5 as [H5|H5]; [discriminate|]. apply Nat.eqb_neq. lia. }
    rewrite E, F1. constructor; [split; assumption|]. cbn [fst]. apply IH; [unfold len; lia| |exact H6].
    unfold len in *. destruct start; [lia|]. destruct H5 as [H5|H5]; [discriminate|]. lia.
Qed.
Lemma cuts_pieces : ~ In 0 (map fst (find_captures r)) -> forall l ms, Forall2 (reports r) l ms ->
  forall p ps, cuts s p ps l -> Forall2 (reports r) ps (pieces s p ms).
Proof.
  intros I0 l ms HF. induction HF as [|m x l ms Hmx _ IH]; intros p ps H.
  - destruct ps as [|c [|]]; try contradiction. destruct H as [G1 G2]. constructor; [|constructor]. split; [exact G1|].
    intros id Hid. cbn [snd]. rewrite G2; [reflexivity|]. intros ->. exact (I0 Hid).
  - destruct ps as [|c ps]; [contradiction|]. destruct H as (b & e & H1 & H2 & H3 & H4).
    destruct x as [b' [e' lg]]. destruct Hmx as [M1 M2]. cbn [fst snd] in *.
    assert (b' = b /\ e' = e) as [-> ->] by (split; congruence).
    cbn [pieces]. constructor; [|apply IH; exact H4]. split; [exact H2|]. intros id Hid. cbn [snd].
    rewrite H3; [apply M2; exact Hid|]. intros ->. exact (I0 Hid).
Qed.

(** * No call is ill-formed *)
Definition clean {A} (x : res A) : Prop := x <> Ill /\ x <> No.
Lemma clean_bind : forall A B (x : res A) (k : A -> res B), clean x -> (forall a, clean (k a)) -> clean (bind x k).
Proof. intros A B [] k [H1 H2] H; try (split; discriminate); try contradiction. apply H. Qed.
Lemma clean_ok : forall A (a : A), clean (Ok a).
Proof. split; discriminate. Qed.
Lemma clean_or_ub : forall A B (o : option A) (k : A -> res B), (forall a, clean (k a)) -> clean (or_ub o k).
Proof. intros A B [a|] k H; cbn [or_ub]; [apply H|split; discriminate]. Qed.
Section Loops.
Variable ex : nat -> res caps.
Hypothesis ex_clean : forall p, clean (ex p).
Lemma clean_advance : forall p c, clean (ri_advance p c).
Proof. intros p c. unfold ri_advance. destruct (matched c); [apply clean_or_ub; intros|]; apply clean_ok. Qed.
Lemma clean_ri_all : forall n, clean (ri_all ex v r n).
Proof.
  intros n. apply clean_bind; [apply clean_bind; [apply ex_clean|apply clean_advance]|].
  induction n as [|n IH]; intros it; [split; discriminate|]. cbn [ri_loop]. destruct (ri_ne_end it); [|apply clean_ok].
  apply clean_bind; [|intros it'; apply clean_bind; [apply IH|intros; apply clean_ok]].
  unfold ri_next. apply clean_or_ub. intros [|]; [apply clean_ok|]. apply clean_bind; [apply ex_clean|apply clean_advance].
Qed.
Lemma clean_take : forall p b c, clean (si_take p b c).
Proof.
  intros p b c. unfold si_take, modify_match, match_rest. destruct (matched c); repeat (apply clean_or_ub; intros); apply clean_ok.
Qed.
Lemma clean_si_all : forall n, clean (si_all ex v r n).
Proof.
  intros n. apply clean_bind; [apply clean_bind; [apply ex_clean|apply clean_take]|].
  induction n as [|n IH]; intros it; [split; discriminate|]. cbn [si_loop]. destruct (si_ne_end it); [|apply clean_ok].
  apply clean_bind; [|intros it'; apply clean_bind; [apply IH|intros; apply clean_ok]].
  unfold si_next. apply clean_or_ub. intros e. destruct (e && si_last it); [apply clean_ok|].
  apply clean_bind; [apply ex_clean|apply clean_take].
Qed.
End Loops.
Lemma exec_clean : forall a n p, a <> MMatch -> clean (exec a opt n v v f r p).
Proof.
  intros a n p Ha. split; [|apply exec_never_no]. eapply exec_no_ill; [apply arr_views|]. destruct a; [contradiction| |]; exact Hc.
Qed.
Lemma range_clean : forall a n, clean (range_array a opt n s f r).
Proof.
  intros a n. destruct a; cbn [range_array range_of].
  - apply clean_ri_all. intros p. exact (exec_clean MSearch n p ltac:(discriminate)).
  - apply clean_ri_all. intros p. exact (exec_clean MStarts n p ltac:(discriminate)).
  - apply clean_si_all. intros p. exact (exec_clean MSearch n p ltac:(discriminate)).
Qed.
Lemma range_lists : forall a, settles (fun n => range_array a opt n s f r) ->
  exists l N, forall n, N <= n -> range_array a opt n s f r = Ok l.
Proof.
  intros a (N & x & Hx & H). pose proof (H N (le_n N)) as E. pose proof (range_clean a N) as [C1 C2].
  pose proof (range_no_ub a opt N s f r Hw) as C3. rewrite E in C1, C2, C3.
  destruct x as [l| | | |]; try contradiction. exists l, N. exact H.
Qed.

(** * Total correctness *)
Theorem search_all_right : zero_safe r = true -> moves_on s f r ->
  exists l N, (forall n, N <= n -> ctre_search_all opt n s f r = Ok l) /\ Forall2 (reports r) l (all_matches s f r).
Proof.
  intros Hz Hm. destruct (range_lists GSearchAll (search_all_ends opt s f r Hw Ht Hz (moves_no_empty Hm))) as (l & N & H).
  exists l, N. split; [exact H|]. apply listing_matches; [exact Hm|lia|unfold len; lia|].
  apply (search_all_listing opt s f r Hw N); [exact Hz|]. apply H. lia.
Qed.
Theorem tokenize_right : moves_on s f r ->
  exists l N, (forall n, N <= n -> ctre_tokenize opt n s f r = Ok l) /\ Forall2 (reports r) l (all_tokens s f r).
Proof.
  intros Hm. destruct (range_lists GTokenize (tokenize_ends opt s f r Hw Ht (moves_no_empty Hm))) as (l & N & H).
  exists l, N. split; [exact H|]. apply tokens_match; [exact Hm|lia|unfold len; lia|].
  apply (tokenize_tokens opt s f r Hw N). apply H. lia.
Qed.
Theorem split_right : zero_safe r = true -> starts_with_anchor f r = false -> never_empty s f r ->
  exists l N, (forall n, N <= n -> ctre_split opt n s f r = Ok l) /\ Forall2 (reports r) l (all_pieces s f r).
Proof.
  intros Hz Ha Hn. destruct (range_lists GSplit (split_ends opt s f r Hw Ht Hz Ha (never_no_empty Hn))) as (ps & N & H).
  exists ps, N. split; [exact H|].
  destruct (split_cuts opt s f r Hw N ps Hz Ha (never_no_empty Hn) (H N (le_n N))) as (l & L1 & L2).
  apply (cuts_pieces) with (l := l).
  - unfold mpriority_check, mfragment in Hp. apply andb_true_iff in Hp as [X _]. apply andb_true_iff in X as [X _].
    apply andb_true_iff in X as [X _]. eapply mwf_ids. exact X.
  - apply listing_matches; [apply never_moves; exact Hn|lia|unfold len; lia|].
    apply (search_all_listing opt s f r Hw N); assumption.
  - exact L2.
Qed.
End Ranges.
