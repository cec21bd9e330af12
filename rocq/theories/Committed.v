(** The exact meaning of a pattern under the discipline of the library, for every body of a repetition:
    an iteration keeps only its first outcome, and it counts only when the flag that forbids empty
    iterations was lifted. The flag is part of the state: it is lifted by whatever consumes something, and
    by a greedy or lazy repetition as soon as the rest is tried after its loop. *)
From Coq Require Import List ZArith NArith Bool Lia Arith ZifyBool ZifyN ZifyNat.
From Verif Require Import Chars Syntax First View Eval Api Spec CharProofs EvalMono EvalInv EvalSem SpecProps
  EvalRefine SpecCut Mode ModeSem ModeSound ModeEnum Term.
Import ListNotations.

(** The mode, whether an enclosing iteration still has to show progress, the position and the log. *)
Definition xstate : Type := modes * (bool * state).

Section Discipline.
Variable s : list Z.
Variable names : list Z -> option nat.

Section Loop.
  (** The outcomes of the body from a state, each with the flag it ends with. *)
  Variable body : state -> list (bool * state).

  (** One iteration: the first outcome that lifted the flag. *)
  Definition once (st : state) : option state :=
    option_map snd (find (fun y => negb (fst y)) (body st)).
  Fixpoint times (k : nat) (st : state) : option state :=
    match k with
    | O => Some st
    | S k' => match once st with Some st' => times k' st' | None => None end
    end.
  (** At most [k] further iterations: as many as possible first. *)
  Fixpoint greedily (k : nat) (st : state) : list state :=
    match k with
    | O => [st]
    | S k' => match once st with Some st' => greedily k' st' | None => [] end ++ [st]
    end.
  (** ... at least one, as few as possible first. *)
  Fixpoint lazily (k : nat) (st : state) : list state :=
    match k with
    | O => []
    | S k' => match once st with Some st' => st' :: lazily k' st' | None => [] end
    end.
  (** ... as many as possible. *)
  Fixpoint furthest (k : nat) (st : state) : state :=
    match k with
    | O => st
    | S k' => match once st with Some st' => furthest k' st' | None => st end
    end.

  (** How many iterations can follow the [a] mandatory ones: without a limit every iteration of the
      patterns considered consumes something. *)
  Definition room (a b : N) (st : state) : nat :=
    if N.eqb b 0 then length s - fst st else N.to_nat (b - a).
  Definition unmoved (k : bool) (st st' : state) : bool := k && Nat.eqb (fst st') (fst st).

  Definition repeated (kd : rkind) (a b : N) (k : bool) (st : state) : list (bool * state) :=
    if negb (N.eqb b 0) && N.ltb b a then [] else
    match times (N.to_nat a) st with
    | None => []
    | Some st1 =>
        match kd with
        | Greedy => map (pair false) (greedily (room a b st1) st1)
        | Lazy => (unmoved k st st1, st1) ::
                  (* nothing is left to try when the limit is reached, except the same with the flag lifted *)
                  map (pair false) (if negb (N.eqb b 0) && N.eqb a b then [st1] else lazily (room a b st1) st1)
        | Possessive => let st2 := furthest (room a b st1) st1 in [(unmoved k st st2, st2)]
        end
    end.
End Loop.

Definition put (m : modes) (y : bool * state) : xstate := (m, y).
Definition log_group (id b : nat) (y : xstate) : xstate :=
  (fst y, (fst (snd y), (fst (snd (snd y)), (id, (b, fst (snd (snd y)))) :: snd (snd (snd y))))).

(** All outcomes of [r] in order of preference. *)
Fixpoint xenum (r : re) (x : xstate) : list xstate :=
  let seq := fix seq (l : list re) (x : xstate) : list xstate :=
    match l with [] => [x] | r :: rs => flat_map (seq rs) (xenum r x) end in
  let '(m, (k, st)) := x in
  match r with
  | RMode md => [(switch md m, (k, st))]
  | RSelect l => (fix alt (l : list re) : list xstate :=
                    match l with [] => [] | r :: rs => xenum r x ++ alt rs end) l
  | RSeq l => seq l x
  | RRep kd a b l =>
      map (put m) (repeated (fun st' => map snd (seq l (m, (true, st')))) kd a b k st)
  | RCap id l | RNCap id _ l => map (log_group id (fst st)) (seq l x)
  | RAhead false l =>
      match seq l x with [] => [] | y :: _ => [(m, (k, (fst st, snd (snd (snd y)))))] end
  | RAhead true l => match seq l x with [] => [x] | _ :: _ => [] end
  | RAtomic l =>
      match once (fun st' => map snd (seq l (m, (true, st')))) st with
      | Some st' => [(m, (unmoved k st st', st'))]
      | None => []
      end
  | _ => map (fun st' => (m, (unmoved k st st', st'))) (enum s (fst m) (snd m) names true r st)
  end.
Fixpoint xenums (l : list re) (x : xstate) : list xstate :=
  match l with [] => [x] | r :: rs => flat_map (xenums rs) (xenum r x) end.
Definition xbody (l : list re) (m : modes) (st : state) : list (bool * state) :=
  map snd (xenums l (m, (true, st))).

Lemma xenum_seq : forall l x, xenum (RSeq l) x = xenums l x.
Proof. intros l [m [k st]]. reflexivity. Qed.
Lemma xenums_cons : forall r l x, xenums (r :: l) x = flat_map (xenums l) (xenum r x).
Proof. reflexivity. Qed.
Lemma xenum_select_nil : forall x, xenum (RSelect []) x = [].
Proof. intros [m [k st]]. reflexivity. Qed.
Lemma xenum_select_cons : forall r l x, xenum (RSelect (r :: l)) x = xenum r x ++ xenum (RSelect l) x.
Proof. intros r l [m [k st]]. reflexivity. Qed.
Lemma xenum_rep : forall kd a b l m k st, xenum (RRep kd a b l) (m, (k, st)) =
  map (put m) (repeated (xbody l m) kd a b k st).
Proof. reflexivity. Qed.
Lemma xenum_cap : forall id l m k st, xenum (RCap id l) (m, (k, st)) =
  map (log_group id (fst st)) (xenums l (m, (k, st))).
Proof. reflexivity. Qed.
Lemma xenum_ncap : forall id nm l m k st, xenum (RNCap id nm l) (m, (k, st)) =
  map (log_group id (fst st)) (xenums l (m, (k, st))).
Proof. reflexivity. Qed.
Lemma xenum_ahead : forall neg l m k st, xenum (RAhead neg l) (m, (k, st)) =
  if neg then match xenums l (m, (k, st)) with [] => [(m, (k, st))] | _ :: _ => [] end
  else match xenums l (m, (k, st)) with [] => [] | y :: _ => [(m, (k, (fst st, snd (snd (snd y)))))] end.
Proof. intros []; reflexivity. Qed.
Lemma xenum_atomic : forall l m k st, xenum (RAtomic l) (m, (k, st)) =
  match once (xbody l m) st with Some st' => [(m, (unmoved k st st', st'))] | None => [] end.
Proof. reflexivity. Qed.

(** ** Iterations *)
Notation forth := (forth s).
Section LoopFacts.
  Variable body : state -> list (bool * state).
  Variable eating : bool.
  Hypothesis body_forth : forall st k st', In (k, st') (body st) -> forth st st'.
  Hypothesis body_eating : eating = true -> forall st st', st_ok s st -> In (false, st') (body st) -> fst st < fst st'.

  Lemma once_in : forall st st', once body st = Some st' -> In (false, st') (body st).
  Proof.
    clear body_forth body_eating.
    intros st st' H. unfold once in H. destruct (find _ (body st)) as [[k y]|] eqn:E; [|discriminate].
    cbn in H. injection H as <-. apply find_some in E as [E1 E2]. cbn in E2. destruct k; [discriminate|exact E1].
  Qed.
  Lemma once_forth : forall st st', once body st = Some st' -> forth st st'.
  Proof. intros st st' H. eapply body_forth, once_in, H. Qed.
  Lemma once_eats : eating = true -> forall st st', st_ok s st -> once body st = Some st' -> fst st < fst st'.
  Proof. intros He st st' Hs H. apply body_eating; [assumption|assumption|]. apply once_in, H. Qed.

  Lemma times_forth : forall k st st', times body k st = Some st' -> forth st st'.
  Proof.
    induction k as [|k IH]; cbn [times]; intros st st' H.
    - injection H as <-. apply forth_refl.
    - destruct (once body st) as [y|] eqn:E; [|discriminate].
      apply forth_trans with y; [exact names|apply once_forth; assumption|apply IH; assumption].
  Qed.
  Lemma times_eats : eating = true -> forall k st st', st_ok s st -> times body (S k) st = Some st' -> fst st < fst st'.
  Proof.
    intros He k st st' Hs H. cbn [times] in H. destruct (once body st) as [y|] eqn:E; [|discriminate].
    pose proof (once_eats He _ _ Hs E). destruct (once_forth _ _ E Hs) as [Hy _].
    destruct (times_forth _ _ _ H Hy). lia.
  Qed.
  Lemma greedily_forth : forall k st st', In st' (greedily body k st) -> forth st st'.
  Proof.
    induction k as [|k IH]; cbn [greedily]; intros st st' H.
    - destruct H as [<-|[]]. apply forth_refl.
    - apply in_app_iff in H as [H|[<-|[]]]; [|apply forth_refl].
      destruct (once body st) as [y|] eqn:E; [|contradiction].
      apply forth_trans with y; [exact names|apply once_forth; assumption|apply IH; assumption].
  Qed.
  Lemma lazily_once : forall k st st', In st' (lazily body k st) -> exists y, once body st = Some y /\ forth y st'.
  Proof.
    induction k as [|k IH]; cbn [lazily]; intros st st' H; [contradiction|].
    destruct (once body st) as [y|] eqn:E; [|contradiction]. exists y. split; [reflexivity|].
    destruct H as [<-|H]; [apply forth_refl|]. destruct (IH _ _ H) as (z & Z1 & Z2).
    apply forth_trans with z; [exact names|apply once_forth; assumption|assumption].
  Qed.
  Lemma furthest_forth : forall k st, forth st (furthest body k st).
  Proof.
    induction k as [|k IH]; cbn [furthest]; intros st; [apply forth_refl|].
    destruct (once body st) as [y|] eqn:E; [|apply forth_refl].
    apply forth_trans with y; [exact names|apply once_forth; assumption|apply IH].
  Qed.
  Lemma furthest_enough : eating = true -> forall k k' st, st_ok s st ->
    length s - fst st <= k -> length s - fst st <= k' -> furthest body k st = furthest body k' st.
  Proof.
    intros He. induction k as [|k IH]; intros k' st Hs H1 H2.
    - destruct k' as [|k']; [reflexivity|]. cbn [furthest]. destruct (once body st) as [y|] eqn:E; [|reflexivity].
      pose proof (once_eats He _ _ Hs E). destruct (once_forth _ _ E Hs) as [[Hy _] _]. lia.
    - destruct k' as [|k'].
      + cbn [furthest]. destruct (once body st) as [y|] eqn:E; [|reflexivity].
        pose proof (once_eats He _ _ Hs E). destruct (once_forth _ _ E Hs) as [[Hy _] _]. lia.
      + cbn [furthest]. destruct (once body st) as [y|] eqn:E; [|reflexivity].
        pose proof (once_eats He _ _ Hs E). destruct (once_forth _ _ E Hs) as [Hy _]. apply IH; [assumption|lia|lia].
  Qed.

  Lemma repeated_forth : forall kd a b k st k' st', In (k', st') (repeated body kd a b k st) -> forth st st'.
  Proof.
    intros kd a b k st k' st' H. unfold repeated in H.
    destruct (negb (N.eqb b 0) && N.ltb b a)%bool; [contradiction|].
    destruct (times body (N.to_nat a) st) as [st1|] eqn:E; [|contradiction].
    apply times_forth in E. apply forth_trans with st1; [exact names|assumption|].
    destruct kd.
    - apply in_map_iff in H as (y & Y & H). injection Y as <- <-. eapply greedily_forth, H.
    - destruct H as [H|H]; [injection H as <- <-; apply forth_refl|].
      apply in_map_iff in H as (y & Y & H). injection Y as <- <-.
      destruct (negb (N.eqb b 0) && N.eqb a b)%bool; [destruct H as [<-|[]]; apply forth_refl|].
      destruct (lazily_once _ _ _ H) as (z & Z1 & Z2).
      apply forth_trans with z; [exact names|apply once_forth; assumption|assumption].
    - destruct H as [H|[]]. injection H as _ <-. apply furthest_forth.
  Qed.
End LoopFacts.

Lemma xenum_forth : forall r x y, In y (xenum r x) -> forth (snd (snd x)) (snd (snd y)).
Proof.
  induction r as
    [ | r l IHr IHl | c | | t | l IH | l IH | | | kd a b l IH | id l IH | id nm l IH | id | nm
    | neg l IH | neg l IH | l IH | c | c | a | md ]
    using re_ind2 with (Q := fun l =>
      (forall x y, In y (xenums l x) -> forth (snd (snd x)) (snd (snd y)))
      /\ (forall x y, In y (xenum (RSelect l) x) -> forth (snd (snd x)) (snd (snd y))));
    try (intros [m [k st]] y H; apply in_map_iff in H as (st' & <- & H); exact (enum_forth _ _ _ _ _ _ _ _ H)).
  - split; [intros x y [<-|[]]; apply forth_refl | intros [m [k st]] y []].
  - destruct IHl as [I1 I2]. split; intros x y H.
    + rewrite xenums_cons in H. apply in_flat_map in H as (z & H1 & H2).
      eapply forth_trans; [exact names | apply IHr; exact H1 | apply I1; exact H2].
    + rewrite xenum_select_cons in H. apply in_app_iff in H as [H|H]; auto.
  - apply (proj2 IH).
  - intros x y H. rewrite xenum_seq in H. apply (proj1 IH), H.
  - intros [m [k st]] y H. rewrite xenum_rep in H. apply in_map_iff in H as ([k' st'] & <- & H). cbn [put snd].
    eapply (repeated_forth (xbody l m)); [|exact H].
    intros st1 k1 st2 H1. apply in_map_iff in H1 as (z & E & H1). apply (proj1 IH) in H1. rewrite E in H1. exact H1.
  - intros [m [k st]] y H. rewrite xenum_cap in H. apply in_map_iff in H as (z & <- & H).
    apply (proj1 IH) in H. intros Hs. destruct (H Hs) as [[H1 H2] H3]. unfold log_group. cbn [fst snd] in *. split; [|exact H3].
    split; [exact H1|]. constructor; [exact (conj H3 H1) | exact H2].
  - intros [m [k st]] y H. rewrite xenum_ncap in H. apply in_map_iff in H as (z & <- & H).
    apply (proj1 IH) in H. intros Hs. destruct (H Hs) as [[H1 H2] H3]. unfold log_group. cbn [fst snd] in *. split; [|exact H3].
    split; [exact H1|]. constructor; [exact (conj H3 H1) | exact H2].
  - intros [m [k st]] y H. rewrite xenum_ahead in H. destruct neg.
    + destruct (xenums l (m, (k, st))); [|contradiction]. destruct H as [<-|[]]. apply forth_refl.
    + destruct (xenums l (m, (k, st))) as [|z zs] eqn:E; [contradiction|]. destruct H as [<-|[]].
      assert (Hz : In z (xenums l (m, (k, st)))) by (rewrite E; left; reflexivity).
      apply (proj1 IH) in Hz. intros Hs. destruct (Hz Hs) as [[H1 H2] H3]. cbn [fst snd] in *. split; [|lia].
      split; [apply Hs | exact H2].
  - intros [m [k st]] y H. rewrite xenum_atomic in H. destruct (once (xbody l m) st) as [st'|] eqn:E; [|contradiction].
    destruct H as [<-|[]]. cbn [snd]. apply once_in in E. apply in_map_iff in E as (z & E & H).
    apply (proj1 IH) in H. rewrite E in H. exact H.
  - intros [m [k st]] y [<-|[]]. apply forth_refl.
Qed.
Lemma xenums_forth : forall l x y, In y (xenums l x) -> forth (snd (snd x)) (snd (snd y)).
Proof. intros l x y H. apply (xenum_forth (RSeq l)). rewrite xenum_seq. exact H. Qed.
Lemma xbody_forth : forall l m st k st', In (k, st') (xbody l m st) -> forth st st'.
Proof. intros l m st k st' H. apply in_map_iff in H as (y & E & H). apply xenums_forth in H. rewrite E in H. exact H. Qed.

(** ** What the flag says about progress *)
Definition shows (x y : xstate) : Prop := fst (snd x) = true -> fst (snd y) = false -> fst (snd (snd x)) < fst (snd (snd y)).
Definition ate (x y : xstate) : Prop := fst (snd (snd x)) < fst (snd (snd y)).

Lemma base_eats : forall r ml ci st st', nullfree r = true ->
  match r with RCls _ | RAny | RStr _ | RReject => True | _ => False end ->
  In st' (enum s ml ci names true r st) -> fst st < fst st'.
Proof.
  intros r ml ci st st' Hn Hr H. destruct r as [c| |t| | | | | | | | | | | | | | | | ]; try contradiction; cbn [Spec.enum] in H.
  - apply (step_forth s names) in H as [_ H]. lia.
  - apply (step_forth s names) in H as [_ H]. lia.
  - apply negb_true_iff, Nat.eqb_neq in Hn. destruct t as [|c t]; [contradiction Hn; reflexivity|]. cbn [walk] in H.
    apply in_flat_map in H as (z & Z1 & Z2). apply (step_forth s names) in Z1 as [_ Z1].
    assert (fst z <= fst st'); [|lia]. clear - names Z2. revert z Z2.
    induction t as [|d t IH]; cbn [walk]; intros z H; [destruct H as [<-|[]]; lia|].
    apply in_flat_map in H as (y & Y1 & Y2). apply (step_forth s names) in Y1 as [_ Y1]. apply IH in Y2. lia.
Qed.
Lemma unmoved_shows : forall k (st st' : state), fst st <= fst st' -> k = true -> unmoved k st st' = false -> fst st < fst st'.
Proof. intros k st st' Hle -> H. unfold unmoved in H. cbn in H. apply Nat.eqb_neq in H. lia. Qed.

Lemma xenum_progress : forall r x y, st_ok s (snd (snd x)) -> In y (xenum r x) ->
  (nullfree r = true -> ate x y) /\ (exact_flag r = true -> shows x y).
Proof.
  assert (Hbody : forall l, (forall x y, st_ok s (snd (snd x)) -> In y (xenums l x) ->
        (existsb nullfree l = true -> ate x y) /\ (forallb exact_flag l = true -> shows x y)) ->
      forall m, body_eats l = true -> forall st st', st_ok s st -> In (false, st') (xbody l m st) -> fst st < fst st').
  { intros l H m Hb st st' Hs Hin. apply in_map_iff in Hin as (y & E & Hy).
    destruct (H (m, (true, st)) y Hs Hy) as [H1 H2]. apply orb_true_iff in Hb as [Hb|Hb].
    - specialize (H1 Hb). unfold ate in H1. rewrite E in H1. exact H1.
    - specialize (H2 Hb eq_refl). rewrite E in H2. exact (H2 eq_refl). }
  induction r as
    [ | r l IHr IHl | c | | t | l IH | l IH | | | kd a b l IH | id l IH | id nm l IH | id | nm
    | neg l IH | neg l IH | l IH | c | c | a | md ]
    using re_ind2 with (Q := fun l =>
      (forall x y, st_ok s (snd (snd x)) -> In y (xenums l x) ->
         (existsb nullfree l = true -> ate x y) /\ (forallb exact_flag l = true -> shows x y))
      /\ (forall x y, st_ok s (snd (snd x)) -> In y (xenum (RSelect l) x) ->
         (forallb nullfree l = true -> ate x y) /\ (forallb exact_flag l = true -> shows x y)));
    try (intros [m [k st]] y Hs H; apply in_map_iff in H as (st' & <- & H); split;
         [intros Hn; try discriminate; exact (base_eats _ _ _ _ _ Hn I H)
         |intros _ Hk; exact (unmoved_shows _ _ _ (proj2 (enum_forth _ _ _ _ _ _ _ _ H Hs)) Hk)]).
  - split; [intros x y Hs [<-|[]]; split; [discriminate|intros _ H1 H2; congruence]|].
    intros [m [k st]] y Hs [].
  - destruct IHl as [I1 I2]. split; intros x y Hs H.
    + rewrite xenums_cons in H. apply in_flat_map in H as (z & H1 & H2).
      destruct (xenum_forth _ _ _ H1 Hs) as [Hz Lz]. destruct (xenums_forth _ _ _ H2 Hz) as [_ Ly].
      destruct (IHr _ _ Hs H1) as [A1 A2]. destruct (I1 _ _ Hz H2) as [B1 B2]. cbn [existsb forallb]. split; intros Hl.
      * apply orb_true_iff in Hl as [Hl|Hl]; [specialize (A1 Hl)|specialize (B1 Hl)]; unfold ate in *; lia.
      * apply andb_true_iff in Hl as [L1 L2]. intros K1 K2. destruct (fst (snd z)) eqn:Ez.
        -- specialize (B2 L2 Ez K2). lia.
        -- specialize (A2 L1 K1 Ez). lia.
    + rewrite xenum_select_cons in H. cbn [forallb].
      apply in_app_iff in H as [H|H]; [destruct (IHr _ _ Hs H) as [A1 A2]|destruct (I2 _ _ Hs H) as [A1 A2]];
        split; intros Hl; apply andb_true_iff in Hl as [L1 L2]; auto.
  - apply (proj2 IH).
  - intros x y Hs H. rewrite xenum_seq in H. apply (proj1 IH); assumption.
  - (* RRep *)
    intros [m [k st]] y Hs H. rewrite xenum_rep in H. apply in_map_iff in H as ([k' st'] & <- & H).
    pose proof (Hbody l (proj1 IH) m) as Be. pose proof (xbody_forth l m) as Bf. cbn [put snd fst] in *.
    pose proof (repeated_forth _ Bf _ _ _ _ _ _ _ H Hs) as [_ Hle].
    unfold repeated in H. destruct (negb (N.eqb b 0) && N.ltb b a)%bool; [contradiction|].
    destruct (times (xbody l m) (N.to_nat a) st) as [st1|] eqn:E; [|contradiction].
    destruct (times_forth _ Bf _ _ _ E Hs) as [Hs1 Hle1].
    assert (Hle2 : fst st1 <= fst st').
    { destruct kd.
      - apply in_map_iff in H as (z & Z1 & Z2). injection Z1 as <- <-. apply (greedily_forth _ Bf _ _ _ Z2 Hs1).
      - destruct H as [H|H]; [injection H as <- <-; lia|]. apply in_map_iff in H as (z & Z1 & Z2). injection Z1 as <- <-.
        destruct (negb (N.eqb b 0) && N.eqb a b)%bool; [destruct Z2 as [<-|[]]; lia|].
        destruct (lazily_once _ Bf _ _ _ Z2) as (u & U1 & U2). destruct (once_forth _ Bf _ _ U1 Hs1) as [Hu Lu].
        destruct (U2 Hu). lia.
      - destruct H as [H|[]]. injection H as <- <-. apply (furthest_forth _ Bf _ _ Hs1). }
    assert (Ha : negb (N.eqb a 0) && body_eats l = true -> fst st < fst st1).
    { intros Hb. apply andb_true_iff in Hb as [Ha Hb]. apply negb_true_iff, N.eqb_neq in Ha.
      replace (N.to_nat a) with (S (N.to_nat (N.pred a))) in E by lia.
      exact (times_eats _ (body_eats l) Bf Be Hb _ _ _ Hs E). }
    split.
    + intros Hn. specialize (Ha Hn). unfold ate, put. cbn [fst snd]. lia.
    + intros Hx K1 K2. unfold put in *. cbn [fst snd] in *. destruct kd.
      * specialize (Ha Hx). lia.
      * change (body_eats l = true) in Hx. destruct H as [H|H].
        { injection H as <- <-. apply (unmoved_shows k); assumption. }
        apply in_map_iff in H as (z & Z1 & Z2). injection Z1 as <- <-.
        destruct (negb (N.eqb b 0) && N.eqb a b)%bool eqn:El.
        { destruct Z2 as [<-|[]]. apply Ha. rewrite Hx. lia. }
        destruct (lazily_once _ Bf _ _ _ Z2) as (u & U1 & U2). destruct (once_forth _ Bf _ _ U1 Hs1) as [Hu _].
        pose proof (once_eats _ (body_eats l) Be Hx _ _ Hs1 U1). destruct (U2 Hu). lia.
      * destruct H as [H|[]]. injection H as <- <-. apply (unmoved_shows k); [lia|assumption|assumption].
  - intros [m [k st]] y Hs H. rewrite xenum_cap in H. apply in_map_iff in H as (z & <- & H).
    exact (proj1 IH _ _ Hs H).
  - intros [m [k st]] y Hs H. rewrite xenum_ncap in H. apply in_map_iff in H as (z & <- & H).
    exact (proj1 IH _ _ Hs H).
  - intros [m [k st]] y Hs H. split; [discriminate|]. intros _ K1 K2. rewrite xenum_ahead in H. exfalso. cbn [fst snd] in K1.
    destruct neg; destruct (xenums l (m, (k, st))); try contradiction; destruct H as [<-|[]]; cbn [fst snd] in K2; congruence.
  - intros [m [k st]] y Hs H. rewrite xenum_atomic in H. destruct (once (xbody l m) st) as [st'|] eqn:E; [|contradiction].
    destruct H as [<-|[]]. split.
    + intros Hn. exact (once_eats _ (body_eats l) (Hbody l (proj1 IH) m) Hn _ _ Hs E).
    + intros _ K1. exact (unmoved_shows _ _ _ (proj2 (once_forth _ (xbody_forth l m) _ _ E Hs)) K1).
  - intros [m [k st]] y Hs [<-|[]]. split; [discriminate|]. intros _ K1 K2. cbn [fst snd] in *. congruence.
Qed.
Lemma xbody_eats : forall l m, body_eats l = true -> forall st st', st_ok s st -> In (false, st') (xbody l m st) -> fst st < fst st'.
Proof.
  intros l m Hb st st' Hs Hin. apply in_map_iff in Hin as (y & E & Hy).
  rewrite <- xenum_seq in Hy. destruct (xenum_progress _ (m, (true, st)) y Hs Hy) as [H1 H2].
  apply orb_true_iff in Hb as [Hb|Hb].
  - specialize (H1 Hb). unfold ate in H1. rewrite E in H1. exact H1.
  - specialize (H2 Hb eq_refl). rewrite E in H2. exact (H2 eq_refl).
Qed.
End Discipline.
