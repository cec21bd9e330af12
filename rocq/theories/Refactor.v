(** Replacing a part of a pattern by another one with the same outcomes in the same order of preference (C71).

    Spec and proof side only, on top of the exact account of Committed.v. *)
From Coq Require Import List ZArith NArith Bool Lia Arith ZifyBool ZifyN ZifyNat.
From Verif Require Import Chars Syntax First View Eval Api Spec CharProofs EvalMono EvalInv EvalSem SpecProps
  EvalRefine SpecCut ApiProofs EvalTop Match Mode ModeSem ModeEnum ModeCalls Term Views Total Possess Committed CommittedTop.
Import ListNotations.

(** * Lists of outcomes *)
(** Whatever is asked for, the first that fits is the same: the lists differ at most in repeated members. *)
Definition same_first {A} (l l' : list A) : Prop := forall P, find P l = find P l'.
Definition found {A} (P : A -> bool) (l : list A) : bool := match find P l with Some _ => true | None => false end.

Lemma find_app : forall A (P : A -> bool) l l', find P (l ++ l') = match find P l with Some x => Some x | None => find P l' end.
Proof. induction l as [|x l IH]; intros l'; cbn [app find]; [reflexivity|]. destruct (P x); [reflexivity|apply IH]. Qed.
Lemma find_map : forall A B (P : B -> bool) (g : A -> B) l, find P (map g l) = option_map g (find (fun x => P (g x)) l).
Proof. induction l as [|x l IH]; cbn [map find]; [reflexivity|]. destruct (P (g x)); [reflexivity|exact IH]. Qed.
Lemma find_flat : forall A B (P : B -> bool) (g : A -> list B) l,
  find P (flat_map g l) = match find (fun x => found P (g x)) l with Some x => find P (g x) | None => None end.
Proof.
  induction l as [|x l IH]; cbn [flat_map find]; [reflexivity|]. rewrite find_app. unfold found at 1. destruct (find P (g x)) eqn:E; [auto|exact IH].
Qed.
Lemma find_ext : forall A (P Q : A -> bool) l, (forall x, P x = Q x) -> find P l = find Q l.
Proof. induction l as [|x l IH]; intros H; cbn [find]; [reflexivity|]. rewrite H, IH by exact H. reflexivity. Qed.

Lemma first_refl : forall A (l : list A), same_first l l.
Proof. intros A l P. reflexivity. Qed.
Lemma first_sym : forall A (l l' : list A), same_first l l' -> same_first l' l.
Proof. intros A l l' H P. symmetry. apply H. Qed.
Lemma first_trans : forall A (l l' l'' : list A), same_first l l' -> same_first l' l'' -> same_first l l''.
Proof. intros A l l' l'' H H' P. rewrite H. apply H'. Qed.
Lemma first_app : forall A (a a' b b' : list A), same_first a a' -> same_first b b' -> same_first (a ++ b) (a' ++ b').
Proof. intros A a a' b b' H H' P. rewrite !find_app, H, H'. reflexivity. Qed.
Lemma first_map : forall A B (g : A -> B) l l', same_first l l' -> same_first (map g l) (map g l').
Proof. intros A B g l l' H P. rewrite !find_map, H. reflexivity. Qed.
Lemma first_flat : forall A B (g g' : A -> list B) l l', same_first l l' -> (forall x, same_first (g x) (g' x)) ->
  same_first (flat_map g l) (flat_map g' l').
Proof.
  intros A B g g' l l' H H' P. rewrite !find_flat, H. rewrite (find_ext _ _ (fun x => found P (g' x))).
  - destruct (find (fun x => found P (g' x)) l'); [apply H'|reflexivity].
  - intros x. unfold found. rewrite H'. reflexivity.
Qed.
Lemma first_hd : forall A (l l' : list A), same_first l l' -> hd_error l = hd_error l'.
Proof. intros A l l' H. specialize (H (fun _ => true)). destruct l, l'; exact H. Qed.
Lemma first_filter : forall A (Q : A -> bool) l l', same_first l l' -> same_first (filter Q l) (filter Q l').
Proof.
  intros A Q l l' H P. assert (E : forall l, find P (filter Q l) = find (fun x => Q x && P x) l).
  { clear. induction l as [|x l IH]; cbn [filter find]; [reflexivity|]. destruct (Q x); cbn [find andb]; [|exact IH].
    destruct (P x); [reflexivity|exact IH]. }
  rewrite !E. apply H.
Qed.
Lemma first_in : forall A (l : list A) x, In x l -> forall l', same_first (l ++ x :: l') (l ++ l').
Proof.
  intros A l x Hx l' P. rewrite !find_app. destruct (find P l) eqn:E; [reflexivity|]. cbn [find].
  rewrite (find_none P l E x Hx). reflexivity.
Qed.
Lemma first_again : forall A (l m : list A), incl m l -> same_first (l ++ m) l.
Proof.
  intros A l m H P. rewrite find_app. destruct (find P l) eqn:E; [reflexivity|]. destruct (find P m) as [x|] eqn:F; [|reflexivity].
  apply find_some in F as [F1 F2]. rewrite (find_none P l E x (H x F1)) in F2. discriminate.
Qed.

(** * Patterns *)
Definition alike (r r' : re) : Prop := forall s names x, same_first (xenum s names r x) (xenum s names r' x).
Definition alikes (l l' : list re) : Prop := forall s names x, same_first (xenums s names l x) (xenums s names l' x).
Lemma alike_refl : forall r, alike r r.
Proof. intros r s names x. apply first_refl. Qed.
Lemma alike_sym : forall r r', alike r r' -> alike r' r.
Proof. intros r r' H s names x. apply first_sym, H. Qed.
Lemma alike_trans : forall r r' r'', alike r r' -> alike r' r'' -> alike r r''.
Proof. intros r r' r'' H H' s names x. eapply first_trans; [apply H|apply H']. Qed.

(** What surrounds a part: any construct but a lookbehind. *)
Inductive frame := FSeq | FSelect | FRep (k : rkind) (a b : N) | FCap (id : nat) | FNCap (id : nat) (nm : list Z) | FAhead (neg : bool) | FAtomic.
Definition framed (w : frame) (l : list re) : re :=
  match w with
  | FSeq => RSeq l | FSelect => RSelect l | FRep k a b => RRep k a b l | FCap id => RCap id l | FNCap id nm => RNCap id nm l
  | FAhead neg => RAhead neg l | FAtomic => RAtomic l
  end.
Definition surrounding : Type := list (frame * (list re * list re)).
Fixpoint plug (c : surrounding) (r : re) : re :=
  match c with [] => r | (w, (a, b)) :: c' => framed w (a ++ plug c' r :: b) end.

Section Loops.
Variables (s : list Z) (body body' : state -> list (bool * state)).
Hypothesis bodies : forall st, same_first (body st) (body' st).
Lemma once_first : forall st, once body st = once body' st.
Proof. intros st. unfold once. rewrite bodies. reflexivity. Qed.
Lemma times_first : forall k st, times body k st = times body' k st.
Proof. induction k as [|k IH]; intros st; cbn [times]; [reflexivity|]. rewrite once_first. destruct (once body' st); auto. Qed.
Lemma greedily_first : forall k st, greedily body k st = greedily body' k st.
Proof. induction k as [|k IH]; intros st; cbn [greedily]; [reflexivity|]. rewrite once_first. destruct (once body' st); [rewrite IH|]; reflexivity. Qed.
Lemma lazily_first : forall k st, lazily body k st = lazily body' k st.
Proof. induction k as [|k IH]; intros st; cbn [lazily]; [reflexivity|]. rewrite once_first. destruct (once body' st); [rewrite IH|]; reflexivity. Qed.
Lemma furthest_first : forall k st, furthest body k st = furthest body' k st.
Proof. induction k as [|k IH]; intros st; cbn [furthest]; [reflexivity|]. rewrite once_first. destruct (once body' st); auto. Qed.
Lemma repeated_first : forall kd a b k st, repeated s body kd a b k st = repeated s body' kd a b k st.
Proof.
  intros kd a b k st. unfold repeated. rewrite times_first. destruct (times body' (N.to_nat a) st) as [st1|]; [|reflexivity].
  rewrite greedily_first, lazily_first, furthest_first. reflexivity.
Qed.
End Loops.

Lemma select_flat_map : forall s names l x, xenum s names (RSelect l) x = flat_map (fun r => xenum s names r x) l.
Proof. induction l as [|r l IH]; intros x; [apply xenum_select_nil|]. rewrite xenum_select_cons, IH. reflexivity. Qed.
Lemma xenums_app : forall s names a b x, xenums s names (a ++ b) x = flat_map (xenums s names b) (xenums s names a x).
Proof.
  induction a as [|r a IH]; intros b x; cbn [app xenums flat_map]; [rewrite app_nil_r; reflexivity|].
  induction (xenum s names r x) as [|y l IHl]; cbn [flat_map]; [reflexivity|]. rewrite IH, IHl, flat_map_app. reflexivity.
Qed.
Lemma alikes_mid : forall r r' a b, alike r r' -> alikes (a ++ r :: b) (a ++ r' :: b).
Proof.
  intros r r' a b H s names x. rewrite !xenums_app. apply first_flat; [apply first_refl|]. intros y. cbn [xenums].
  apply first_flat; [apply H|]. intros z. apply first_refl.
Qed.
Lemma framed_alike : forall w r r' a b, alike r r' -> alike (framed w (a ++ r :: b)) (framed w (a ++ r' :: b)).
Proof.
  intros w r r' a b H s names x. pose proof (alikes_mid r r' a b H) as L. destruct w; cbn [framed].
  - rewrite !xenum_seq. apply L.
  - rewrite !select_flat_map, !flat_map_app. cbn [flat_map]. apply first_app; [apply first_refl|]. apply first_app; [apply H|apply first_refl].
  - destruct x as [m [k1 st]]. rewrite !xenum_rep. rewrite (repeated_first s (xbody s names (a ++ r :: b) m) (xbody s names (a ++ r' :: b) m)); [apply first_refl|].
    intros st'. apply first_map, L.
  - destruct x as [m [k1 st]]. rewrite !xenum_cap. apply first_map, L.
  - destruct x as [m [k1 st]]. rewrite !xenum_ncap. apply first_map, L.
  - destruct x as [m [k1 st]]. rewrite !xenum_ahead. pose proof (first_hd _ _ _ (L s names (m, (k1, st)))) as E.
    destruct (xenums s names (a ++ r :: b) (m, (k1, st))), (xenums s names (a ++ r' :: b) (m, (k1, st))); try discriminate; [apply first_refl|].
    injection E as ->. apply first_refl.
  - destruct x as [m [k1 st]]. rewrite !xenum_atomic. rewrite (once_first (xbody s names (a ++ r :: b) m) (xbody s names (a ++ r' :: b) m)); [apply first_refl|].
    intros st'. apply first_map, L.
Qed.
Theorem plug_alike : forall c r r', alike r r' -> alike (plug c r) (plug c r').
Proof. induction c as [|[w [a b]] c IH]; intros r r' H; [exact H|]. apply framed_alike, IH, H. Qed.

Lemma flat_self : forall A (l : list A), flat_map (fun x => [x]) l = l.
Proof. induction l as [|x l IH]; cbn [flat_map app]; [reflexivity|]. rewrite IH. reflexivity. Qed.

(** * Calls *)
(** Two patterns that, as rewritten by the optimisation, are alike: the same outcome of every call. *)
Lemma committed_alike : forall opt tl s f r r' p, names_of r = names_of r' -> alike (possessify opt r tl) (possessify opt r' tl) ->
  same_first (committed opt tl s f r p) (committed opt tl s f r' p).
Proof. intros opt tl s f r r' p E H. unfold committed. rewrite E. apply first_map, H. Qed.
Theorem means_alike : forall a opt s f r r', find_captures r = find_captures r' -> starts_with_anchor f r = starts_with_anchor f r' ->
  alike (possessify opt r (tail_of a)) (possessify opt r' (tail_of a)) -> hd_error (means a opt s f r) = hd_error (means a opt s f r').
Proof.
  intros a opt s f r r' E A H. assert (N0 : names_of r = names_of r') by (unfold names_of; rewrite E; reflexivity).
  apply first_hd. destruct a; cbn [means tail_of] in *.
  - apply first_map, first_filter, committed_alike; assumption.
  - apply first_map, committed_alike; assumption.
  - rewrite A. apply first_flat; [apply first_refl|]. intros b. apply first_map, committed_alike; assumption.
Qed.

(** * Laws *)
Ltac start := intros; intros s names x.
(** ** Alternatives *)
Lemma law_select_one : forall r, alike (RSelect [r]) r.
Proof. start. rewrite select_flat_map. cbn [flat_map]. rewrite app_nil_r. apply first_refl. Qed.
Lemma law_select_again : forall a r b c, alike (RSelect (a ++ r :: b ++ r :: c)) (RSelect (a ++ r :: b ++ c)).
Proof.
  start. rewrite !select_flat_map, !flat_map_app. cbn [flat_map]. rewrite !flat_map_app. cbn [flat_map]. apply first_app; [apply first_refl|].
  rewrite !app_assoc. apply first_app; [|apply first_refl]. apply first_again. apply incl_appl, incl_refl.
Qed.
Lemma law_select_flat : forall a m b, alike (RSelect (a ++ RSelect m :: b)) (RSelect (a ++ m ++ b)).
Proof. start. rewrite !select_flat_map, !flat_map_app. cbn [flat_map]. rewrite select_flat_map. apply first_refl. Qed.
Lemma law_select_reject : forall a b, alike (RSelect (a ++ RReject :: b)) (RSelect (a ++ b)).
Proof. start. rewrite !select_flat_map, !flat_map_app. cbn [flat_map]. destruct x as [m [k st]]. apply first_refl. Qed.
(** ** Sequences *)
Lemma law_seq_one : forall r, alike (RSeq [r]) r.
Proof. start. rewrite xenum_seq. cbn [xenums]. rewrite flat_self. apply first_refl. Qed.
Lemma law_seq_flat : forall a m b, alike (RSeq (a ++ RSeq m :: b)) (RSeq (a ++ m ++ b)).
Proof.
  start. rewrite !xenum_seq, !xenums_app. apply first_flat; [apply first_refl|]. intros y. cbn [xenums]. rewrite xenum_seq, xenums_app. apply first_refl.
Qed.
Lemma law_seq_empty : forall a b, alike (RSeq (a ++ REmpty :: b)) (RSeq (a ++ b)).
Proof.
  start. rewrite !xenum_seq, !xenums_app. apply first_flat; [apply first_refl|]. intros [m [k st]]. cbn [xenums].
  change (xenum s names REmpty (m, (k, st))) with [(m, (unmoved k st st, st))]. unfold unmoved. rewrite Nat.eqb_refl, andb_true_r.
  cbn [flat_map]. rewrite app_nil_r. apply first_refl.
Qed.
Lemma law_seq_reject : forall b, alike (RSeq (RReject :: b)) RReject.
Proof. start. destruct x as [m [k st]]. apply first_refl. Qed.
Lemma law_distribute : forall m b, alike (RSeq (RSelect m :: b)) (RSelect (map (fun r => RSeq (r :: b)) m)).
Proof.
  start. rewrite xenum_seq. cbn [xenums]. rewrite !select_flat_map. induction m as [|r m IH]; [apply first_refl|]. cbn [map flat_map].
  rewrite flat_map_app, xenum_seq. apply first_app; [apply first_refl|exact IH].
Qed.
(** Patterns with at most one outcome. *)
Fixpoint lone (r : re) : bool :=
  match r with
  | RSelect l => match l with [] => true | [x] => lone x | _ => false end
  | RSeq l | RCap _ l | RNCap _ _ l => forallb lone l
  | RRep k _ _ _ => match k with Possessive => true | _ => false end
  | _ => true
  end.
Lemma lone_one : forall s names r, lone r = true -> forall x, length (xenum s names r x) <= 1.
Proof.
  intros s names.
  induction r as
    [ | r l IHr IHl | c | | t | l IH | l IH | | | kd a b l IH | id l IH | id nm l IH | id | nm
    | neg l IH | neg l IH | l IH | c | c | a | md ]
    using re_ind2 with (Q := fun l => (forallb lone l = true -> forall x, length (xenums s names l x) <= 1) /\
      match l with [y] => lone y = true -> forall x, length (xenum s names y x) <= 1 | _ => True end); intros; try (destruct x as [m [k st]]).
  - split; [|exact I]. intros _ x. cbn. lia.
  - split.
    + cbn [forallb]. intros H x. apply andb_true_iff in H as [H1 H2]. cbn [xenums]. specialize (IHr H1 x).
      destruct (xenum s names r x) as [|y [|z w]]; cbn [flat_map length] in *; [lia| |lia]. rewrite app_nil_r. apply IHl, H2.
    + destruct l; [exact IHr|exact I].
  - cbn [xenum]. rewrite map_length. cbn [enum]. unfold step. destruct (nth_error s (fst st)) as [v|]; [|cbn; lia]. destruct (cls_has _ _ _); cbn; lia.
  - cbn [xenum]. rewrite map_length. cbn [enum]. unfold step. destruct (nth_error s (fst st)) as [v|]; [|cbn; lia]. destruct (dot _ _); cbn; lia.
  - cbn [xenum]. rewrite map_length. cbn [enum]. clear. revert st. induction t as [|c t IH]; intros st; cbn [walk]; [cbn; lia|].
    unfold step. destruct (nth_error s (fst st)) as [v|]; [|cbn; lia]. destruct (lit_has _ _ _); cbn [flat_map]; [rewrite app_nil_r; apply IH|cbn; lia].
  - destruct IH as [_ IH]. rewrite select_flat_map. destruct l as [|y [|z w]]; [cbn; lia| |discriminate]. cbn [flat_map]. rewrite app_nil_r. apply IH. exact H.
  - rewrite xenum_seq. apply IH. exact H.
  - cbn. lia.
  - cbn. lia.
  - destruct kd; try discriminate. rewrite xenum_rep, map_length. unfold repeated. destruct (_ && _); [cbn; lia|].
    destruct (times _ _ _); cbn; lia.
  - rewrite xenum_cap, map_length. apply IH. exact H.
  - rewrite xenum_ncap, map_length. apply IH. exact H.
  - cbn [xenum]. rewrite map_length. cbn [enum]. destruct (lookup id (snd st)) as [[b e]|]; [|cbn; lia]. destruct (prefix_at _ _ _); cbn; lia.
  - cbn [xenum]. rewrite map_length. cbn [enum]. destruct (names nm) as [id|]; [|cbn; lia]. destruct (lookup id (snd st)) as [[b e]|]; [|cbn; lia].
    destruct (prefix_at _ _ _); cbn; lia.
  - rewrite xenum_ahead. destruct neg; destruct (xenums _ _ _ _); cbn; lia.
  - destruct neg; cbn [xenum enum]; rewrite map_length; match goal with |- context [match ?e with [] => _ | _ :: _ => _ end] => destruct e end; cbn; lia.
  - rewrite xenum_atomic. destruct (once _ _); cbn; lia.
  - cbn [xenum]. rewrite map_length. cbn [enum]. destruct (boundary _ _ _); cbn; lia.
  - cbn [xenum]. rewrite map_length. cbn [enum]. destruct (boundary _ _ _); cbn; lia.
  - cbn [xenum]. rewrite map_length. cbn [enum]. destruct (holds _ _ _ _); cbn; lia.
  - cbn. lia.
Qed.
(** A common beginning with at most one outcome can be taken out. *)
Lemma law_factor : forall r l l', lone r = true -> alike (RSelect [RSeq (r :: l); RSeq (r :: l')]) (RSeq [r; RSelect [RSeq l; RSeq l']]).
Proof.
  start. rewrite select_flat_map. cbn [flat_map]. rewrite !xenum_seq. cbn [xenums]. rewrite app_nil_r. pose proof (lone_one s names r H x) as L.
  destruct (xenum s names r x) as [|y [|z w]]; cbn [flat_map length] in *; [apply first_refl| |lia].
  rewrite !app_nil_r, select_flat_map. cbn [flat_map]. rewrite !xenum_seq, app_nil_r.
  rewrite flat_self. apply first_refl.
Qed.
(** ** Repetitions of one letter *)
Definition letter (r : re) : bool := match r with RCls _ | RAny => true | RStr (_ :: _) => true | _ => false end.
(** A letter does not look at the flag, lifts it, and has at most one outcome. *)
Lemma letter_shape : forall s names r, letter r = true -> forall m st,
  exists o : option state, (forall k, xenum s names r (m, (k, st)) = match o with Some st' => [(m, (false, st'))] | None => [] end) /\
    match o with Some st' => fst st < fst st' | None => True end.
Proof.
  intros s names r H m st.
  assert (W : forall ci t st st', In st' (walk s ci t st) -> fst st' = fst st + length t).
  { clear. induction t as [|c t IH]; intros st st' H; cbn [walk] in H.
    - destruct H as [<-|[]]. cbn. lia.
    - unfold step in H. destruct (nth_error s (fst st)); [|destruct H]. destruct (lit_has ci c z); [|destruct H]. cbn [flat_map] in H. rewrite app_nil_r in H.
      apply IH in H. cbn [fst length] in *. lia. }
  assert (X : exists o : option state, (forall k, xenum s names r (m, (k, st)) = map (fun st' => (m, (unmoved k st st', st'))) (match o with Some st' => [st'] | None => [] end))
    /\ match o with Some st' => fst st < fst st' | None => True end).
  { assert (E : forall k, xenum s names r (m, (k, st)) = map (fun st' => (m, (unmoved k st st', st'))) (enum s (fst m) (snd m) names true r st)).
    { intros k. destruct r; try discriminate; reflexivity. }
    assert (L : length (enum s (fst m) (snd m) names true r st) <= 1).
    { pose proof (lone_one s names r ltac:(destruct r; try discriminate; reflexivity) (m, (true, st))) as L. rewrite E, map_length in L. exact L. }
    assert (M : forall st', In st' (enum s (fst m) (snd m) names true r st) -> fst st < fst st').
    { intros st' I. destruct r; try discriminate; cbn [enum] in I.
      - unfold step in I. destruct (nth_error s (fst st)); [|destruct I]. destruct (cls_has _ _ _); [|destruct I]. destruct I as [<-|[]]. cbn. lia.
      - unfold step in I. destruct (nth_error s (fst st)); [|destruct I]. destruct (dot _ _); [|destruct I]. destruct I as [<-|[]]. cbn. lia.
      - apply W in I. match type of H with letter (RStr ?t) = _ => destruct t as [|c t]; [discriminate|] end. cbn [length] in I. lia. }
    destruct (enum s (fst m) (snd m) names true r st) as [|st' [|z w]].
    - exists None. split; [exact E|exact I].
    - exists (Some st'). split; [exact E|]. apply M. left. reflexivity.
    - cbn in L. lia. }
  destruct X as ([st'|] & E & F).
  - exists (Some st'). split; [|exact F]. intros k. rewrite E. cbn [map]. unfold unmoved. destruct (Nat.eqb_spec (fst st') (fst st)); [lia|].
    rewrite andb_false_r. reflexivity.
  - exists None. split; [exact E|exact I].
Qed.
Lemma letter_once : forall s names r, letter r = true -> forall m st,
  (forall k, xenum s names r (m, (k, st)) = match once (xbody s names [r] m) st with Some st' => [(m, (false, st'))] | None => [] end) /\
  match once (xbody s names [r] m) st with Some st' => fst st < fst st' | None => True end.
Proof.
  intros s names r H m st. destruct (letter_shape s names r H m st) as (o & E & F).
  assert (O1 : once (xbody s names [r] m) st = o).
  { unfold once, xbody. cbn [xenums]. rewrite E. destruct o; reflexivity. }
  rewrite O1. split; [exact E|exact F].
Qed.
(** [c{a+1,b+1}] is [c] and then [c{a,b}]; without a limit the same. *)
Lemma law_unroll : forall r kd a b, letter r = true ->
  alike (RRep kd (a + 1) (if N.eqb b 0 then 0 else b + 1) [r]) (RSeq [r; RRep kd a b [r]]).
Proof.
  intros r kd a b H s names [m [k st]]. rewrite xenum_seq. cbn [xenums]. destruct (letter_once s names r H m st) as [E F]. rewrite E, xenum_rep.
  set (body := xbody s names [r] m) in *. unfold repeated. replace (N.to_nat (a + 1)) with (S (N.to_nat a)) by lia. cbn [times].
  assert (Lm : negb (N.eqb (if N.eqb b 0 then 0 else b + 1) 0) && N.ltb (if N.eqb b 0 then 0 else b + 1) (a + 1) = negb (N.eqb b 0) && N.ltb b a) by (destruct (N.eqb_spec b 0); lia).
  destruct (once body st) as [st1|]; [|destruct (_ && _); apply first_refl].
  cbn [flat_map]. rewrite flat_self, app_nil_r, xenum_rep. fold body. rewrite Lm. unfold repeated.
  destruct (negb (N.eqb b 0) && N.ltb b a) eqn:B; [apply first_refl|].
  destruct (times body (N.to_nat a) st1) as [st2|] eqn:T; [|apply first_refl].
  assert (R : room s (a + 1) (if N.eqb b 0 then 0 else b + 1) st2 = room s a b st2).
  { unfold room. destruct (N.eqb_spec b 0) as [->|Nb]; [reflexivity|]. destruct (N.eqb_spec (b + 1) 0); lia. }
  assert (D : fst st < fst st2).
  { assert (V : fst st1 <= fst st2); [|lia]. clear - T H. revert st1 T. induction (N.to_nat a) as [|j IH]; intros y T; cbn [times] in T.
    - injection T as ->. lia.
    - pose proof (proj2 (letter_once s names r H m y)) as G. fold body in G. destruct (once body y) as [z|]; [|discriminate]. specialize (IH z T). lia. }
  assert (U : forall st', fst st < fst st' -> unmoved k st st' = false).
  { intros st' L. unfold unmoved. destruct (Nat.eqb_spec (fst st') (fst st)); [lia|]. apply andb_false_r. }
  assert (U1 : forall st', unmoved false st1 st' = false) by reflexivity.
  assert (FR : forall j y, fst y <= fst (furthest body j y)).
  { clear - H. induction j as [|j IH]; intros y; cbn [furthest]; [lia|]. pose proof (proj2 (letter_once s names r H m y)) as G. fold body in G.
    destruct (once body y) as [z|]; [|lia]. specialize (IH z). lia. }
  rewrite R. destruct kd.
  - apply first_refl.
  - rewrite U, U1 by exact D. replace (negb (N.eqb (if N.eqb b 0 then 0 else b + 1) 0) && N.eqb (a + 1) (if N.eqb b 0 then 0 else b + 1)) with (negb (N.eqb b 0) && N.eqb a b).
    + apply first_refl.
    + destruct (N.eqb_spec b 0) as [->|Nb]; [reflexivity|]. lia.
  - rewrite U, U1; [apply first_refl|]. specialize (FR (room s a b st2) st2). lia.
Qed.
(** Exactly once. *)
Lemma law_exactly : forall r kd, letter r = true -> alike (RRep kd 1 1 [r]) r.
Proof.
  intros r kd H s names [m [k st]]. destruct (letter_once s names r H m st) as [E F]. rewrite E, xenum_rep. unfold repeated.
  change (N.to_nat 1) with 1. cbn [times N.eqb N.ltb N.compare Pos.compare Pos.compare_cont negb andb Pos.eqb].
  destruct (once (xbody s names [r] m) st) as [st1|]; [|apply first_refl].
  change (room s 1 1 st1) with 0. assert (U : unmoved k st st1 = false).
  { unfold unmoved. destruct (Nat.eqb_spec (fst st1) (fst st)); [lia|]. apply andb_false_r. }
  destruct kd; cbn [greedily furthest map put]; rewrite ?U; [apply first_refl| |apply first_refl].
  apply (first_again _ [(m, (false, st1))] [(m, (false, st1))]). apply incl_refl.
Qed.
(** ** Possessive repetitions and atomic groups *)
Lemma greedily_furthest : forall body j st, hd_error (greedily body j st) = Some (furthest body j st).
Proof.
  induction j as [|j IH]; intros st; cbn [greedily furthest]; [reflexivity|]. destruct (once body st) as [y|]; [|reflexivity].
  specialize (IH y). destruct (greedily body j y); [discriminate|]. exact IH.
Qed.
Lemma law_possessive : forall a b l, alike (RRep Possessive a b l) (RAtomic [RRep Greedy a b l]).
Proof.
  intros a b l s names [m [k st]]. rewrite xenum_rep, xenum_atomic. unfold once at 1. unfold xbody at 2. cbn [xenums]. rewrite xenum_rep. unfold repeated.
  destruct (_ && _); [apply first_refl|]. destruct (times _ _ st) as [st1|]; [|apply first_refl].
  pose proof (greedily_furthest (xbody s names l m) (room s a b st1) st1) as G.
  destruct (greedily (xbody s names l m) (room s a b st1) st1) as [|y w]; [discriminate|]. injection G as ->. apply first_refl.
Qed.
Lemma law_atomic_letter : forall r, letter r = true -> alike (RAtomic [r]) r.
Proof.
  intros r H s names [m [k st]]. destruct (letter_once s names r H m st) as [E F]. rewrite E, xenum_atomic.
  destruct (once (xbody s names [r] m) st) as [st1|]; [|apply first_refl]. unfold unmoved. destruct (Nat.eqb_spec (fst st1) (fst st)); [lia|].
  rewrite andb_false_r. apply first_refl.
Qed.
(** ** Groups *)
Lemma law_cap_select : forall id m, alike (RCap id [RSelect m]) (RSelect (map (fun r => RCap id [r]) m)).
Proof.
  intros id m s names [md [k st]]. rewrite xenum_cap, select_flat_map. cbn [xenums]. rewrite select_flat_map.
  induction m as [|r m IH]; [apply first_refl|]. cbn [map flat_map]. rewrite flat_map_app, map_app, xenum_cap. apply first_app; [apply first_refl|exact IH].
Qed.
(** ** Lookaheads *)
Section Log.
Variables (s : list Z) (names : list Z -> option nat).
Section LogLoop.
Variable body : state -> list (bool * state).
Hypothesis body_log : forall st k st', In (k, st') (body st) -> snd st' = snd st.
Lemma once_log : forall st st', once body st = Some st' -> snd st' = snd st.
Proof. intros st st' H. eapply body_log, once_in, H. Qed.
Lemma times_log : forall j st st', times body j st = Some st' -> snd st' = snd st.
Proof.
  induction j as [|j IH]; intros st st' H; cbn [times] in H; [injection H as ->; reflexivity|].
  destruct (once body st) as [y|] eqn:E; [|discriminate]. rewrite (IH _ _ H). apply once_log, E.
Qed.
Lemma greedily_log : forall j st st', In st' (greedily body j st) -> snd st' = snd st.
Proof.
  induction j as [|j IH]; intros st st' H; cbn [greedily] in H; [destruct H as [<-|[]]; reflexivity|]. apply in_app_iff in H as [H|[<-|[]]]; [|reflexivity].
  destruct (once body st) as [y|] eqn:E; [|destruct H]. rewrite (IH _ _ H). apply once_log, E.
Qed.
Lemma lazily_log : forall j st st', In st' (lazily body j st) -> snd st' = snd st.
Proof.
  induction j as [|j IH]; intros st st' H; cbn [lazily] in H; [destruct H|]. destruct (once body st) as [y|] eqn:E; [|destruct H].
  destruct H as [<-|H]; [apply once_log, E|]. rewrite (IH _ _ H). apply once_log, E.
Qed.
Lemma furthest_log : forall j st, snd (furthest body j st) = snd st.
Proof. induction j as [|j IH]; intros st; cbn [furthest]; [reflexivity|]. destruct (once body st) as [y|] eqn:E; [|reflexivity]. rewrite IH. apply once_log, E. Qed.
Lemma repeated_log : forall kd a b k st k' st', In (k', st') (repeated s body kd a b k st) -> snd st' = snd st.
Proof.
  intros kd a b k st k' st' H. unfold repeated in H. destruct (_ && _); [destruct H|]. destruct (times body (N.to_nat a) st) as [st1|] eqn:T; [|destruct H].
  apply times_log in T. rewrite <- T. destruct kd.
  - apply in_map_iff in H as (y & E & H). injection E as _ ->. eapply greedily_log, H.
  - destruct H as [E|H]; [injection E as _ ->; reflexivity|]. apply in_map_iff in H as (y & E & H). injection E as _ ->.
    destruct (_ && _); [destruct H as [->|[]]; reflexivity|eapply lazily_log, H].
  - destruct H as [E|[]]. injection E as _ <-. apply furthest_log.
Qed.
End LogLoop.
(** What records no group leaves the log alone. *)
Lemma xenum_log : forall r, no_groups r = true -> forall x y, In y (xenum s names r x) -> snd (snd (snd y)) = snd (snd (snd x)).
Proof.
  induction r as
    [ | r l IHr IHl | c | | t | l IH | l IH | | | kd a b l IH | id l IH | id nm l IH | id | nm
    | neg l IH | neg l IH | l IH | c | c | a | md ]
    using re_ind2 with (Q := fun l => forallb no_groups l = true ->
      (forall x y, In y (xenums s names l x) -> snd (snd (snd y)) = snd (snd (snd x))) /\
      (forall x y, In y (xenum s names (RSelect l) x) -> snd (snd (snd y)) = snd (snd (snd x))));
    cbn [no_groups forallb]; try discriminate; intros Hn.
  all: try (intros [m [k st]] y H; cbn [xenum] in H; apply in_map_iff in H as (st' & <- & H); cbn [snd]; eapply no_groups_log; [|exact H]; reflexivity).
  - split; intros x y H; [destruct H as [<-|[]]; reflexivity|]. rewrite xenum_select_nil in H. destruct H.
  - apply andb_true_iff in Hn as [H1 H2]. destruct (IHl H2) as [I1 I2]. split; intros x y H.
    + cbn [xenums] in H. apply in_flat_map in H as (z & H & H'). rewrite (I1 _ _ H'). apply (IHr H1 _ _ H).
    + rewrite xenum_select_cons in H. apply in_app_iff in H as [H|H]; [apply (IHr H1 _ _ H)|auto].
  - apply (IH Hn).
  - intros x y H. rewrite xenum_seq in H. apply (IH Hn) in H. exact H.
  - intros [m [k st]] y H. rewrite xenum_rep in H. apply in_map_iff in H as ([k' st'] & <- & H). cbn [put snd]. eapply repeated_log; [|exact H].
    clear H. intros st1 k1 st2 H. unfold xbody in H. apply in_map_iff in H as ([m2 y2] & E2 & H). cbn [snd] in E2. subst y2. apply (proj1 (IH Hn)) in H. exact H.
  - intros [m [k st]] y H. rewrite xenum_ahead in H. destruct neg.
    + destruct (xenums s names l (m, (k, st))); [destruct H as [<-|[]]; reflexivity|destruct H].
    + destruct (xenums s names l (m, (k, st))) as [|z w] eqn:E; [destruct H|]. destruct H as [<-|[]]. cbn [snd].
      pose proof (proj1 (IH Hn) (m, (k, st)) z) as G. rewrite E in G. apply G. left. reflexivity.
  - intros [m [k st]] y H. rewrite xenum_atomic in H. destruct (once _ st) as [st'|] eqn:E; [|destruct H]. destruct H as [<-|[]]. cbn [snd].
    eapply once_log; [|exact E]. clear E. intros st1 k1 st2 H. unfold xbody in H. apply in_map_iff in H as ([m2 y2] & E2 & H).
    cbn [snd] in E2. subst y2. apply (proj1 (IH Hn)) in H. exact H.
  - intros [m [k st]] y [<-|[]]. reflexivity.
Qed.
Lemma xenums_log : forall l, forallb no_groups l = true -> forall x y, In y (xenums s names l x) -> snd (snd (snd y)) = snd (snd (snd x)).
Proof. intros l H x y I. rewrite <- xenum_seq in I. apply xenum_log in I; [exact I|exact H]. Qed.
(** So a lookahead without groups is a test. *)
Lemma ahead_test : forall l neg x, forallb no_groups l = true ->
  xenum s names (RAhead neg l) x = if Bool.eqb neg (match xenums s names l x with [] => true | _ => false end) then [x] else [].
Proof.
  intros l neg [m [k [p lg]]] H. rewrite xenum_ahead.
  match goal with |- context [xenums s names l ?d] => pose proof (xenums_log l H d) as G; destruct (xenums s names l d) as [|y w] eqn:E end;
    destruct neg; cbn [Bool.eqb]; try reflexivity.
  rewrite (G y (or_introl eq_refl)). reflexivity.
Qed.
End Log.
Lemma law_ahead_ahead : forall neg l, alike (RAhead neg [RAhead false l]) (RAhead neg l).
Proof.
  intros neg l s names [m [k st]]. rewrite !xenum_ahead. cbn [xenums]. rewrite flat_self, xenum_ahead.
  destruct neg, (xenums s names l (m, (k, st))); apply first_refl.
Qed.
Lemma law_ahead_not : forall neg l, forallb no_groups l = true -> alike (RAhead neg [RAhead true l]) (RAhead (negb neg) l).
Proof.
  intros neg l H s names x. rewrite !ahead_test; try assumption; [|reflexivity]. cbn [xenums]. rewrite flat_self, ahead_test by exact H.
  destruct neg, (xenums s names l x); apply first_refl.
Qed.
Lemma law_ahead_twice : forall neg l a, forallb no_groups l = true -> alike (RSeq (RAhead neg l :: RAhead neg l :: a)) (RSeq (RAhead neg l :: a)).
Proof.
  intros neg l a H s names x. rewrite !xenum_seq. cbn [xenums]. rewrite !ahead_test by exact H.
  destruct (Bool.eqb neg _) eqn:E; cbn [flat_map]; [|apply first_refl]. rewrite ahead_test by exact H. rewrite E. cbn [flat_map]. rewrite !app_nil_r. apply first_refl.
Qed.
Lemma law_ahead_both : forall neg l a, forallb no_groups l = true -> alike (RSeq (RAhead neg l :: RAhead (negb neg) l :: a)) RReject.
Proof.
  intros neg l a H s names x. rewrite xenum_seq. cbn [xenums]. rewrite ahead_test by exact H. replace (xenum s names RReject x) with (@nil xstate) by (destruct x as [m [k st]]; reflexivity).
  destruct (Bool.eqb neg _) eqn:E; cbn [flat_map]; [|apply first_refl]. rewrite ahead_test by exact H. destruct neg, (xenums s names l x); try discriminate; apply first_refl.
Qed.
Lemma law_ahead_swap : forall neg neg' l l' a, forallb no_groups l = true -> forallb no_groups l' = true ->
  alike (RSeq (RAhead neg l :: RAhead neg' l' :: a)) (RSeq (RAhead neg' l' :: RAhead neg l :: a)).
Proof.
  intros neg neg' l l' a H H' s names x. rewrite !xenum_seq. cbn [xenums]. rewrite (ahead_test _ _ l neg x H), (ahead_test _ _ l' neg' x H').
  destruct (Bool.eqb neg _) eqn:E, (Bool.eqb neg' _) eqn:E'; cbn [flat_map]; rewrite ?ahead_test, ?E, ?E' by assumption; apply first_refl.
Qed.
(** ** Literal strings *)
Lemma law_string : forall c t, alike (RStr (c :: t)) (RSeq [RCls (CChar c); RStr t]).
Proof.
  intros c t s names [m [k st]]. rewrite xenum_seq. cbn [xenums].
  cbn [xenum enum walk]. unfold step. destruct (nth_error s (fst st)) as [v|]; [|apply first_refl].
  change (cls_has (snd m) (CChar c) v) with (lit_has (snd m) c v). destruct (lit_has (snd m) c v); cbn [map flat_map]; [|apply first_refl].
  rewrite !app_nil_r, flat_self.
  assert (W : forall ci t st st', In st' (walk s ci t st) -> fst st <= fst st').
  { clear. intros ci. induction t as [|c t IH]; intros st st' H; cbn [walk] in H.
    - destruct H as [<-|[]]. lia.
    - unfold step in H. destruct (nth_error s (fst st)); [|destruct H]. destruct (lit_has ci c z); [|destruct H]. cbn [flat_map] in H. rewrite app_nil_r in H.
      apply IH in H. cbn [fst] in H. lia. }
  replace (map (fun st' => (m, (unmoved k st st', st'))) (walk s (snd m) t (S (fst st), snd st)))
    with (map (fun st' => (m, (unmoved (unmoved k st (S (fst st), snd st)) (S (fst st), snd st) st', st'))) (walk s (snd m) t (S (fst st), snd st))); [apply first_refl|].
  apply map_ext_in. intros st' I. apply W in I. cbn [fst] in I. unfold unmoved. cbn [fst].
  destruct (Nat.eqb_spec (S (fst st)) (fst st)), (Nat.eqb_spec (fst st') (fst st)); try lia. rewrite !andb_false_r. reflexivity.
Qed.
Lemma law_string_one : forall c, alike (RStr [c]) (RCls (CChar c)).
Proof.
  intros c s names [m [k st]]. cbn [xenum enum walk]. unfold step. destruct (nth_error s (fst st)) as [v|]; [|apply first_refl].
  change (cls_has (snd m) (CChar c) v) with (lit_has (snd m) c v). destruct (lit_has (snd m) c v); apply first_refl.
Qed.
Lemma law_string_empty : alike (RStr []) REmpty.
Proof. intros s names [m [k st]]. apply first_refl. Qed.
(** ** Classes *)
Lemma law_class : forall c c', (forall ci v, cls_has ci c v = cls_has ci c' v) -> alike (RCls c) (RCls c').
Proof. intros c c' H s names [m [k st]]. cbn [xenum enum]. unfold step. destruct (nth_error s (fst st)) as [v|]; [|apply first_refl]. rewrite H. apply first_refl. Qed.
(** Alternatives of two characters classes are one set. *)
Lemma law_class_select : forall c c', alike (RSelect [RCls c; RCls c']) (RCls (CSet [c; c'])).
Proof.
  intros c c' s names x. rewrite select_flat_map. destruct x as [m [k st]]. cbn [flat_map xenum enum]. unfold step.
  destruct (nth_error s (fst st)) as [v|]; [|apply first_refl].
  change (cls_has (snd m) (CSet [c; c']) v) with (cls_has (snd m) c v || (cls_has (snd m) c' v || false)). rewrite orb_false_r.
  destruct (cls_has (snd m) c v), (cls_has (snd m) c' v); cbn [map app orb]; try apply first_refl.
  apply (first_again _ [(m, (unmoved k st (S (fst st), snd st), (S (fst st), snd st)))]). apply incl_refl.
Qed.
