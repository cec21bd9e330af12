(** The greedy-to-possessive optimisation: when the first sets do not collide, the preferred outcome
    does not change. *)
From Coq Require Import List ZArith NArith Bool Lia Arith ZifyBool ZifyN ZifyNat.
From Verif Require Import Chars Syntax First View Eval Spec CharProofs EvalInv EvalSem SpecProps EvalRefine
  ApiProofs.
Import ListNotations.

(** * First sets as sets of values *)
Local Open Scope Z_scope.

(** Classes that mean the same in both case modes (any class when the mode is case-sensitive). *)
Fixpoint caseless (ci : bool) (c : cls) : bool :=
  match c with
  | CChar l => negb ci || negb (is_alpha l)
  | CRange a b => negb ci || range_closed a b
  | CSet l | CNeg l | CNegate l => forallb (caseless ci) l
  | CEnum vs => negb ci || forallb (fun l => negb (is_alpha l)) vs
  | CProp _ => true
  end.

Lemma caseless_lit : forall l v, is_alpha l = false -> lit_has true l v = lit_has false l v.
Proof.
  intros l v H. unfold lit_has, fold_test. cbn [andb]. rewrite orb_false_r.
  destruct (Z.eqb_spec l v); [reflexivity|]. cbn [orb].
  destruct (Z.eqb_spec l (swap_case v)) as [E|]; [|reflexivity].
  exfalso. unfold is_alpha, is_lower, is_upper in H. unfold swap_case in E.
  destruct ((65 <=? v) && (v <=? 90)) eqn:E1; destruct ((97 <=? v) && (v <=? 122)) eqn:E2; lia.
Qed.
Lemma caseless_has : forall ci c v, caseless ci c = true -> cls_has ci c v = cls_has false c v.
Proof.
  intros [] c v; [|reflexivity].
  induction c as [l|a b|l IH|l IH|vs|l IH|t] using cls_ind2; cbn [caseless cls_has negb orb].
  - intros H. apply caseless_lit. apply negb_true_iff. assumption.
  - intros H. unfold fold_test. cbn [andb]. rewrite orb_false_r.
    pose proof (range_closed_spec a b v H).
    destruct ((a <=? v) && (v <=? b)) eqn:E; [reflexivity|]. cbn [orb]. lia.
  - intros H. apply existsb_ext_in. intros x Hx. rewrite Forall_forall in IH. rewrite forallb_forall in H. auto.
  - intros H. f_equal. apply existsb_ext_in. intros x Hx. rewrite Forall_forall in IH. rewrite forallb_forall in H. auto.
  - intros H. apply existsb_ext_in. intros x Hx. rewrite forallb_forall in H. apply caseless_lit.
    apply negb_true_iff. auto.
  - intros H. f_equal. apply existsb_ext_in. intros x Hx. rewrite Forall_forall in IH. rewrite forallb_forall in H. auto.
  - reflexivity.
Qed.

Definition has (i : fitem) (v : Z) : bool :=
  match i with FAny => true | FCls c => cls_has false c v end.
Definition fin (F : list fitem) (v : Z) : bool := existsb (fun i => has i v) F.

Definition item_ok (i : fitem) : bool := match i with FAny => true | FCls c => cls_ok false c end.

Lemma fin_app : forall F G v, fin (F ++ G) v = fin F v || fin G v.
Proof. intros. apply existsb_app. Qed.

Definition inside (P : points) (v : Z) : Prop := exists r, In r P /\ fst r <= v <= snd r.

Lemma insert_in : forall P p r, In r (insert_point P p) <-> r = p \/ In r P.
Proof.
  intros P p r. unfold insert_point. rewrite in_app_iff. cbn [In].
  assert (H : In r P <-> In r (firstn (lower_bound P (fst p)) P) \/ In r (skipn (lower_bound P (fst p)) P))
    by (rewrite <- in_app_iff, firstn_skipn; reflexivity).
  rewrite H. intuition congruence.
Qed.
Lemma insert_all_in : forall o P r, In r (fold_left insert_point o P) <-> In r o \/ In r P.
Proof.
  induction o as [|p o IH]; intros P r; cbn [fold_left In]; [tauto|].
  rewrite IH, insert_in. intuition congruence.
Qed.
Lemma insert_enum_in : forall vs P r,
  In r (fold_left (fun p v => insert_point p (v, v)) vs P) <-> (exists v, In v vs /\ r = (v, v)) \/ In r P.
Proof.
  induction vs as [|x vs IH]; intros P r; cbn [fold_left In].
  - split; [auto|]. intros [(v & [] & _)|H]. assumption.
  - rewrite IH, insert_in. split.
    + intros [(v & H & ->)|[->|H]]; eauto 6.
    + intros [(v & [<-|H] & ->)|H]; eauto 6.
Qed.

(** ** Negative sets are over-approximated *)
Lemma succ_lit_ok : forall b, lit_ok b = true -> succ_lit b = b + 1.
Proof. intros b H. unfold lit_ok in H. unfold succ_lit, u32. destruct (b <? 128); [reflexivity|]. rewrite Z.mod_small; lia. Qed.

Lemma neg_range_cover : forall a b start v, lit_ok b = true -> start <= v -> ~ (a <= v <= b) ->
  let (o, s') := neg_helper_range a b start in inside o v \/ s' <= v.
Proof.
  intros a b start v Hb Hs Hn. unfold neg_helper_range. rewrite succ_lit_ok by assumption.
  destruct (Z_lt_dec v a).
  - left. destruct (start <? a) eqn:E; [|lia]. exists (start, a - 1). split; [left; reflexivity|]. cbn. lia.
  - right. lia.
Qed.
Lemma inside_app : forall o1 o2 v, inside (o1 ++ o2) v <-> inside o1 v \/ inside o2 v.
Proof.
  intros o1 o2 v. unfold inside. split.
  - intros (r & H & Hr). apply in_app_iff in H as [H|H]; eauto.
  - intros [(r & H & Hr)|(r & H & Hr)]; exists r; rewrite in_app_iff; auto.
Qed.

Definition cover (res : option (list (Z * Z) * Z)) (v : Z) : Prop :=
  match res with Some (o, s') => inside o v \/ s' <= v | None => True end.

Lemma neg_enum_cover : forall vs start v, forallb lit_ok vs = true -> start <= v -> ~ In v vs ->
  let (o, s') := neg_helper_enum vs start in inside o v \/ s' <= v.
Proof.
  induction vs as [|x vs IH]; cbn [neg_helper_enum forallb In]; intros start v Hl Hs Hn; [right; assumption|].
  apply andb_true_iff in Hl as [Hx Hl].
  pose proof (neg_range_cover x x start v Hx Hs ltac:(lia)) as H.
  destruct (neg_helper_range x x start) as [o1 s1].
  destruct (neg_helper_enum vs s1) as [o2 s2] eqn:E.
  rewrite inside_app. destruct H as [H|H]; [auto|].
  pose proof (IH s1 v Hl H ltac:(tauto)) as H'. rewrite E in H'. tauto.
Qed.

Lemma neg_cover : forall c start v, cls_ok false c = true -> start <= v ->
  cls_has false c v = false -> cover (neg_helper c start) v.
Proof.
  induction c as [l|a b|l IH|l IH|vs|l IH|t] using cls_ind2; intros start v Hok Hs Hn;
    cbn [neg_helper cls_has cls_ok] in *; try exact I.
  - unfold cover. apply neg_range_cover; auto. unfold lit_has, fold_test in Hn. cbn [andb] in Hn. lia.
  - unfold range_ok in Hok. apply andb_true_iff in Hok as [Hok _]. apply andb_true_iff in Hok as [Hok _].
    apply andb_true_iff in Hok as [_ Hok]. unfold fold_test in Hn. cbn [andb] in Hn.
    apply neg_range_cover; [assumption | assumption | lia].
  - revert start Hs. induction IH as [|x l Hx Hl IHl]; intros start Hs; [right; assumption|].
    cbn [forallb existsb] in Hok, Hn. apply andb_true_iff in Hok as [O1 O2].
    apply orb_false_iff in Hn as [N1 N2].
    pose proof (Hx start v O1 Hs N1) as H. destruct (neg_helper x start) as [[o1 s1]|]; [|exact I].
    cbn [cover] in H. destruct H as [H|H].
    + match goal with |- cover (match ?g with _ => _ end) _ => destruct g as [[o2 s2]|]; [|exact I] end.
      cbn [cover]. rewrite inside_app. auto.
    + pose proof (IHl O2 N2 s1 H) as H'.
      match goal with |- cover (match ?g with _ => _ end) _ => destruct g as [[o2 s2]|]; [|exact I] end.
      cbn [cover] in *. rewrite inside_app. tauto.
  - unfold cover. apply neg_enum_cover; auto. intros Hin.
    assert (existsb (fun lit => lit_has false lit v) vs = true); [|congruence].
    apply existsb_exists. exists v. split; [assumption|]. unfold lit_has, fold_test. rewrite Z.eqb_refl. reflexivity.
  - right. assumption.
Qed.

Lemma neg_l_cover : forall l start v, forallb (cls_ok false) l = true -> start <= v ->
  existsb (fun c => cls_has false c v) l = false -> cover (neg_helper_l l start) v.
Proof.
  induction l as [|x l IH]; intros start v Hok Hs Hn; [right; assumption|].
  cbn [forallb existsb neg_helper_l] in *. apply andb_true_iff in Hok as [O1 O2].
  apply orb_false_iff in Hn as [N1 N2].
  pose proof (neg_cover x start v O1 Hs N1) as H. destruct (neg_helper x start) as [[o1 s1]|]; [|exact I].
  cbn [cover] in H. destruct H as [H|H].
  - destruct (neg_helper_l l s1) as [[o2 s2]|]; [|exact I]. cbn [cover]. rewrite inside_app. auto.
  - pose proof (IH s1 v O2 H N2) as H'. destruct (neg_helper_l l s1) as [[o2 s2]|]; [|exact I].
    cbn [cover] in *. rewrite inside_app. tauto.
Qed.

Lemma neg_intervals_cover : forall l v o, forallb (cls_ok false) l = true -> val_ok v = true ->
  existsb (fun c => cls_has false c v) l = false -> neg_intervals l = Some o -> inside o v.
Proof.
  intros l v o Hok Hv Hn H. unfold neg_intervals in H.
  pose proof (neg_l_cover l int64_min v Hok ltac:(unfold val_ok, int64_min in *; lia) Hn) as C.
  destruct (neg_helper_l l int64_min) as [[o' s']|]; [|discriminate]. injection H as <-.
  apply inside_app. destruct C as [C|C]; [auto|]. right.
  destruct (s' <? int64_max) eqn:E; [|unfold val_ok, int64_max in *; lia].
  exists (s', int64_max). split; [left; reflexivity|]. unfold val_ok, int64_max in *. cbn. lia.
Qed.

(** ** The interval set contains the first set *)
Lemma inside_full : forall v, val_ok v = true -> inside [(int64_min, int64_max)] v.
Proof.
  intros v H. exists (int64_min, int64_max). split; [left; reflexivity|].
  unfold val_ok, int64_min, int64_max in *. cbn. lia.
Qed.

Lemma populate_cls_in : forall c P P' v, cls_ok false c = true -> val_ok v = true ->
  populate_cls P c = Some P' -> inside P v \/ cls_has false c v = true -> inside P' v.
Proof.
  induction c as [l|a b|l IH|l IH|vs|l IH|t] using cls_ind2; intros P P' v Hok Hv HP H;
    cbn [populate_cls cls_has cls_ok] in *.
  - injection HP as <-. destruct H as [(r & H1 & H2)|H].
    + exists r. rewrite insert_in. auto.
    + exists (l, l). rewrite insert_in. split; [auto|]. unfold lit_has, fold_test in H. cbn [andb fst snd] in *. lia.
  - injection HP as <-. destruct H as [(r & H1 & H2)|H].
    + exists r. rewrite insert_in. auto.
    + exists (a, b). rewrite insert_in. split; [auto|]. unfold fold_test in H. cbn [andb fst snd] in *. lia.
  - revert P HP H. induction IH as [|x l Hx Hl IHl]; intros P HP H.
    + injection HP as <-. destruct H; [assumption|discriminate].
    + cbn [forallb existsb] in *. apply andb_true_iff in Hok as [O1 O2].
      destruct (populate_cls P x) as [P1|] eqn:E; [|discriminate].
      apply (IHl O2 P1 HP). rewrite orb_true_iff in H.
      destruct H as [H|[H|H]]; [left|left|right; assumption]; eapply Hx; eauto.
  - destruct (neg_intervals l) as [o|] eqn:E; [|discriminate]. injection HP as <-.
    destruct H as [(r & H1 & H2)|H].
    + exists r. rewrite insert_all_in. auto.
    + apply negb_true_iff in H. destruct (neg_intervals_cover l v o Hok Hv H E) as (r & H1 & H2).
      exists r. rewrite insert_all_in. auto.
  - injection HP as <-. destruct H as [(r & H1 & H2)|H].
    + exists r. rewrite insert_enum_in. auto.
    + apply existsb_exists in H as (x & H1 & H2). exists (x, x). rewrite insert_enum_in.
      split; [eauto|]. unfold lit_has, fold_test in H2. cbn [andb fst snd] in *. lia.
  - injection HP as <-. apply inside_full. assumption.
  - injection HP as <-. apply inside_full. assumption.
Qed.

Lemma populate_in : forall F P P' v, forallb item_ok F = true -> val_ok v = true ->
  populate P F = Some P' -> inside P v \/ fin F v = true -> inside P' v.
Proof.
  induction F as [|i F IH]; intros P P' v Hok Hv HP H; cbn [populate forallb fin existsb] in *.
  - injection HP as <-. destruct H; [assumption|discriminate].
  - apply andb_true_iff in Hok as [O1 O2]. destruct i as [c|].
    + destruct (populate_cls P c) as [P1|] eqn:E; [|discriminate]. apply (IH P1 P' v O2 Hv HP).
      rewrite orb_true_iff in H. destruct H as [H|[H|H]]; [left|left|right; assumption];
        eapply populate_cls_in; eauto.
    + apply (IH _ P' v O2 Hv HP). left. apply inside_full. assumption.
Qed.

(** ** The check finds every common value *)
Lemma check_range_in : forall P a b v, inside P v -> a <= v <= b -> check_range P a b = true.
Proof.
  intros P a b v (r & H1 & H2) H. unfold check_range. apply existsb_exists. exists r.
  split; [assumption|]. lia.
Qed.
Lemma inside_length : forall P v, inside P v -> negb (Nat.eqb (length P) 0) = true.
Proof. intros [|x P] v (r & H & _); [contradiction|reflexivity]. Qed.

Lemma check_cls_in : forall c P v b, cls_ok false c = true -> val_ok v = true -> inside P v ->
  cls_has false c v = true -> check_cls P c = Some b -> b = true.
Proof.
  induction c as [l|a b0|l IH|l IH|vs|l IH|t] using cls_ind2; intros P v b Hok Hv HP H HC;
    cbn [check_cls cls_has cls_ok] in *.
  - injection HC as <-. unfold lit_has, fold_test in H. cbn [andb] in H. eapply check_range_in; [eassumption|lia].
  - injection HC as <-. unfold fold_test in H. eapply check_range_in; [eassumption|lia].
  - revert b HC. induction IH as [|x l Hx Hl IHl]; intros b HC; [discriminate|].
    cbn [forallb existsb] in *. apply andb_true_iff in Hok as [O1 O2].
    destruct (check_cls P x) as [b1|] eqn:E; [|discriminate].
    match type of HC with (match ?g with _ => _ end) = _ => destruct g as [b2|] eqn:E2; [|discriminate] end.
    injection HC as <-. apply orb_true_iff. apply orb_true_iff in H as [H|H].
    + left. eapply Hx; eauto.
    + right. eapply IHl; eauto.
  - destruct (neg_intervals l) as [o|] eqn:E; [|discriminate]. injection HC as <-.
    apply negb_true_iff in H. destruct (neg_intervals_cover l v o Hok Hv H E) as (r & H1 & H2).
    apply existsb_exists. exists r. split; [assumption|]. eapply check_range_in; eassumption.
  - injection HC as <-. apply existsb_exists in H as (x & H1 & H2). apply existsb_exists. exists x.
    split; [assumption|]. unfold lit_has, fold_test in H2. cbn [andb] in H2. eapply check_range_in; [eassumption|lia].
  - discriminate.
  - injection HC as <-. eapply inside_length. eassumption.
Qed.

Lemma check_in : forall F P v b, forallb item_ok F = true -> val_ok v = true -> inside P v ->
  fin F v = true -> check P F = Some b -> b = true.
Proof.
  induction F as [|i F IH]; intros P v b Hok Hv HP H HC; cbn [check forallb fin existsb] in *; [discriminate|].
  apply andb_true_iff in Hok as [O1 O2].
  destruct (match i with FAny => _ | FCls c => _ end) as [b1|] eqn:E1; [|discriminate].
  destruct (check P F) as [b2|] eqn:E2; [|discriminate]. injection HC as <-.
  apply orb_true_iff. apply orb_true_iff in H as [H|H].
  - left. destruct i as [c|]; [eapply check_cls_in; eauto|]. injection E1 as <-. eapply inside_length. eassumption.
  - right. eapply IH; eauto.
Qed.

(** No collision: the two first sets have no common value. *)
Lemma no_collision : forall F1 F2 v, forallb item_ok F1 = true -> forallb item_ok F2 = true ->
  val_ok v = true -> collides F1 F2 = Some false -> fin F1 v = true -> fin F2 v = false.
Proof.
  intros F1 F2 v O1 O2 Hv H H1. unfold collides in H.
  destruct (populate [] F1) as [P|] eqn:E; [|discriminate].
  pose proof (populate_in F1 [] P v O1 Hv E (or_intror H1)) as HP.
  destruct (fin F2 v) eqn:E2; [|reflexivity].
  pose proof (check_in F2 P v false O2 Hv HP E2 H). discriminate.
Qed.

Local Close Scope Z_scope.

(** * First sets against outcomes *)
Lemma range_ok_false : forall ci a b, range_ok ci a b = true -> range_ok false a b = true.
Proof. intros ci a b H. unfold range_ok in *. apply andb_true_iff in H as [H _]. rewrite H. reflexivity. Qed.
Lemma cls_ok_false : forall ci c, cls_ok ci c = true -> cls_ok false c = true.
Proof.
  intros ci. induction c as [l|a b|l IH|l IH|vs|l IH|t] using cls_ind2; cbn [cls_ok]; auto.
  - apply range_ok_false.
  - rewrite !forallb_forall. rewrite Forall_forall in IH. auto.
  - rewrite !forallb_forall. rewrite Forall_forall in IH. auto.
  - rewrite !forallb_forall. rewrite Forall_forall in IH. auto.
Qed.

(** First sets read in the case mode [ci]. *)
Definition hasc (ci : bool) (i : fitem) (v : Z) : bool :=
  match i with FAny => true | FCls c => cls_has ci c v end.
Definition finc (ci : bool) (F : list fitem) (v : Z) : bool := existsb (fun i => hasc ci i v) F.
Lemma finc_app : forall ci F G v, finc ci (F ++ G) v = (finc ci F v || finc ci G v)%bool.
Proof. intros. apply existsb_app. Qed.

Lemma swap_swap : forall v, swap_case (swap_case v) = v.
Proof.
  intros v. unfold swap_case.
  destruct ((65 <=? v)%Z && (v <=? 90)%Z) eqn:E1.
  - replace ((65 <=? v + 32)%Z && (v + 32 <=? 90)%Z) with false by lia.
    replace ((97 <=? v + 32)%Z && (v + 32 <=? 122)%Z) with true by lia. lia.
  - destruct ((97 <=? v)%Z && (v <=? 122)%Z) eqn:E2.
    + replace ((65 <=? v - 32)%Z && (v - 32 <=? 90)%Z) with true by lia. lia.
    + rewrite E1, E2. reflexivity.
Qed.
Lemma swap_val_ok : forall v, val_ok v = true -> val_ok (swap_case v) = true.
Proof.
  intros v H. unfold val_ok, swap_case in *.
  destruct ((65 <=? v)%Z && (v <=? 90)%Z) eqn:E1; [lia|].
  destruct ((97 <=? v)%Z && (v <=? 122)%Z) eqn:E2; lia.
Qed.

(** Classes that only grow when case is ignored. *)
Fixpoint growing (c : cls) : bool :=
  caseless true c ||
  match c with
  | CChar _ | CRange _ _ | CEnum _ | CProp _ => true
  | CSet l => forallb growing l
  | CNeg _ | CNegate _ => false
  end.
(** Classes whose values, case ignored, are values or counterparts of values. *)
Fixpoint foldable (c : cls) : bool :=
  caseless true c ||
  match c with
  | CChar _ | CRange _ _ | CEnum _ | CProp _ => true
  | CSet l => forallb foldable l
  | CNeg l | CNegate l => forallb growing l
  end.

Lemma growing_has : forall c v, growing c = true -> cls_has false c v = true -> cls_has true c v = true.
Proof.
  assert (Cl : forall c v, caseless true c = true -> cls_has false c v = true -> cls_has true c v = true)
    by (intros c v H; rewrite (caseless_has true) by assumption; auto).
  induction c as [l|a b|l IH|l IH|vs|l IH|t] using cls_ind2; intros v H;
    cbn [growing] in H; apply orb_true_iff in H as [H|H]; try (apply Cl; assumption); try discriminate H; cbn [cls_has].
  - unfold lit_has, fold_test. cbn [andb]. rewrite orb_false_r. intros ->. reflexivity.
  - unfold fold_test. cbn [andb]. rewrite orb_false_r. intros ->. reflexivity.
  - rewrite Forall_forall in IH. rewrite forallb_forall in H. rewrite !existsb_exists.
    intros (c & H1 & H2). eauto.
  - rewrite !existsb_exists. intros (c & H1 & H2). exists c. split; [assumption|].
    unfold lit_has, fold_test in *. cbn [andb] in *. rewrite orb_false_r in H2. rewrite H2. reflexivity.
Qed.
Lemma foldable_has : forall c v, foldable c = true -> cls_has true c v = true ->
  cls_has false c v = true \/ cls_has false c (swap_case v) = true.
Proof.
  assert (Cl : forall c v, caseless true c = true -> cls_has true c v = true ->
    cls_has false c v = true \/ cls_has false c (swap_case v) = true)
    by (intros c v H; rewrite (caseless_has true) by assumption; auto).
  assert (Ng : forall l v, forallb growing l = true -> negb (existsb (fun c' => cls_has true c' v) l) = true ->
    negb (existsb (fun c' => cls_has false c' v) l) = true).
  { intros l v H Hv. apply negb_true_iff in Hv. apply negb_true_iff.
    destruct (existsb (fun c' => cls_has false c' v) l) eqn:E; [|reflexivity].
    apply existsb_exists in E as (c & H1 & H2). rewrite forallb_forall in H.
    assert (existsb (fun c' => cls_has true c' v) l = true); [|congruence].
    apply existsb_exists. exists c. split; [assumption|]. apply growing_has; auto. }
  induction c as [l|a b|l IH|l IH|vs|l IH|t] using cls_ind2; intros v H;
    cbn [foldable] in H; apply orb_true_iff in H as [H|H]; try (apply Cl; assumption); cbn [cls_has].
  - unfold lit_has, fold_test. cbn [andb]. rewrite !orb_false_r. intros Hv. apply orb_true_iff in Hv. exact Hv.
  - unfold fold_test. cbn [andb]. rewrite !orb_false_r. intros Hv. apply orb_true_iff in Hv. exact Hv.
  - rewrite Forall_forall in IH. rewrite forallb_forall in H. rewrite !existsb_exists.
    intros (c & H1 & H2). destruct (IH c H1 v (H c H1) H2); eauto.
  - auto.
  - rewrite !existsb_exists. intros (c & H1 & H2). unfold lit_has, fold_test in *. cbn [andb] in *.
    apply orb_true_iff in H2 as [H2|H2]; [left|right]; exists c; (split; [assumption|]); rewrite orb_false_r; assumption.
  - auto.
Qed.

(** The 52 letters, and first sets that stay apart when case is ignored. *)
Definition letters : list Z := map (fun n => Z.of_nat n + 65)%Z (seq 0 26) ++ map (fun n => Z.of_nat n + 97)%Z (seq 0 26).
Definition apart (F1 F2 : list fitem) : bool :=
  forallb (fun i => match i with FAny => true | FCls c => foldable c end) (F1 ++ F2) &&
  forallb (fun v => negb (fin F1 v && fin F2 (swap_case v))) letters.
Lemma letters_spec : forall v, In v letters \/ swap_case v = v.
Proof.
  intros v. unfold letters. rewrite in_app_iff, !in_map_iff.
  destruct ((65 <=? v)%Z && (v <=? 90)%Z) eqn:E1.
  { left. left. exists (Z.to_nat (v - 65)). rewrite in_seq. lia. }
  destruct ((97 <=? v)%Z && (v <=? 122)%Z) eqn:E2.
  { left. right. exists (Z.to_nat (v - 97)). rewrite in_seq. lia. }
  right. unfold swap_case. rewrite E1, E2. reflexivity.
Qed.
Lemma finc_fold : forall F v, forallb (fun i => match i with FAny => true | FCls c => foldable c end) F = true ->
  finc true F v = true -> fin F v = true \/ fin F (swap_case v) = true.
Proof.
  intros F v Hf H. rewrite forallb_forall in Hf. apply existsb_exists in H as (i & H1 & H2). specialize (Hf i H1).
  unfold fin. rewrite !existsb_exists. destruct i as [c|]; [|left; eauto].
  destruct (foldable_has c v Hf H2) as [H|H]; [left|right]; exists (FCls c); auto.
Qed.

(** No collision in either case mode. *)
Lemma no_collision_ci : forall ci F1 F2 v, forallb item_ok F1 = true -> forallb item_ok F2 = true ->
  val_ok v = true -> collides F1 F2 = Some false -> negb ci || apart F1 F2 = true ->
  finc ci F1 v = true -> finc ci F2 v = false.
Proof.
  intros [] F1 F2 v O1 O2 Hv Hc Ha H1; [|exact (no_collision F1 F2 v O1 O2 Hv Hc H1)].
  cbn [negb orb] in Ha. apply andb_true_iff in Ha as [Hf Ha]. rewrite forallb_app in Hf.
  apply andb_true_iff in Hf as [Hf1 Hf2]. rewrite forallb_forall in Ha.
  destruct (finc true F2 v) eqn:H2; [|reflexivity]. exfalso.
  pose proof (fun w Hw => no_collision F1 F2 w O1 O2 Hw Hc) as N0.
  assert (X : forall w, val_ok w = true -> fin F1 w = true -> fin F2 (swap_case w) = true -> False).
  { intros w Hw W1 W2. destruct (letters_spec w) as [Hl|Hl].
    - specialize (Ha w Hl). rewrite W1, W2 in Ha. discriminate.
    - rewrite Hl in W2. rewrite (N0 w Hw W1) in W2. discriminate. }
  destruct (finc_fold F1 v Hf1 H1) as [A|A], (finc_fold F2 v Hf2 H2) as [B|B].
  - rewrite (N0 v Hv A) in B. discriminate.
  - exact (X v Hv A B).
  - apply (X (swap_case v) (swap_val_ok v Hv) A). rewrite swap_swap. exact B.
  - rewrite (N0 _ (swap_val_ok v Hv) A) in B. discriminate.
Qed.

Section First.
Variable s : list Z.
Variables ml ci : bool.
Variable G : list (nat * option (list Z)).
Hypothesis s_ok : forallb val_ok s = true.
Notation names := (name_number G).
Notation enum := (enum s ml ci names true).
Notation enums := (enums s ml ci names true).
Notation len := (length s).
Notation st_ok := (st_ok s).
Notation outs := (outs s ml ci G).

Notation fin := (finc ci).
(** Every character test of [r] is well formed. *)
Fixpoint casel (r : re) : bool :=
  match r with
  | RCls c => cls_ok ci c
  | RStr t => forallb lit_ok t
  | RSelect l | RSeq l | RRep _ _ _ l | RCap _ l | RNCap _ _ l | RAtomic l => forallb casel l
  | _ => true
  end.

Definition fkont := list fitem -> option (list fitem).
Definition kgood (k : fkont) : Prop := forall acc F, k acc = Some F ->
  (forall v, fin acc v = true -> fin F v = true) /\
  (forallb item_ok acc = true -> forallb item_ok F = true).

Lemma first_cls_good : forall c acc, cls_ok ci c = true ->
  (forall v, fin acc v = true -> fin (first_cls c acc) v = true) /\
  (forallb item_ok acc = true -> forallb item_ok (first_cls c acc) = true).
Proof.
  intros c acc H. apply cls_ok_false in H. destruct c; cbn [first_cls cls_ok] in *;
    (split; [intros w Hw; rewrite ?finc_app, ?Hw; reflexivity|]); rewrite ?forallb_app; intros Ha; rewrite ?Ha; cbn [andb].
  - cbn [forallb item_ok cls_ok]. rewrite H. reflexivity.
  - cbn [forallb item_ok cls_ok]. rewrite H. reflexivity.
  - rewrite forallb_forall in *. intros x Hx. apply in_map_iff in Hx as (y & <- & Hy). cbn. auto.
  - cbn [forallb item_ok cls_ok]. rewrite H. reflexivity.
  - rewrite forallb_forall in *. intros x Hx. apply in_map_iff in Hx as (y & <- & Hy). cbn. auto.
  - cbn [forallb item_ok cls_ok]. rewrite H. reflexivity.
  - reflexivity.
Qed.
Lemma first_cls_has : forall c acc v, cls_has ci c v = true -> fin (first_cls c acc) v = true.
Proof.
  intros c acc v H.
  destruct c; cbn [first_cls cls_has] in *; rewrite ?finc_app; unfold finc; cbn [existsb hasc cls_has];
    try (rewrite ?H, ?orb_true_r; reflexivity).
  - apply orb_true_iff. right. apply existsb_exists in H as (x & H1 & H2). apply existsb_exists.
    exists (FCls x). split; [apply in_map; assumption | assumption].
  - apply orb_true_iff. right. apply existsb_exists in H as (x & H1 & H2). apply existsb_exists.
    exists (FCls (CChar x)). split; [apply in_map_iff; eauto | assumption].
Qed.

Lemma first_select_cons : forall x xs k acc, first_re (RSelect (x :: xs)) k acc =
  match first_re x k acc with Some acc' => first_re (RSelect xs) k acc' | None => None end.
Proof. reflexivity. Qed.
Lemma first_seq : forall l k acc, first_re (RSeq l) k acc = first_l l k acc.
Proof. reflexivity. Qed.
Lemma first_rep : forall kd a b l k acc, first_re (RRep kd a b l) k acc =
  if is_optional kd a b then
    match first_l l k acc with Some acc' => k acc' | None => None end
  else if N.eqb a 0 then
    match k acc with Some acc' => first_l l k acc' | None => None end
  else first_l l k acc.
Proof. reflexivity. Qed.

Lemma first_good : forall r, casel r = true -> forall k, kgood k -> kgood (first_re r k).
Proof.
  induction r as
    [ | r l IHr IHl | c | | t | l IH | l IH | | | kd a b l IH | id l IH | id nm l IH | id | nm
    | neg l IH | neg l IH | l IH | c | c | a | m ]
    using re_ind2 with (Q := fun l => forallb casel l = true ->
      forall k, kgood k -> kgood (first_l l k) /\ kgood (first_re (RSelect l) k));
    cbn [casel forallb].
  - intros _ k Hk. split; [exact Hk|]. intros acc F H. injection H as <-. auto.
  - intros H k Hk. apply andb_true_iff in H as [H1 H2]. destruct (IHl H2 k Hk) as [I1 I2]. split.
    + intros acc F. cbn [first_l]. apply (IHr H1 _ I1).
    + intros acc F. rewrite first_select_cons. intros H.
      destruct (first_re r k acc) as [acc'|] eqn:E; [|discriminate].
      destruct (IHr H1 k Hk _ _ E) as [A1 A2], (I2 _ _ H) as [B1 B2]. auto.
  - intros H k Hk acc F HF. injection HF as <-.
    apply first_cls_good. assumption.
  - intros _ k Hk acc F HF. injection HF as <-. split; reflexivity.
  - intros H k Hk acc F HF. destruct t as [|x t]; [apply Hk; exact HF|].
    cbn [first_re] in HF. injection HF as <-. split.
    + intros v Hv. rewrite finc_app, Hv. reflexivity.
    + intros Ha. rewrite forallb_app, Ha. cbn in *. apply andb_true_iff in H as [-> _]. reflexivity.
  - intros H k Hk. apply (IH H k Hk).
  - intros H k Hk acc F. rewrite first_seq. apply (IH H k Hk).
  - intros _ k Hk acc F. apply Hk.
  - intros _ k Hk acc F HF. discriminate.
  - intros H k Hk acc F HF. destruct (IH H k Hk) as [I1 _]. rewrite first_rep in HF.
    destruct (is_optional kd a b).
    + destruct (first_l l k acc) as [acc'|] eqn:E; [|discriminate].
      destruct (I1 _ _ E) as [A1 A2], (Hk _ _ HF) as [B1 B2]. auto.
    + destruct (N.eqb a 0).
      * destruct (k acc) as [acc'|] eqn:E; [|discriminate].
        destruct (Hk _ _ E) as [A1 A2], (I1 _ _ HF) as [B1 B2]. auto.
      * apply I1. assumption.
  - intros H k Hk acc F HF. apply (proj1 (IH H k Hk)). exact HF.
  - intros H k Hk acc F HF. apply (proj1 (IH H k Hk)). exact HF.
  - intros _ k Hk acc F HF. injection HF as <-. split; reflexivity.
  - intros _ k Hk acc F HF. injection HF as <-. split; reflexivity.
  - intros _ k Hk acc F HF. injection HF as <-. split; reflexivity.
  - intros _ k Hk acc F HF. injection HF as <-. split; reflexivity.
  - intros H k Hk acc F HF. apply (proj1 (IH H k Hk)). exact HF.
  - intros _ k Hk acc F. apply Hk.
  - intros _ k Hk acc F HF. discriminate.
  - intros _ k Hk acc F HF. destruct a; cbn [first_re] in HF; try (apply Hk; exact HF); injection HF as <-; auto.
  - intros _ k Hk acc F HF. discriminate.
Qed.
Lemma first_l_good : forall l, forallb casel l = true -> forall k, kgood k -> kgood (first_l l k).
Proof. intros l H k Hk. exact (first_good (RSeq l) H k Hk). Qed.

(** ** What the next character can be *)
Definition krel := state -> state -> Prop.
Definition kforth (T : krel) : Prop := forall x y, st_ok x -> T x y -> st_ok y /\ fst x <= fst y.
Definition after (r : re) (T : krel) : krel := fun x y => exists m, In m (enum r x) /\ T m y.
Definition afters (l : list re) (T : krel) : krel := fun x y => exists m, In m (enums l x) /\ T m y.

(** A position where [$] and [\Z] do not hold before the end. *)
Definition nlp (p : nat) : Prop := ml = true -> nth_error s p <> Some 10%Z.

Definition Fk (k : fkont) (T : krel) : Prop := forall acc F, k acc = Some F ->
  forall x y, st_ok x -> nlp (fst x) -> T x y -> fst x < fst y ->
  exists v, nth_error s (fst x) = Some v /\ fin F v = true.

Lemma Fk_eq : forall k, Fk k (fun x y => y = x).
Proof. intros k acc F _ x y _ _ -> H. lia. Qed.

Lemma kforth_eq : kforth (fun x y => y = x).
Proof. intros x y H ->. auto. Qed.
Lemma kforth_after : forall r T, kforth T -> kforth (after r T).
Proof.
  intros r T HT x y Hx (m & H1 & H2). destruct (enum_forth _ _ _ _ _ _ _ _ H1 Hx) as [H3 H4].
  destruct (HT _ _ H3 H2). split; [assumption|lia].
Qed.
Lemma kforth_afters : forall l T, kforth T -> kforth (afters l T).
Proof. intros l T HT. exact (kforth_after (RSeq l) T HT). Qed.

Lemma step_fin : forall P st m, In m (step s P st) ->
  exists v, nth_error s (fst st) = Some v /\ P v = true /\ fst m = S (fst st).
Proof.
  intros P st m H. unfold step in H. destruct (nth_error s (fst st)) as [x|]; [|contradiction].
  destruct (P x) eqn:E; [|contradiction]. destruct H as [<-|[]]. eauto.
Qed.

(** A repetition iterates zero times or starts with a consuming iteration. *)
Lemma rep_shape : forall body kd a b st m, In m (iterate s true body kd a b st) ->
  (a = 0%N /\ m = st) \/ exists m1, In m1 (body st) /\ fst st < fst m1.
Proof.
  intros body kd a b st m H. unfold iterate in H.
  destruct (negb (N.eqb b 0) && N.ltb b a)%bool; [contradiction|].
  assert (Adv : forall x, In x (keep true (filter (advances st) (body st))) ->
            exists m1, In m1 (body st) /\ fst st < fst m1).
  { intros x Hx. apply (keep_in true), filter_In in Hx as [H1 H2]. apply Nat.ltb_lt in H2. eauto. }
  assert (M : forall x, In x (mandatory true body (N.to_nat a) st) ->
            (a = 0%N /\ x = st) \/ exists m1, In m1 (body st) /\ fst st < fst m1).
  { intros x Hx. destruct (N.to_nat a) as [|k] eqn:E.
    - destruct Hx as [<-|[]]. left. split; [lia|reflexivity].
    - cbn [mandatory] in Hx. apply in_flat_map in Hx as (m1 & H1 & _). right. eapply Adv. exact H1. }
  assert (Gr : forall n, In m (more_greedy true body (S n) b a st) ->
            m = st \/ exists m1, In m1 (body st) /\ fst st < fst m1).
  { intros n Hm. cbn [more_greedy] in Hm. apply in_app_iff in Hm as [Hm|[Hm|[]]]; [|auto].
    destruct (N.eqb b 0 || N.ltb a b)%bool; [|contradiction].
    apply in_flat_map in Hm as (m1 & H1 & _). right. eapply Adv. exact H1. }
  assert (Lz : forall n, In m (more_lazy true body (S n) b a st) ->
            m = st \/ exists m1, In m1 (body st) /\ fst st < fst m1).
  { intros n Hm. cbn [more_lazy] in Hm. destruct Hm as [Hm|Hm]; [auto|].
    destruct (N.eqb b 0 || N.ltb a b)%bool; [|contradiction].
    apply in_flat_map in Hm as (m1 & H1 & _). right. eapply Adv. exact H1. }
  destruct kd; [| |apply firstn1_in in H]; apply in_flat_map in H as (x & H1 & H2);
    (destruct (M x H1) as [[Ha ->]|HM]; [|right; assumption]).
  - destruct (Gr _ H2); auto.
  - destruct (Lz _ H2); auto.
  - destruct (Gr _ H2); auto.
Qed.

Lemma end_assert : forall a p, st_ok (p, []) -> nlp p ->
  (a = ASubjectEnd \/ a = ASubjectEndLine \/ a = ALineEnd) -> holds s ml a p = true -> p = len.
Proof.
  intros a p _ Hn Ha H.
  assert (X : ml = true -> char_after s (Z.eqb 10) p = true -> False).
  { intros Hm Hc. apply (Hn Hm). unfold char_after in Hc. destruct (nth_error s p) as [v|]; [|discriminate].
    apply Z.eqb_eq in Hc. congruence. }
  destruct Ha as [-> | [-> | ->]]; cbn in H; unfold at_end in H.
  - apply Nat.eqb_eq. assumption.
  - destruct (Nat.eqb_spec p len); [assumption|]. cbn in H. apply andb_true_iff in H as [H _].
    apply andb_true_iff in H as [H1 H2]. exfalso. auto.
  - destruct (Nat.eqb_spec p len); [assumption|]. cbn in H. apply andb_true_iff in H as [H1 H2]. exfalso. auto.
Qed.

Lemma F_re : forall r, casel r = true -> forall k T, kgood k -> kforth T -> Fk k T ->
  Fk (first_re r k) (after r T).
Proof.
  induction r as
    [ | r l IHr IHl | c | | t | l IH | l IH | | | kd a b l IH | id l IH | id nm l IH | id | nm
    | neg l IH | neg l IH | l IH | c | c | a | m ]
    using re_ind2 with (Q := fun l => forallb casel l = true -> forall k T, kgood k -> kforth T -> Fk k T ->
      Fk (first_l l k) (afters l T) /\ Fk (first_re (RSelect l) k) (after (RSelect l) T));
    cbn [casel forallb].
  - intros _ k T Hg HT HF. split.
    + intros acc F H x y Hx Hn (m & [<-|[]] & H2). apply (HF acc F H x y Hx Hn H2).
    + intros acc F H x y Hx Hn (m & [] & H2).
  - intros H k T Hg HT HF. apply andb_true_iff in H as [H1 H2].
    destruct (IHl H2 k T Hg HT HF) as [I1 I2]. split.
    + intros acc F H x y Hx Hn (m & Hm & Hy) Hlt. cbn [first_l] in H. rewrite enums_cons in Hm.
      apply in_flat_map in Hm as (m0 & M1 & M2).
      apply (IHr H1 (first_l l k) (afters l T) (first_l_good l H2 k Hg) (kforth_afters l T HT) I1
               acc F H x y Hx Hn); [|assumption].
      exists m0. split; [assumption|]. exists m. auto.
    + intros acc F H x y Hx Hn (m & Hm & Hy) Hlt. rewrite first_select_cons in H.
      destruct (first_re r k acc) as [acc'|] eqn:E; [|discriminate].
      rewrite enum_select_cons in Hm. apply in_app_iff in Hm as [Hm|Hm].
      * destruct (IHr H1 k T Hg HT HF acc acc' E x y Hx Hn) as (v & V1 & V2); [exists m; auto|assumption|].
        exists v. split; [assumption|].
        apply (proj1 (first_good (RSelect l) H2 k Hg acc' F H)). assumption.
      * apply (I2 acc' F H x y Hx Hn); [exists m; auto|assumption].
  - intros H k T Hg HT HF acc F HFs x y Hx Hn (m & Hm & Hy) Hlt.
    injection HFs as <-. apply step_fin in Hm as (v & V1 & V2 & _). exists v. split; [assumption|].
    apply first_cls_has; assumption.
  - intros _ k T Hg HT HF acc F HFs x y Hx Hn (m & Hm & Hy) Hlt. injection HFs as <-.
    apply step_fin in Hm as (v & V1 & _). exists v. auto.
  - intros H k T Hg HT HF acc F HFs x y Hx Hn (m & Hm & Hy) Hlt.
    destruct t as [|c t].
    + destruct Hm as [<-|[]]. apply (HF acc F HFs x y); assumption.
    + cbn [first_re] in HFs. injection HFs as <-. cbn [Spec.enum walk] in Hm.
      apply in_flat_map in Hm as (m0 & M1 & _). apply step_fin in M1 as (v & V1 & V2 & _).
      exists v. split; [assumption|]. rewrite finc_app. apply orb_true_iff. right.
      unfold finc. cbn [existsb hasc cls_has]. rewrite orb_false_r. assumption.
  - intros H k T Hg HT HF. apply (IH H k T Hg HT HF).
  - intros H k T Hg HT HF acc F. rewrite first_seq. apply (IH H k T Hg HT HF).
  - intros _ k T Hg HT HF acc F HFs x y Hx Hn (m & [<-|[]] & Hy) Hlt. apply (HF acc F HFs x y); assumption.
  - intros _ k T Hg HT HF acc F HFs. discriminate.
  - intros H k T Hg HT HF acc F HFs x y Hx Hn (m & Hm & Hy) Hlt.
    destruct (IH H k (fun x y => y = x) Hg kforth_eq (Fk_eq k)) as [I1 _].
    rewrite first_rep in HFs. rewrite enum_rep in Hm.
    assert (It : forall acc F, first_l l k acc = Some F -> (exists m1, In m1 (enums l x) /\ fst x < fst m1) ->
              exists v, nth_error s (fst x) = Some v /\ fin F v = true).
    { intros acc0 F0 H0 (m1 & M1 & M2). apply (I1 acc0 F0 H0 x m1 Hx Hn); [exists m1; auto|assumption]. }
    destruct (is_optional kd a b).
    + destruct (first_l l k acc) as [acc'|] eqn:E; [|discriminate].
      destruct (rep_shape _ _ _ _ _ _ Hm) as [[_ ->]|HI].
      * apply (HF acc' F HFs x y); assumption.
      * destruct (It _ _ E HI) as (v & V1 & V2). exists v. split; [assumption|].
        apply (proj1 (Hg _ _ HFs)). assumption.
    + destruct (N.eqb_spec a 0) as [Ha|Ha].
      * destruct (k acc) as [acc'|] eqn:E; [|discriminate].
        destruct (rep_shape _ _ _ _ _ _ Hm) as [[_ ->]|HI].
        -- destruct (HF acc acc' E x y) as (v & V1 & V2); try assumption. exists v. split; [assumption|].
           apply (proj1 (first_l_good l H k Hg _ _ HFs)). assumption.
        -- apply (It _ _ HFs HI).
      * destruct (rep_shape _ _ _ _ _ _ Hm) as [[Ha' _]|HI]; [contradiction|]. apply (It _ _ HFs HI).
  - intros H k T Hg HT HF acc F HFs x y Hx Hn (m & Hm & Hy) Hlt.
    rewrite enum_cap in Hm. apply in_map_iff in Hm as (m0 & <- & Hm).
    destruct (enums_forth _ _ _ _ _ _ _ _ Hm Hx) as [Hm0 Hle].
    pose proof (fun T HT HF => proj1 (IH H k T Hg HT HF)) as I1.
    destruct (Nat.eq_dec (fst m0) (fst x)) as [He|He].
    + (* nothing consumed inside: the group is left at once *)
      apply (fun HK HF' => I1 (fun a b => In a (enums l x) /\ b = y /\ T (fst a, (id, (fst x, fst a)) :: snd a) y)
               HK HF' acc F HFs x y Hx Hn); [| | |assumption].
      * intros a b Ha (A1 & -> & A2). destruct (enums_forth _ _ _ _ _ _ _ _ A1 Hx) as [[B1 B2] B3].
        apply (HT (fst a, (id, (fst x, fst a)) :: snd a)); [|assumption]. split; [assumption|].
        constructor; [cbn; lia | assumption].
      * intros acc0 F0 H0 a b Ha Hna (A1 & -> & A2) Hab.
        destruct (enums_forth _ _ _ _ _ _ _ _ A1 Hx) as [[B1 B2] B3].
        apply (HF acc0 F0 H0 (fst a, (id, (fst x, fst a)) :: snd a) y); [|assumption|assumption|assumption].
        split; [assumption|]. constructor; [cbn; lia | assumption].
      * exists m0. auto.
    + apply (I1 (fun x y => y = x) kforth_eq (Fk_eq k) acc F HFs x m0 Hx Hn); [exists m0; auto | exact (proj2 (Nat.le_neq _ _) (conj Hle (fun e => He (eq_sym e))))].
  - intros H k T Hg HT HF acc F HFs x y Hx Hn (m & Hm & Hy) Hlt.
    rewrite enum_ncap in Hm. apply in_map_iff in Hm as (m0 & <- & Hm).
    destruct (enums_forth _ _ _ _ _ _ _ _ Hm Hx) as [Hm0 Hle].
    pose proof (fun T HT HF => proj1 (IH H k T Hg HT HF)) as I1.
    destruct (Nat.eq_dec (fst m0) (fst x)) as [He|He].
    + apply (fun HK HF' => I1 (fun a b => In a (enums l x) /\ b = y /\ T (fst a, (id, (fst x, fst a)) :: snd a) y)
               HK HF' acc F HFs x y Hx Hn); [| | |assumption].
      * intros a b Ha (A1 & -> & A2). destruct (enums_forth _ _ _ _ _ _ _ _ A1 Hx) as [[B1 B2] B3].
        apply (HT (fst a, (id, (fst x, fst a)) :: snd a)); [|assumption]. split; [assumption|].
        constructor; [cbn; lia | assumption].
      * intros acc0 F0 H0 a b Ha Hna (A1 & -> & A2) Hab.
        destruct (enums_forth _ _ _ _ _ _ _ _ A1 Hx) as [[B1 B2] B3].
        apply (HF acc0 F0 H0 (fst a, (id, (fst x, fst a)) :: snd a) y); [|assumption|assumption|assumption].
        split; [assumption|]. constructor; [cbn; lia | assumption].
      * exists m0. auto.
    + apply (I1 (fun x y => y = x) kforth_eq (Fk_eq k) acc F HFs x m0 Hx Hn); [exists m0; auto | exact (proj2 (Nat.le_neq _ _) (conj Hle (fun e => He (eq_sym e))))].
  - intros _ k T Hg HT HF acc F HFs x y Hx Hn Hy Hlt. injection HFs as <-.
    destruct (nth_error s (fst x)) as [v|] eqn:E; [exists v; auto|]. apply nth_error_None in E.
    destruct (kforth_after _ T HT x y Hx Hy) as [[Y1 _] _]. lia.
  - intros _ k T Hg HT HF acc F HFs x y Hx Hn Hy Hlt. injection HFs as <-.
    destruct (nth_error s (fst x)) as [v|] eqn:E; [exists v; auto|]. apply nth_error_None in E.
    destruct (kforth_after _ T HT x y Hx Hy) as [[Y1 _] _]. lia.
  - intros _ k T Hg HT HF acc F HFs x y Hx Hn Hy Hlt. injection HFs as <-.
    destruct (nth_error s (fst x)) as [v|] eqn:E; [exists v; auto|]. apply nth_error_None in E.
    destruct (kforth_after _ T HT x y Hx Hy) as [[Y1 _] _]. lia.
  - intros _ k T Hg HT HF acc F HFs x y Hx Hn Hy Hlt. injection HFs as <-.
    destruct (nth_error s (fst x)) as [v|] eqn:E; [exists v; auto|]. apply nth_error_None in E.
    destruct (kforth_after _ T HT x y Hx Hy) as [[Y1 _] _]. lia.
  - intros H k T Hg HT HF acc F HFs x y Hx Hn (m & Hm & Hy) Hlt.
    rewrite enum_atomic in Hm. apply firstn1_in in Hm. unfold progress in Hm.
    apply filter_In in Hm as [Hm Ha]. apply Nat.ltb_lt in Ha.
    apply (proj1 (IH H k _ Hg kforth_eq (Fk_eq k)) acc F HFs x m Hx Hn); [exists m; auto|assumption].
  - intros _ k T Hg HT HF acc F HFs x y Hx Hn (m & Hm & Hy) Hlt. cbn in Hm.
    destruct (boundary s ci c (fst x)); [|contradiction]. destruct Hm as [<-|[]].
    apply (HF acc F HFs x y); assumption.
  - intros _ k T Hg HT HF acc F HFs. discriminate.
  - intros _ k T Hg HT HF acc F HFs x y Hx Hn (m & Hm & Hy) Hlt. cbn [Spec.enum] in Hm.
    destruct (holds s ml a (fst x)) eqn:Eh; [|contradiction]. destruct Hm as [<-|[]].
    destruct (HT _ _ Hx Hy) as [[Y1 _] _].
    destruct a; cbn [first_re] in HFs; try (apply (HF acc F HFs x y); assumption);
      exfalso; apply end_assert in Eh; auto; try lia; (split; [apply Hx | constructor]).
  - intros _ k T Hg HT HF acc F HFs. discriminate.
Qed.

Lemma F_l : forall l, forallb casel l = true -> forall k T, kgood k -> kforth T -> Fk k T ->
  Fk (first_l l k) (afters l T).
Proof. intros l H k T Hg HT HF. exact (F_re (RSeq l) H k T Hg HT HF). Qed.

(** ** What a zero-width match of the rest implies *)
Definition Zk (k : fkont) (T : krel) (U : state -> Prop) : Prop := forall acc F, k acc = Some F ->
  forall m y, st_ok m -> nlp (fst m) -> T m y -> fst y = fst m ->
  (exists v, nth_error s (fst m) = Some v /\ fin F v = false) ->
  forall st2, st_ok st2 -> fst m <= fst st2 -> U st2.

(** [r] before a rest described by [kb]: a zero-width match does not depend on the position. *)
Fixpoint clean_re (r : re) (kb : bool) : bool :=
  let clean_l := fix clean_l (l : list re) (kb : bool) : bool :=
    match l with [] => kb | x :: xs => clean_re x (clean_l xs kb) end in
  match r with
  | RStr [] | REmpty => kb
  | RRep _ a _ _ => negb (N.eqb a 0) || kb
  | RSelect l => forallb (fun x => clean_re x kb) l
  | RSeq l | RCap _ l | RNCap _ _ l => clean_l l kb
  | RBound _ | RAssert ASubjectBegin | RAssert ALineBegin => false
  | _ => true
  end.
Fixpoint clean_l (l : list re) (kb : bool) : bool :=
  match l with [] => kb | x :: xs => clean_re x (clean_l xs kb) end.

Definition some_out (r : re) (U : state -> Prop) : state -> Prop :=
  fun st2 => exists m2, In m2 (enum r st2) /\ U m2.
Definition some_outs (l : list re) (U : state -> Prop) : state -> Prop :=
  fun st2 => exists m2, In m2 (enums l st2) /\ U m2.

Lemma pos_fin_any : forall v, fin [FAny] v = true.
Proof. reflexivity. Qed.

Lemma iterate_zero : forall body kd b st, exists m, In m (iterate s true body kd 0 b st) /\
  (m = st \/ In m (iterate s true body kd 0 b st)).
Proof.
  intros body kd b st. unfold iterate.
  replace (negb (N.eqb b 0) && N.ltb b 0)%bool with false by (destruct (N.ltb_spec b 0); [lia | rewrite andb_false_r; reflexivity]).
  cbn [N.to_nat mandatory]. rewrite ?flat_map_one. destruct kd.
  - exists st. split; [|auto]. cbn [more_greedy]. apply in_or_app. right. left. reflexivity.
  - exists st. split; [|auto]. cbn [more_lazy]. left. reflexivity.
  - destruct (more_greedy true body (S (len - fst st)) b 0 st) as [|m ms] eqn:E.
    + exfalso. cbn [more_greedy] in E. apply app_eq_nil in E as [_ E]. discriminate.
    + exists m. split; [|right]; left; reflexivity.
Qed.

Lemma Z_re : forall r, casel r = true -> forall k T U kb, kgood k -> kforth T ->
  (kb = true -> Zk k T U) -> clean_re r kb = true ->
  Zk (first_re r k) (after r T) (some_out r U).
Proof.
  induction r as
    [ | r l IHr IHl | c | | t | l IH | l IH | | | kd a b l IH | id l IH | id nm l IH | id | nm
    | neg l IH | neg l IH | l IH | c | c | a | m ]
    using re_ind2 with (Q := fun l => forallb casel l = true -> forall k T U kb, kgood k -> kforth T ->
      (kb = true -> Zk k T U) ->
      (clean_l l kb = true -> Zk (first_l l k) (afters l T) (some_outs l U)) /\
      (forallb (fun x => clean_re x kb) l = true ->
         Zk (first_re (RSelect l) k) (after (RSelect l) T) (some_out (RSelect l) U)));
    cbn [casel forallb].
  - intros _ k T U kb Hg HT HZ. split.
    + intros Hc acc F H m y Hm Hn (m0 & [<-|[]] & H2) He Hv st2 Hs2 Hle. exists st2.
      split; [left; reflexivity|]. exact (HZ Hc acc F H m y Hm Hn H2 He Hv st2 Hs2 Hle).
    + intros _ acc F H m y Hm Hn (m0 & [] & H2).
  - intros H k T U kb Hg HT HZ. apply andb_true_iff in H as [H1 H2].
    destruct (IHl H2 k T U kb Hg HT HZ) as [I1 I2]. split.
    + cbn [clean_l]. intros Hc acc F H m y Hm Hn (m0 & Hm0 & Hy) He Hv st2 Hs2 Hle. cbn [first_l] in H.
      rewrite enums_cons in Hm0. apply in_flat_map in Hm0 as (m1 & M1 & M2).
      destruct (IHr H1 (first_l l k) (afters l T) (some_outs l U) _ (first_l_good l H2 k Hg)
                  (kforth_afters l T HT) I1 Hc acc F H m y Hm Hn
                  (ex_intro _ m1 (conj M1 (ex_intro _ m0 (conj M2 Hy)))) He Hv st2 Hs2 Hle)
        as (x1 & X1 & x2 & X2 & X3).
      exists x2. split; [|assumption]. rewrite enums_cons. apply in_flat_map. eauto.
    + intros Hc acc F H m y Hm Hn (m0 & Hm0 & Hy) He (v & V1 & V2) st2 Hs2 Hle.
      cbn [forallb] in Hc. apply andb_true_iff in Hc as [C1 C2].
      rewrite first_select_cons in H. destruct (first_re r k acc) as [acc'|] eqn:E; [|discriminate].
      assert (V3 : fin acc' v = false).
      { destruct (fin acc' v) eqn:Ef; [|reflexivity].
        rewrite (proj1 (first_good (RSelect l) H2 k Hg acc' F H) v Ef) in V2. discriminate. }
      rewrite enum_select_cons in Hm0. apply in_app_iff in Hm0 as [Hm0|Hm0].
      * destruct (IHr H1 k T U kb Hg HT HZ C1 acc acc' E m y Hm Hn (ex_intro _ m0 (conj Hm0 Hy)) He
                    (ex_intro _ v (conj V1 V3)) st2 Hs2 Hle) as (x & X1 & X2).
        exists x. split; [|assumption]. rewrite enum_select_cons. apply in_or_app. left. assumption.
      * destruct (I2 C2 acc' F H m y Hm Hn (ex_intro _ m0 (conj Hm0 Hy)) He
                    (ex_intro _ v (conj V1 V2)) st2 Hs2 Hle) as (x & X1 & X2).
        exists x. split; [|assumption]. rewrite enum_select_cons. apply in_or_app. right. assumption.
  - (* RCls *) intros _ k T U kb Hg HT HZ _ acc F H m y Hm Hn (m0 & Hm0 & Hy) He Hv st2 Hs2 Hle. exfalso.
    destruct (enum_forth _ _ _ _ _ _ _ _ Hm0 Hm) as [O1 _].
    apply step_fin in Hm0 as (v & _ & _ & Hp). destruct (HT _ _ O1 Hy) as [_ Hq]. lia.
  - intros _ k T U kb Hg HT HZ _ acc F H m y Hm Hn (m0 & Hm0 & Hy) He Hv st2 Hs2 Hle. exfalso.
    destruct (enum_forth _ _ _ _ _ _ _ _ Hm0 Hm) as [O1 _].
    apply step_fin in Hm0 as (v & _ & _ & Hp). destruct (HT _ _ O1 Hy) as [_ Hq]. lia.
  - intros _ k T U kb Hg HT HZ Hc acc F H m y Hm Hn (m0 & Hm0 & Hy) He Hv st2 Hs2 Hle.
    destruct t as [|c t].
    + destruct Hm0 as [<-|[]]. exists st2. split; [left; reflexivity|].
      exact (HZ Hc acc F H m y Hm Hn Hy He Hv st2 Hs2 Hle).
    + exfalso. destruct (walk_forth _ _ names _ _ _ Hm0) as [Hf Hp]. destruct (Hf Hm) as [O1 _].
      destruct (HT _ _ O1 Hy) as [_ Hq]. cbn [length] in Hp. lia.
  - intros H k T U kb Hg HT HZ Hc. apply (proj2 (IH H k T U kb Hg HT HZ) Hc).
  - intros H k T U kb Hg HT HZ Hc acc F HF m y Hm Hn Hy He Hv st2 Hs2 Hle.
    exact (proj1 (IH H k T U kb Hg HT HZ) Hc acc F HF m y Hm Hn Hy He Hv st2 Hs2 Hle).
  - intros _ k T U kb Hg HT HZ Hc acc F H m y Hm Hn (m0 & [<-|[]] & Hy) He Hv st2 Hs2 Hle.
    exists st2. split; [left; reflexivity|]. exact (HZ Hc acc F H m y Hm Hn Hy He Hv st2 Hs2 Hle).
  - intros _ k T U kb Hg HT HZ Hc acc F H. discriminate.
  - (* RRep *) intros H k T U kb Hg HT HZ Hc acc F HF m y Hm Hn (m0 & Hm0 & Hy) He (v & V1 & V2) st2 Hs2 Hle.
    destruct (enum_forth _ _ _ _ _ _ _ _ Hm0 Hm) as [O1 O2]. destruct (HT _ _ O1 Hy) as [_ Hq].
    assert (Hp0 : fst m0 = fst m) by (clear - O2 Hq He; apply Nat.le_antisymm; [rewrite <- He; exact Hq | exact O2]).
    assert (Sh : a = 0%N /\ m0 = m).
    { rewrite enum_rep in Hm0. clear - Hm0 Hp0 Hm H.
      unfold iterate in Hm0. destruct (negb (N.eqb b 0) && N.ltb b a)%bool; [contradiction|].
      assert (M : forall x, In x (mandatory true (enums l) (N.to_nat a) m) ->
                st_ok x /\ fst m <= fst x /\ ((a = 0%N /\ x = m) \/ fst m < fst x)).
      { intros x Hx. pose proof (mandatory_R s names true (forth s) (forth_refl s) (forth_trans s names)
          (enums l) (enums_forth s ml ci names true l) _ _ _ Hx Hm) as [Y1 Y2]. split; [assumption|]. split; [assumption|].
        destruct (N.to_nat a) as [|j] eqn:Ej.
        - destruct Hx as [<-|[]]. left. split; [lia|reflexivity].
        - right. exact (mandatory_strict s names true (enums l) j m x eq_refl (enums_forth s ml ci names true l) Hx Hm). }
      assert (Gr : forall n x z, st_ok x -> In z (more_greedy true (enums l) n b a x) -> z = x \/ fst x < fst z).
      { intros [|n] x z Hx Hz; [contradiction|]. cbn [more_greedy] in Hz. apply in_app_iff in Hz as [Hz|[Hz|[]]]; [|auto].
        destruct (N.eqb b 0 || N.ltb a b)%bool; [|contradiction].
        apply in_flat_map in Hz as (m1 & H1 & H2). apply (keep_in true), filter_In in H1 as [H1 H3].
        apply Nat.ltb_lt in H3. destruct (enums_forth _ _ _ _ _ _ _ _ H1 Hx) as [K1 _].
        pose proof (greedy_R s names true (forth s) (forth_refl s) (forth_trans s names)
          (enums l) (enums_forth s ml ci names true l) _ _ _ _ _ H2 K1) as [_ K2]. right. lia. }
      assert (Lz : forall n x z, st_ok x -> In z (more_lazy true (enums l) n b a x) -> z = x \/ fst x < fst z).
      { intros [|n] x z Hx Hz; [contradiction|]. cbn [more_lazy] in Hz. destruct Hz as [Hz|Hz]; [auto|].
        destruct (N.eqb b 0 || N.ltb a b)%bool; [|contradiction].
        apply in_flat_map in Hz as (m1 & H1 & H2). apply (keep_in true), filter_In in H1 as [H1 H3].
        apply Nat.ltb_lt in H3. destruct (enums_forth _ _ _ _ _ _ _ _ H1 Hx) as [K1 _].
        pose proof (lazy_R s names true (forth s) (forth_refl s) (forth_trans s names)
          (enums l) (enums_forth s ml ci names true l) _ _ _ _ _ H2 K1) as [_ K2]. right. lia. }
      destruct kd; [| |apply firstn1_in in Hm0]; apply in_flat_map in Hm0 as (x & X1 & X2);
        destruct (M x X1) as (Y1 & Y2 & Y3).
      - destruct (Gr _ _ _ Y1 X2) as [->|]; [destruct Y3; [assumption|lia] | lia].
      - destruct (Lz _ _ _ Y1 X2) as [->|]; [destruct Y3; [assumption|lia] | lia].
      - destruct (Gr _ _ _ Y1 X2) as [->|]; [destruct Y3; [assumption|lia] | lia]. }
    destruct Sh as [-> ->]. cbn in Hc. specialize (HZ Hc).
    destruct (iterate_zero (enums l) kd b st2) as (z & Z1 & _).
    exists z. split; [rewrite enum_rep; assumption|].
    rewrite <- (enum_rep s ml ci names true) in Z1.
    destruct (enum_forth _ _ _ _ _ _ _ _ Z1 Hs2) as [W1 W2].
    assert (Hz : fst m <= fst z) by (eapply Nat.le_trans; [exact Hle | exact W2]).
    rewrite first_rep in HF. destruct (is_optional kd 0 b).
    + destruct (first_l l k acc) as [acc'|] eqn:E; [|discriminate].
      exact (HZ acc' F HF m y Hm Hn Hy He (ex_intro _ v (conj V1 V2)) z W1 Hz).
    + cbn [N.eqb] in HF. destruct (k acc) as [acc'|] eqn:E; [|discriminate].
      assert (V3 : fin acc' v = false).
      { destruct (fin acc' v) eqn:Ef; [|reflexivity].
        rewrite (proj1 (first_l_good l H k Hg acc' F HF) v Ef) in V2. discriminate. }
      exact (HZ acc acc' E m y Hm Hn Hy He (ex_intro _ v (conj V1 V3)) z W1 Hz).
  - (* RCap *) intros H k T U kb Hg HT HZ Hc acc F HF m y Hm Hn (m0 & Hm0 & Hy) He Hv st2 Hs2 Hle.
    rewrite enum_cap in Hm0. apply in_map_iff in Hm0 as (m1 & <- & Hm1).
    assert (Cl : forall st a, st_ok st -> In a (enums l st) -> st_ok (fst a, (id, (fst st, fst a)) :: snd a)).
    { intros st a Hs Ha. destruct (enums_forth _ _ _ _ _ _ _ _ Ha Hs) as [[B1 B2] B3].
      split; [assumption|]. constructor; [cbn; lia | assumption]. }
    destruct (fun K1 K2 => proj1 (IH H k
        (fun a b => In a (enums l m) /\ b = y /\ T (fst a, (id, (fst m, fst a)) :: snd a) y)
        (fun a => In a (enums l st2) -> U (fst a, (id, (fst st2, fst a)) :: snd a)) kb Hg K1 K2)
        Hc acc F HF m y Hm Hn (ex_intro _ m1 (conj Hm1 (conj Hm1 (conj eq_refl Hy)))) He Hv st2 Hs2 Hle)
      as (x & X1 & X2).
    + intros a b Ha (A1 & -> & A2). exact (HT _ _ (Cl m a Hm A1) A2).
    + intros Hk acc0 F0 H0 a b Ha Hna (A1 & -> & A2) Hab Hva st3 Hs3 Hle3 Hin.
      exact (HZ Hk acc0 F0 H0 _ y (Cl m a Hm A1) Hna A2 Hab Hva _ (Cl st2 st3 Hs2 Hin) Hle3).
    + eexists. split; [rewrite enum_cap; apply in_map_iff; exists x; split; [reflexivity|assumption]|].
      exact (X2 X1).
  - (* RNCap *) intros H k T U kb Hg HT HZ Hc acc F HF m y Hm Hn (m0 & Hm0 & Hy) He Hv st2 Hs2 Hle.
    rewrite enum_ncap in Hm0. apply in_map_iff in Hm0 as (m1 & <- & Hm1).
    assert (Cl : forall st a, st_ok st -> In a (enums l st) -> st_ok (fst a, (id, (fst st, fst a)) :: snd a)).
    { intros st a Hs Ha. destruct (enums_forth _ _ _ _ _ _ _ _ Ha Hs) as [[B1 B2] B3].
      split; [assumption|]. constructor; [cbn; lia | assumption]. }
    destruct (fun K1 K2 => proj1 (IH H k
        (fun a b => In a (enums l m) /\ b = y /\ T (fst a, (id, (fst m, fst a)) :: snd a) y)
        (fun a => In a (enums l st2) -> U (fst a, (id, (fst st2, fst a)) :: snd a)) kb Hg K1 K2)
        Hc acc F HF m y Hm Hn (ex_intro _ m1 (conj Hm1 (conj Hm1 (conj eq_refl Hy)))) He Hv st2 Hs2 Hle)
      as (x & X1 & X2).
    + intros a b Ha (A1 & -> & A2). exact (HT _ _ (Cl m a Hm A1) A2).
    + intros Hk acc0 F0 H0 a b Ha Hna (A1 & -> & A2) Hab Hva st3 Hs3 Hle3 Hin.
      exact (HZ Hk acc0 F0 H0 _ y (Cl m a Hm A1) Hna A2 Hab Hva _ (Cl st2 st3 Hs2 Hin) Hle3).
    + eexists. split; [rewrite enum_ncap; apply in_map_iff; exists x; split; [reflexivity|assumption]|].
      exact (X2 X1).
  - intros _ k T U kb Hg HT HZ Hc acc F H m y Hm Hn Hy He (v & V1 & V2) st2 Hs2 Hle.
    injection H as <-. discriminate.
  - intros _ k T U kb Hg HT HZ Hc acc F H m y Hm Hn Hy He (v & V1 & V2) st2 Hs2 Hle.
    injection H as <-. discriminate.
  - intros _ k T U kb Hg HT HZ Hc acc F H m y Hm Hn Hy He (v & V1 & V2) st2 Hs2 Hle.
    injection H as <-. discriminate.
  - intros _ k T U kb Hg HT HZ Hc acc F H m y Hm Hn Hy He (v & V1 & V2) st2 Hs2 Hle.
    injection H as <-. discriminate.
  - (* RAtomic *) intros _ k T U kb Hg HT HZ Hc acc F H m y Hm Hn (m0 & Hm0 & Hy) He Hv st2 Hs2 Hle. exfalso.
    destruct (enum_forth _ _ _ _ _ _ _ _ Hm0 Hm) as [O1 _]. destruct (HT _ _ O1 Hy) as [_ Hq].
    rewrite enum_atomic in Hm0. apply firstn1_in in Hm0. unfold progress in Hm0.
    apply filter_In in Hm0 as [_ Ha]. apply Nat.ltb_lt in Ha. lia.
  - intros _ k T U kb Hg HT HZ Hc. discriminate.
  - intros _ k T U kb Hg HT HZ Hc acc F H. discriminate.
  - intros _ k T U kb Hg HT HZ Hc acc F H m y Hm Hn (m0 & Hm0 & Hy) He (v & V1 & V2) st2 Hs2 Hle.
    exfalso. cbn [Spec.enum] in Hm0. destruct (holds s ml a (fst m)) eqn:Eh; [|contradiction].
    assert (fst m < len) by (apply nth_error_Some; congruence).
    destruct a; try discriminate; apply end_assert in Eh; auto; try lia; (split; [apply Hm | constructor]).
  - intros _ k T U kb Hg HT HZ Hc acc F H. discriminate.
Qed.

(** ** Bodies that do not start with a line feed (needed for [$] in multiline mode only) *)
Definition NLk (T : krel) : Prop := forall x y, st_ok x -> T x y -> fst x < fst y ->
  nth_error s (fst x) <> Some 10%Z.

Fixpoint nonl_re (r : re) (kb : bool) : bool :=
  let nonl_l := fix nonl_l (l : list re) (kb : bool) : bool :=
    match l with [] => kb | x :: xs => nonl_re x (nonl_l xs kb) end in
  match r with
  | RCls c => negb (cls_has ci c 10)
  | RAny | RReject => true
  | RStr [] | REmpty | RAhead _ _ | RBehind _ _ | RBound _ | RNotBound _ | RAssert _ => kb
  | RStr (c :: _) => negb (lit_has ci c 10)
  | RSelect l => forallb (fun x => nonl_re x kb) l
  | RSeq l | RCap _ l | RNCap _ _ l => nonl_l l kb
  | RRep _ a _ l => nonl_l l true && (negb (N.eqb a 0) || kb)
  | RAtomic l => nonl_l l true
  | RBack _ | RNBack _ | RMode _ => false
  end.
Fixpoint nonl_l (l : list re) (kb : bool) : bool :=
  match l with [] => kb | x :: xs => nonl_re x (nonl_l xs kb) end.

Lemma NLk_eq : NLk (fun x y => y = x).
Proof. intros x y _ -> H. lia. Qed.

Lemma nonl_sound : ml = true -> forall r T kb, kforth T -> (kb = true -> NLk T) -> nonl_re r kb = true ->
  NLk (after r T).
Proof.
  intros Hml.
  induction r as
    [ | r l IHr IHl | c | | t | l IH | l IH | | | kd a b l IH | id l IH | id nm l IH | id | nm
    | neg l IH | neg l IH | l IH | c | c | a | m ]
    using re_ind2 with (Q := fun l => forall T kb, kforth T -> (kb = true -> NLk T) ->
      (nonl_l l kb = true -> NLk (afters l T)) /\
      (forallb (fun x => nonl_re x kb) l = true -> NLk (after (RSelect l) T))).
  - intros T kb HT HN. split.
    + intros H x y Hx (m & [<-|[]] & Hy) Hlt. exact (HN H x y Hx Hy Hlt).
    + intros _ x y Hx (m & [] & _).
  - intros T kb HT HN. destruct (IHl T kb HT HN) as [I1 I2]. split.
    + cbn [nonl_l]. intros H x y Hx (m & Hm & Hy) Hlt. rewrite enums_cons in Hm.
      apply in_flat_map in Hm as (m1 & M1 & M2).
      apply (IHr (afters l T) _ (kforth_afters l T HT) I1 H x y Hx); [|assumption].
      exists m1. split; [assumption|]. exists m. auto.
    + cbn [forallb]. intros H x y Hx (m & Hm & Hy) Hlt. apply andb_true_iff in H as [H1 H2].
      rewrite enum_select_cons in Hm. apply in_app_iff in Hm as [Hm|Hm].
      * apply (IHr T kb HT HN H1 x y Hx); [exists m; auto|assumption].
      * apply (I2 H2 x y Hx); [exists m; auto|assumption].
  - intros T kb HT HN H x y Hx (m & Hm & Hy) Hlt E. cbn in H.
    apply step_fin in Hm as (v & V1 & V2 & _). rewrite E in V1. injection V1 as <-.
    rewrite V2 in H. discriminate.
  - intros T kb HT HN H x y Hx (m & Hm & Hy) Hlt E.
    apply step_fin in Hm as (v & V1 & V2 & _). rewrite E in V1. injection V1 as <-.
    unfold dot in V2. rewrite Hml in V2. discriminate.
  - intros T kb HT HN H x y Hx (m & Hm & Hy) Hlt. destruct t as [|c t].
    + destruct Hm as [<-|[]]. exact (HN H x y Hx Hy Hlt).
    + cbn in H. cbn [Spec.enum walk] in Hm. apply in_flat_map in Hm as (m0 & M1 & _).
      apply step_fin in M1 as (v & V1 & V2 & _). intros E. rewrite E in V1. injection V1 as <-.
      rewrite V2 in H. discriminate.
  - intros T kb HT HN H. exact (proj2 (IH T kb HT HN) H).
  - intros T kb HT HN H. exact (proj1 (IH T kb HT HN) H).
  - intros T kb HT HN H x y Hx (m & [<-|[]] & Hy) Hlt. exact (HN H x y Hx Hy Hlt).
  - intros T kb HT HN H x y Hx (m & [] & Hy).
  - intros T kb HT HN H x y Hx (m & Hm & Hy) Hlt. cbn [nonl_re] in H. fold nonl_l in H.
    apply andb_true_iff in H as [H1 H2]. rewrite enum_rep in Hm.
    destruct (rep_shape _ _ _ _ _ _ Hm) as [[-> ->]|(m1 & M1 & M2)].
    + cbn in H2. exact (HN H2 x y Hx Hy Hlt).
    + apply (proj1 (IH _ true kforth_eq (fun _ => NLk_eq)) H1 x m1 Hx); [exists m1; auto|assumption].
  - intros T kb HT HN H x y Hx (m & Hm & Hy) Hlt. cbn [nonl_re] in H. fold nonl_l in H.
    rewrite enum_cap in Hm. apply in_map_iff in Hm as (m1 & <- & Hm1).
    assert (Cl : forall a, In a (enums l x) -> st_ok (fst a, (id, (fst x, fst a)) :: snd a)).
    { intros a Ha. destruct (enums_forth _ _ _ _ _ _ _ _ Ha Hx) as [[B1 B2] B3].
      split; [assumption|]. constructor; [cbn; lia | assumption]. }
    apply (fun K1 K2 => proj1 (IH
        (fun a b => In a (enums l x) /\ b = y /\ T (fst a, (id, (fst x, fst a)) :: snd a) y) kb K1 K2)
        H x y Hx (ex_intro _ m1 (conj Hm1 (conj Hm1 (conj eq_refl Hy)))) Hlt).
    + intros a b Ha (A1 & -> & A2). exact (HT _ _ (Cl a A1) A2).
    + intros Hk a b Ha (A1 & -> & A2) Hab. exact (HN Hk _ y (Cl a A1) A2 Hab).
  - intros T kb HT HN H x y Hx (m & Hm & Hy) Hlt. cbn [nonl_re] in H. fold nonl_l in H.
    rewrite enum_ncap in Hm. apply in_map_iff in Hm as (m1 & <- & Hm1).
    assert (Cl : forall a, In a (enums l x) -> st_ok (fst a, (id, (fst x, fst a)) :: snd a)).
    { intros a Ha. destruct (enums_forth _ _ _ _ _ _ _ _ Ha Hx) as [[B1 B2] B3].
      split; [assumption|]. constructor; [cbn; lia | assumption]. }
    apply (fun K1 K2 => proj1 (IH
        (fun a b => In a (enums l x) /\ b = y /\ T (fst a, (id, (fst x, fst a)) :: snd a) y) kb K1 K2)
        H x y Hx (ex_intro _ m1 (conj Hm1 (conj Hm1 (conj eq_refl Hy)))) Hlt).
    + intros a b Ha (A1 & -> & A2). exact (HT _ _ (Cl a A1) A2).
    + intros Hk a b Ha (A1 & -> & A2) Hab. exact (HN Hk _ y (Cl a A1) A2 Hab).
  - intros T kb HT HN H. discriminate.
  - intros T kb HT HN H. discriminate.
  - intros T kb HT HN H x y Hx (m & Hm & Hy) Hlt.
    destruct (enum_forth _ _ _ _ _ _ _ _ Hm Hx) as [O1 _].
    assert (E : fst m = fst x).
    { rewrite enum_ahead in Hm. destruct neg, (enums l x); try contradiction; destruct Hm as [<-|[]]; reflexivity. }
    rewrite <- E. apply (HN H m y O1 Hy). rewrite E. assumption.
  - intros T kb HT HN H x y Hx (m & Hm & Hy) Hlt.
    assert (E : m = x).
    { destruct neg; cbn [Spec.enum] in Hm; destruct (bseq s ml ci l (fst x)); try contradiction;
        destruct Hm as [<-|[]]; reflexivity. }
    subst m. exact (HN H x y Hx Hy Hlt).
  - intros T kb HT HN H x y Hx (m & Hm & Hy) Hlt. cbn [nonl_re] in H. fold nonl_l in H.
    rewrite enum_atomic in Hm. apply firstn1_in in Hm. unfold progress in Hm.
    apply filter_In in Hm as [M1 M2]. apply Nat.ltb_lt in M2.
    apply (proj1 (IH _ true kforth_eq (fun _ => NLk_eq)) H x m Hx); [exists m; auto|assumption].
  - intros T kb HT HN H x y Hx (m & Hm & Hy) Hlt. cbn [Spec.enum] in Hm.
    destruct (boundary s ci c (fst x)); [|contradiction]. destruct Hm as [<-|[]]. exact (HN H x y Hx Hy Hlt).
  - intros T kb HT HN H x y Hx (m & Hm & Hy) Hlt. cbn [Spec.enum] in Hm.
    destruct (boundary s ci c (fst x)); [contradiction|]. destruct Hm as [<-|[]]. exact (HN H x y Hx Hy Hlt).
  - intros T kb HT HN H x y Hx (m & Hm & Hy) Hlt. cbn [Spec.enum] in Hm.
    destruct (holds s ml a (fst x)); [|contradiction]. destruct Hm as [<-|[]]. exact (HN H x y Hx Hy Hlt).
  - intros T kb HT HN H. discriminate.
Qed.
Lemma nonl_body : ml = true -> forall l, nonl_l l true = true -> forall x m, st_ok x -> In m (enums l x) ->
  fst x < fst m -> nth_error s (fst x) <> Some 10%Z.
Proof.
  intros Hml l H x m Hx Hm Hlt.
  apply (nonl_sound Hml (RSeq l) _ true kforth_eq (fun _ => NLk_eq) H x m Hx); [|assumption].
  exists m. auto.
Qed.

(** ** Stacks *)
Fixpoint casels (stk : list atom) : bool :=
  match stk with
  | AR r :: tl => casel r && casels tl
  | ANum _ :: tl => casels tl
  | [AEnd; AAccept] | [AEndCycle] | [AEndAhead] => true
  | _ => false
  end.
Fixpoint cleans (stk : list atom) : bool :=
  match stk with
  | AR r :: tl => clean_re r (cleans tl)
  | ANum _ :: tl => cleans tl
  | _ => true
  end.

Definition Ts (p0 : nat) (stk : list atom) (O : list (nat * nat)) : krel :=
  fun x y => Forall (fun e => snd e <= fst x) O /\ In y (outs p0 stk x O).
Definition Us (p0 : nat) (stk : list atom) (O : list (nat * nat)) (st : state) : Prop :=
  Forall (fun e => snd e <= fst st) O -> outs p0 stk st O <> [].

Lemma open_later : forall (O : list (nat * nat)) p q, p <= q -> Forall (fun e => snd e <= p) O ->
  Forall (fun e => snd e <= q) O.
Proof. intros O p q H. apply Forall_impl. intros e He. lia. Qed.
Lemma open_close : forall st id b, st_ok st -> b <= fst st -> st_ok (fst st, (id, (b, fst st)) :: snd st).
Proof. intros st id b [H1 H2] H. split; [assumption|]. constructor; [cbn; lia | assumption]. Qed.

Ltac stack_shape H :=
  cbn [casels] in H;
  repeat match type of H with context [match ?l with _ => _ end] => destruct l; try discriminate H end.

Lemma stack_props : forall stk, casels stk = true ->
  kgood (first_stack stk) /\ forall p0 O,
  kforth (Ts p0 stk O) /\ Fk (first_stack stk) (Ts p0 stk O) /\
  (cleans stk = true -> Zk (first_stack stk) (Ts p0 stk O) (Us p0 stk O)).
Proof.
  assert (End : forall stk, (stk = [AEnd; AAccept] \/ stk = [AEndCycle] \/ stk = [AEndAhead]) ->
    kgood (first_stack stk) /\ forall p0 O,
    kforth (Ts p0 stk O) /\ Fk (first_stack stk) (Ts p0 stk O) /\
    (cleans stk = true -> Zk (first_stack stk) (Ts p0 stk O) (Us p0 stk O))).
  { intros stk Hs.
    assert (H1 : forall p0 O x y, In y (outs p0 stk x O) -> y = x).
    { intros p0 O x y H. destruct Hs as [-> | [-> | ->]]; cbn [EvalRefine.outs] in H.
      - destruct H as [H|[]]. auto.
      - destruct (Nat.ltb p0 (fst x)); [destruct H as [H|[]]; auto | contradiction].
      - destruct H as [H|[]]. auto. }
    split.
    { intros acc F H. destruct Hs as [-> | [-> | ->]]; cbn in H; injection H as <-; auto. }
    intros p0 O. split; [|split].
    - intros x y Hx [_ H]. apply H1 in H. subst y. auto.
    - intros acc F _ x y Hx _ [_ H] Hlt. apply H1 in H. subst y. lia.
    - intros _ acc F _ m y Hm _ [_ H] _ _ st2 Hs2 Hle _.
      destruct Hs as [-> | [-> | ->]]; cbn [EvalRefine.outs] in *; try discriminate.
      destruct (Nat.ltb_spec p0 (fst m)); [|contradiction].
      destruct (Nat.ltb_spec p0 (fst st2)); [discriminate|]. intros _. lia. }
  induction stk as [|a stk IH]; intros H; [discriminate|].
  destruct a as [r| | | | | | |id]; try discriminate H.
  - cbn [casels] in H. apply andb_true_iff in H as [H1 H2]. destruct (IH H2) as (G1 & G2). split.
    + exact (first_good r H1 _ G1).
    + intros p0 O. destruct (G2 p0 O) as (K1 & K2 & K3).
      assert (Sub : forall x y, st_ok x -> Ts p0 (AR r :: stk) O x y -> after r (Ts p0 stk O) x y).
      { intros x y Hx [A1 A2]. cbn [EvalRefine.outs] in A2. apply in_flat_map in A2 as (m & M1 & M2).
        destruct (enum_forth _ _ _ _ _ _ _ _ M1 Hx) as [_ B]. exists m. split; [assumption|].
        split; [|assumption]. exact (open_later _ _ _ B A1). }
      split; [|split].
      * intros x y Hx Hy. exact (kforth_after r _ K1 x y Hx (Sub x y Hx Hy)).
      * intros acc F HF x y Hx Hn Hy Hlt.
        exact (F_re r H1 _ _ G1 K1 K2 acc F HF x y Hx Hn (Sub x y Hx Hy) Hlt).
      * intros Hc acc F HF m y Hm Hn Hy He Hv st2 Hs2 Hle Ho.
        destruct (Z_re r H1 _ _ (Us p0 stk O) _ G1 K1 K3 Hc acc F HF m y Hm Hn (Sub m y Hm Hy) He Hv
                    st2 Hs2 Hle) as (z & Z1 & Z2).
        destruct (enum_forth _ _ _ _ _ _ _ _ Z1 Hs2) as [_ B].
        intros E. cbn [EvalRefine.outs] in E. apply (Z2 (open_later _ _ _ B Ho)).
        destruct (outs p0 stk z O) as [|w ws] eqn:Ew; [reflexivity|].
        assert (In w (flat_map (fun st' => outs p0 stk st' O) (enum r st2)))
          by (apply in_flat_map; exists z; rewrite Ew; split; [assumption | left; reflexivity]).
        rewrite E in H. contradiction.
  - destruct stk as [|[] [|]]; try discriminate H. apply End. auto.
  - destruct stk as [|]; try discriminate H. apply End. auto.
  - destruct stk as [|]; try discriminate H. apply End. auto.
  - cbn [casels] in H. destruct (IH H) as (G1 & G2). split; [exact G1|]. intros p0 O.
    assert (Sub : forall x y, st_ok x -> Ts p0 (ANum id :: stk) O x y ->
      exists i b O', O = (i, b) :: O' /\ b <= fst x /\ st_ok (fst x, (id, (b, fst x)) :: snd x) /\
        Ts p0 stk O' (fst x, (id, (b, fst x)) :: snd x) y).
    { intros x y Hx [A1 A2]. cbn [EvalRefine.outs] in A2. destruct O as [|[i b] O']; [contradiction|].
      inversion A1 as [|e O1 A3 A4]; subst. exists i, b, O'. split; [reflexivity|]. split; [exact A3|].
      split; [apply open_close; assumption|]. split; assumption. }
    split; [|split].
    + intros x y Hx Hy. destruct (Sub x y Hx Hy) as (i & b & O' & -> & B1 & B2 & B3).
      exact (proj1 (G2 p0 O') _ y B2 B3).
    + intros acc F HF x y Hx Hn Hy Hlt. destruct (Sub x y Hx Hy) as (i & b & O' & -> & B1 & B2 & B3).
      exact (proj1 (proj2 (G2 p0 O')) acc F HF _ y B2 Hn B3 Hlt).
    + intros Hc acc F HF m y Hm Hn Hy He Hv st2 Hs2 Hle Ho.
      destruct (Sub m y Hm Hy) as (i & b & O' & -> & B1 & B2 & B3).
      inversion Ho as [|e O1 A3 A4]; subst. cbn [EvalRefine.outs].
      exact (proj2 (proj2 (G2 p0 O')) Hc acc F HF _ y B2 Hn B3 He Hv _ (open_close _ id b Hs2 A3) Hle A4).
Qed.

Lemma first_stack_map : forall l acc, first_stack (map AR l) acc = first_l l Some acc.
Proof.
  induction l as [|x l IH]; intros acc; [reflexivity|]. cbn [map first_stack first_atom first_l].
  apply first_ext. exact IH.
Qed.

Notation one := (one s ml ci G).
Notation mg l := (more_greedy true (enums l)).

(** The preferred outcome of the loop is the preferred outcome of the committed loop. *)
Lemma opt_loop : forall l tl p0 O F1 F2, forallb casel l = true -> casels tl = true -> cleans tl = true ->
  (ml = true -> nonl_l l true = true) ->
  first_l l Some [] = Some F1 -> first_stack tl [] = Some F2 -> collides F1 F2 = Some false -> negb ci || apart F1 F2 = true ->
  forall k b i x, st_ok x -> Forall (fun e => snd e <= fst x) O -> len - fst x < k ->
  hd_error (flat_map (fun st' => outs p0 tl st' O) (mg l k b i x))
  = hd_error (flat_map (fun st' => outs p0 tl st' O) (firstn 1 (mg l k b i x))).
Proof.
  intros l tl p0 O F1 F2 Hl Ht Hcl Hnl E1 E2 Hcol Hap.
  destruct (stack_props tl Ht) as (G1 & G2). destruct (G2 p0 O) as (K1 & K2 & K3). specialize (K3 Hcl).
  assert (Gk : kgood Some) by (intros acc F H; injection H as <-; auto).
  induction k as [|k IH]; intros b i x Hx Ho Hk; [lia|].
  rewrite (mg_S s ml ci G). destruct (N.eqb b 0 || N.ltb i b)%bool; [|reflexivity].
  destruct (one_shape s ml ci G l x) as [E|(x' & E & Hlt)]; rewrite E; [reflexivity|].
  cbn [flat_map]. rewrite app_nil_r. destruct (one_ok s ml ci G l x x' Hx E) as [Hx' _].
  assert (Hk' : len - fst x' < k) by (destruct Hx'; lia).
  destruct k as [|k]; [lia|].
  assert (Ho' : Forall (fun e => snd e <= fst x') O) by (apply (open_later O (fst x)); [lia|assumption]).
  rewrite firstn1_app by (apply mg_nonempty). specialize (IH b (N.succ i) x' Hx' Ho' Hk').
  rewrite flat_map_app. destruct (flat_map (fun st' => outs p0 tl st' O) (mg l (S k) b (N.succ i) x')) as [|w ws] eqn:Ew.
  - rewrite <- IH. cbn [app flat_map]. rewrite app_nil_r.
    destruct (outs p0 tl x O) as [|y ys] eqn:Ey; [reflexivity|]. exfalso.
    assert (Hin : In x' (enums l x)).
    { assert (In x' (one l x)) by (rewrite E; left; reflexivity). unfold EvalRefine.one in H.
      apply firstn1_in in H. apply filter_In in H. tauto. }
    assert (Hn : nlp (fst x)) by (intros Hm; exact (nonl_body Hm l (Hnl Hm) x x' Hx Hin Hlt)).
    destruct (F_l l Hl Some _ Gk kforth_eq (Fk_eq Some) [] F1 E1 x x' Hx Hn
                (ex_intro _ x' (conj Hin eq_refl)) Hlt) as (v & V1 & V2).
    assert (Vo : val_ok v = true).
    { rewrite forallb_forall in s_ok. apply s_ok. eapply nth_error_In. exact V1. }
    assert (V3 : fin F2 v = false).
    { apply (no_collision_ci ci F1 F2); auto.
      - apply (proj2 (first_l_good l Hl Some Gk [] F1 E1)). reflexivity.
      - apply (proj2 (G1 [] F2 E2)). reflexivity. }
    assert (Ty : Ts p0 tl O x y) by (split; [assumption | rewrite Ey; left; reflexivity]).
    destruct (K1 x y Hx Ty) as [_ Hle].
    destruct (Nat.eq_dec (fst x) (fst y)) as [He|He].
    + apply (K3 [] F2 E2 x y Hx Hn Ty (eq_sym He) (ex_intro _ v (conj V1 V3)) x' Hx' ltac:(lia) Ho').
      destruct (outs p0 tl x' O) as [|z zs] eqn:Ez; [reflexivity|].
      assert (In z (flat_map (fun st' => outs p0 tl st' O) (mg l (S k) b (N.succ i) x'))).
      { apply in_flat_map. exists x'. split; [|rewrite Ez; left; reflexivity].
        rewrite (mg_S s ml ci G). apply in_or_app. right. left. reflexivity. }
      rewrite Ew in H. contradiction.
    + destruct (K2 [] F2 E2 x y Hx Hn Ty ltac:(lia)) as (v' & V4 & V5). congruence.
  - rewrite <- IH. reflexivity.
Qed.

(** A sufficient syntactic condition at one repetition. *)
Definition pair_ok (opt : bool) (l : list re) (tl : list atom) : bool :=
  match becomes_possessive opt l tl with
  | Some true => forallb casel l && casels tl && cleans tl && (negb ml || nonl_l l true) &&
      (negb ci || match first_l l Some [], first_stack tl [] with
                  | Some F1, Some F2 => apart F1 F2
                  | _, _ => true
                  end)
  | _ => true
  end.

Lemma pair_ok_sound : forall opt a b l tl, pair_ok opt l tl = true -> opt_pair opt s ml ci G a b l tl.
Proof.
  intros opt a b l tl H Hb p0 st O Hs Ho. unfold pair_ok in H. rewrite Hb in H.
  apply andb_true_iff in H as [H Hap]. apply andb_true_iff in H as [H Hn]. apply andb_true_iff in H as [H Hc]. apply andb_true_iff in H as [Hl Ht].
  unfold becomes_possessive in Hb. destruct opt; [|discriminate].
  unfold calculate_first in Hb. rewrite first_stack_map in Hb.
  destruct (first_l l Some []) as [F1|] eqn:E1; [|discriminate].
  destruct (first_stack tl []) as [F2|] eqn:E2; [|discriminate].
  destruct (collides F1 F2) as [[]|] eqn:E3; try discriminate.
  cbn [EvalRefine.outs]. rewrite !enum_rep.
  destruct (negb (N.eqb b 0) && N.ltb b a)%bool eqn:Eb; [unfold iterate; rewrite Eb; reflexivity|].
  rewrite !(iterate_pv s ml ci G) by assumption. unfold pv. rewrite N.sub_0_r, N.max_0_r.
  assert (Hm : mandatory true (enums l) (N.to_nat a) st = [] \/
               exists x, mandatory true (enums l) (N.to_nat a) st = [x] /\ st_ok x /\ fst st <= fst x).
  { clear - Hs. revert st Hs. induction (N.to_nat a) as [|k IH]; intros st Hs.
    - right. exists st. auto.
    - rewrite (mand_S s ml ci G). destruct (one_shape s ml ci G l st) as [E|(x' & E & Hlt)]; rewrite E; [left; reflexivity|].
      destruct (one_ok s ml ci G l st x' Hs E) as [Hx' _]. cbn [flat_map]. rewrite app_nil_r.
      destruct (IH x' Hx') as [I|(x & I1 & I2 & I3)]; [left; assumption|]. right. exists x.
      split; [assumption|]. split; [assumption|lia]. }
  destruct Hm as [->|(x & -> & Hx & Hle)]; [reflexivity|]. rewrite !flat_map_one.
  apply (opt_loop l tl p0 O F1 F2); auto.
  - intros Hml. rewrite Hml in Hn. exact Hn.
  - apply (open_later O (fst st)); assumption.
Qed.
End First.
