(** Words and separators: what the ranges list when the pattern is a character class or a run of one. *)
From Coq Require Import List ZArith NArith Bool Lia Arith ZifyN ZifyNat.
From Verif Require Import Chars Syntax First View Eval Api Actions Parser Spec CharProofs SpecProps EvalTop Match Term Iter Utf8 Utf8Proofs RangeSim Mode ModeSem ModeEnum ModeCalls ModeTop
  Compiles Total Numbering RangeSpec.
Import ListNotations.

(** * Cutting a text at characters *)
Section Cut.
Variable P : Z -> bool.
(** The parts between the characters of [P]: one more than there are such characters. *)
Fixpoint parts (u : list Z) : list (list Z) :=
  match u with
  | [] => [[]]
  | v :: u => if P v then [] :: parts u else match parts u with w :: ws => (v :: w) :: ws | [] => [] end
  end.
(** Of several adjacent characters of [P] only the first. *)
Fixpoint squeeze (again : bool) (u : list Z) : list Z :=
  match u with
  | [] => []
  | v :: u => if P v && again then squeeze true u else v :: squeeze (P v) u
  end.
(** The longest beginning that consists of characters of [P]. *)
Fixpoint run (u : list Z) : list Z := match u with v :: u => if P v then v :: run u else [] | [] => [] end.
End Cut.
Definition nonempty (w : list Z) : bool := match w with [] => false | _ => true end.
(** The longest stretches of characters of [P]. *)
Definition words (P : Z -> bool) (u : list Z) : list (list Z) := filter nonempty (parts (fun v => negb (P v)) u).

Lemma parts_cons : forall P u, exists w ws, parts P u = w :: ws.
Proof. intros P. induction u as [|v u (w & ws & IH)]; cbn [parts]; [eauto|]. rewrite IH. destruct (P v); eauto. Qed.
Lemma parts_app : forall P w u, Forall (fun v => P v = false) w -> parts P (w ++ u) = match parts P u with x :: xs => (w ++ x) :: xs | [] => [] end.
Proof.
  intros P. induction w as [|v w IH]; intros u F; cbn [app parts].
  - destruct (parts_cons P u) as (x & xs & ->). reflexivity.
  - inversion_clear F as [|? ? F1 F2]. rewrite F1, IH by exact F2. destruct (parts_cons P u) as (x & xs & ->). reflexivity.
Qed.
Lemma words_skip : forall P k u, Forall (fun v => P v = false) k -> words P (k ++ u) = words P u.
Proof.
  intros P k u F. unfold words. induction F as [|v k H F IH]; [reflexivity|]. cbn [app parts]. rewrite H. exact IH.
Qed.
Lemma words_run : forall P w u, Forall (fun v => P v = true) w -> w <> [] -> match u with v :: _ => P v = false | [] => True end ->
  words P (w ++ u) = w :: words P u.
Proof.
  intros P w u F H1 H2. unfold words. rewrite parts_app by (eapply Forall_impl; [|exact F]; intros a H; cbn; rewrite H; reflexivity).
  destruct u as [|v u]; cbn [parts].
  - rewrite app_nil_r. cbn [filter]. destruct w; [contradiction|]. reflexivity.
  - rewrite H2. cbn [negb filter nonempty]. rewrite app_nil_r. destruct w; [contradiction|]. reflexivity.
Qed.
(** The longest run and what is behind it. *)
Lemma run_spec : forall P u, exists v, u = run P u ++ v /\ Forall (fun x => P x = true) (run P u) /\ match v with x :: _ => P x = false | [] => True end.
Proof.
  intros P. induction u as [|x u (v & E & F & H)]; cbn [run].
  - exists []. repeat split. constructor.
  - destruct (P x) eqn:Px.
    + exists v. cbn. rewrite <- E. repeat split; [constructor; assumption|exact H].
    + exists (x :: u). repeat split; [constructor|exact Px].
Qed.

(** * The preferred outcome *)
Section Text.
Variable s : list Z.
Variable f : flags.
Notation has := (cls_has (f_ci f)).
Definition plus (c : cls) : re := RRep Greedy 1 0 [RCls c].

Section Loop.
Variable P : Z -> bool.
Variable body : state -> list state.
Hypothesis Hbody : forall st, body st = step s P st.
Lemma skip_cons : forall p v, nth_error s p = Some v -> skipn p s = v :: skipn (S p) s.
Proof.
  intros p. induction p as [|p IH] in s |- *; intros v H; destruct s as [|x s']; try discriminate; cbn in H.
  - injection H as ->. reflexivity.
  - cbn [skipn]. apply IH in H. exact H.
Qed.
Lemma greedy_first : forall fuel i p lg, length s - p < fuel ->
  hd_error (more_greedy false body fuel 0 i (p, lg)) = Some (p + length (run P (skipn p s)), lg).
Proof.
  induction fuel as [|fuel IH]; intros i p lg H; [lia|]. cbn [more_greedy N.eqb orb]. rewrite Hbody. unfold step, keep. cbn [fst snd].
  destruct (nth_error s p) as [v|] eqn:E.
  - rewrite (skip_cons p v E). cbn [run]. assert (p < length s) by (apply nth_error_Some; congruence). destruct (P v) eqn:Pv.
    + assert (A : advances (p, lg) (S p, lg) = true) by (apply Nat.ltb_lt; cbn [fst]; lia). cbn [filter]. rewrite A. cbn [flat_map]. rewrite app_nil_r.
      specialize (IH (N.succ i) (S p) lg ltac:(lia)). destruct (more_greedy false body fuel 0 (N.succ i) (S p, lg)) as [|x l]; [discriminate|].
      cbn [app hd_error length] in *. rewrite IH. f_equal. f_equal. lia.
    + cbn. f_equal. f_equal. lia.
  - apply nth_error_None in E. rewrite skipn_all2 by exact E. cbn. f_equal. f_equal. lia.
Qed.
Lemma plus_first : forall p lg, hd_error (iterate s false body Greedy 1 0 (p, lg)) =
  match run P (skipn p s) with [] => None | w => Some (p + length w, lg) end.
Proof.
  intros p lg. unfold iterate. cbn [N.eqb negb andb]. change (N.to_nat 1) with 1. cbn [mandatory]. unfold keep, progress. rewrite Hbody. unfold step. cbn [fst snd].
  destruct (nth_error s p) as [v|] eqn:E.
  - rewrite (skip_cons p v E). cbn [run]. destruct (P v) eqn:Pv; [|reflexivity]. cbn [flat_map app fst]. rewrite app_nil_r.
    rewrite greedy_first by lia. cbn [length]. f_equal. f_equal. lia.
  - apply nth_error_None in E. rewrite skipn_all2 by exact E. reflexivity.
Qed.
End Loop.

Lemma outcomes_plain : forall r p, no_switch r = true -> moutcomes false s f r p = enum s (f_ml f) (f_ci f) (names_of r) false r (p, []).
Proof. intros r p H. unfold moutcomes. rewrite menum_plain by exact H. rewrite map_map. cbn [snd]. apply map_id. Qed.
Lemma first_char : forall c p, first_at s f (RCls c) p = match nth_error s p with Some v => if has c v then Some (S p, []) else None | None => None end.
Proof.
  intros c p. unfold first_at. rewrite outcomes_plain by reflexivity. cbn [enum]. unfold step. cbn [fst snd].
  destruct (nth_error s p) as [v|]; [|reflexivity]. destruct (has c v); reflexivity.
Qed.
Lemma first_plus : forall c p, first_at s f (plus c) p = match run (has c) (skipn p s) with [] => None | w => Some (p + length w, []) end.
Proof.
  intros c p. unfold first_at. rewrite outcomes_plain by reflexivity. cbn [enum]. apply plus_first. intros st.
  cbn [enum]. unfold step. destruct (nth_error s (fst st)) as [v|]; [|reflexivity]. destruct (has c v); reflexivity.
Qed.

(** * The lists *)
Definition text_of (x : nat * state) : list Z := text s (fst x) (fst (snd x)).
Lemma at_suffix : forall a u, s = a ++ u -> skipn (length a) s = u.
Proof. intros a u E. rewrite E, skipn_app, skipn_all, Nat.sub_diag. reflexivity. Qed.
Lemma text_mid : forall a w b, s = a ++ w ++ b -> text s (length a) (length a + length w) = w.
Proof.
  intros a w b E. unfold text. replace (length a + length w - length a) with (length w) by lia. rewrite (at_suffix _ _ E), firstn_app, firstn_all, Nat.sub_diag.
  cbn. apply app_nil_r.
Qed.
(** Searching on from [a] in [a ++ u], for a pattern that begins exactly at the characters of [P]. *)
Lemma leftmost_skip : forall r (P : Z -> bool), (forall p, first_at s f r p = None <-> match nth_error s p with Some v => P v = false | None => True end) ->
  forall k a u, s = a ++ k ++ u -> Forall (fun v => P v = false) k -> match u with v :: _ => P v = true | [] => True end ->
  forall d, d = length (k ++ u) -> leftmost s f r d (length a) =
    match u with [] => None | _ :: _ => match first_at s f r (length a + length k) with Some st => Some (length a + length k, st) | None => None end end.
Proof.
  intros r P HP. induction k as [|x k IH]; intros a u E F H d Hd.
  - cbn [app length] in *. rewrite Nat.add_0_r. destruct u as [|v u]; subst d; cbn [length leftmost].
    + replace (first_at s f r (length a)) with (@None state); [reflexivity|]. symmetry. apply HP. rewrite app_nil_r in E. rewrite E.
      replace (nth_error a (length a)) with (@None Z) by (symmetry; apply nth_error_None; lia). exact I.
    + destruct (first_at s f r (length a)) as [st|] eqn:E1; [reflexivity|].
      apply HP in E1. rewrite E, nth_error_app2, Nat.sub_diag in E1 by lia. cbn in E1. congruence.
  - inversion_clear F as [|? ? F1 F2]. subst d. cbn [app length leftmost].
    assert (E1 : first_at s f r (length a) = None) by (apply HP; rewrite E, nth_error_app2, Nat.sub_diag by lia; exact F1).
    rewrite E1. replace (S (length a)) with (length (a ++ [x])) by (rewrite app_length; cbn; lia).
    rewrite (IH (a ++ [x]) u) by (try assumption; try reflexivity; rewrite <- app_assoc; exact E).
    rewrite app_length. cbn [length]. replace (length a + 1 + length k) with (length a + S (length k)) by lia. reflexivity.
Qed.
Lemma plus_none : forall c p, first_at s f (plus c) p = None <-> match nth_error s p with Some v => has c v = false | None => True end.
Proof.
  intros c p. rewrite first_plus. destruct (nth_error s p) as [v|] eqn:E.
  - rewrite (skip_cons p v E). cbn [run]. destruct (has c v); split; congruence.
  - apply nth_error_None in E. rewrite skipn_all2 by exact E. split; auto.
Qed.
Lemma char_none : forall c p, first_at s f (RCls c) p = None <-> match nth_error s p with Some v => has c v = false | None => True end.
Proof. intros c p. rewrite first_char. destruct (nth_error s p) as [v|]; [|split; auto]. destruct (has c v); split; congruence. Qed.
(** The characters up to the next one of [P]. *)
Lemma next_of : forall (P : Z -> bool) u, exists k v, u = k ++ v /\ Forall (fun x => P x = false) k /\ match v with x :: _ => P x = true | [] => True end.
Proof.
  intros P u. destruct (run_spec (fun x => negb (P x)) u) as (v & E & F & H). exists (run (fun x => negb (P x)) u), v. split; [exact E|]. split.
  - eapply Forall_impl; [|exact F]. intros x. cbn. destruct (P x); [discriminate|auto].
  - destruct v as [|x v]; [exact I|]. cbn in H. destruct (P x); [reflexivity|discriminate].
Qed.
Lemma plus_at : forall c a v u, s = a ++ v :: u -> has c v = true ->
  exists w u', v :: u = w ++ u' /\ w <> [] /\ Forall (fun x => has c x = true) w /\ match u' with x :: _ => has c x = false | [] => True end /\
    first_at s f (plus c) (length a) = Some (length a + length w, []).
Proof.
  intros c a v u E H. destruct (run_spec (has c) (v :: u)) as (u' & E1 & F & G). exists (run (has c) (v :: u)), u'. split; [exact E1|].
  assert (N1 : run (has c) (v :: u) <> []) by (cbn [run]; rewrite H; discriminate). split; [exact N1|]. split; [exact F|]. split; [exact G|].
  rewrite first_plus, (at_suffix a (v :: u) E). destruct (run (has c) (v :: u)); [contradiction|reflexivity].
Qed.
Lemma words_none : forall (P : Z -> bool) k, Forall (fun v => P v = false) k -> words P k = [].
Proof. intros P k F. rewrite <- (app_nil_r k), words_skip by exact F. reflexivity. Qed.
Lemma search_words : forall c fuel start a u, s = a ++ u -> length u < fuel -> map text_of (matches_from s f (plus c) fuel start (length a)) = words (has c) u.
Proof.
  intros c. induction fuel as [|fuel IH]; intros start a u E L; [lia|]. cbn [matches_from].
  destruct (negb start && Nat.eqb (length a) (length s)) eqn:B.
  - apply andb_true_iff in B as [_ B]. apply Nat.eqb_eq in B. rewrite E, app_length in B. destruct u; [reflexivity|cbn in B; lia].
  - destruct (next_of (has c) u) as (k & v & -> & F & H).
    rewrite (leftmost_skip (plus c) (has c) (plus_none c) k a v E F H) by (rewrite E, app_length; lia). rewrite words_skip by exact F.
    destruct v as [|v u']; [reflexivity|].
    assert (E' : s = (a ++ k) ++ v :: u') by (rewrite <- app_assoc; exact E).
    destruct (plus_at c (a ++ k) v u' E' H) as (w & u2 & E2 & N1 & Fw & G & E3). rewrite app_length in E3. rewrite E3.
    rewrite E2, words_run by assumption. cbn [map]. f_equal.
    + unfold text_of. cbn [fst snd]. rewrite <- app_length. apply (text_mid (a ++ k) w u2). rewrite E', E2. reflexivity.
    + cbn [fst]. replace (length a + length k + length w) with (length (a ++ k ++ w)) by (rewrite !app_length; lia).
      apply IH; [rewrite E', E2, <- !app_assoc; reflexivity|].
      assert (X : length (k ++ v :: u') = length (k ++ w ++ u2)) by (rewrite E2; reflexivity). rewrite !app_length in X. rewrite app_length in L.
      destruct w; [contradiction|]. cbn [length] in *. lia.
Qed.
(** The pieces between single characters. *)
Lemma split_parts : forall c fuel start a0 b u, s = a0 ++ b ++ u -> Forall (fun v => has c v = false) b -> length u < fuel ->
  map text_of (pieces s (length a0) (matches_from s f (RCls c) fuel start (length (a0 ++ b)))) = parts (has c) (b ++ u).
Proof.
  intros c. induction fuel as [|fuel IH]; intros start a0 b u E F L; [lia|]. cbn [matches_from].
  assert (Ea : s = (a0 ++ b) ++ u) by (rewrite <- app_assoc; exact E).
  assert (Last : u = [] \/ exists v u', u = v :: u') by (destruct u; eauto).
  destruct (negb start && Nat.eqb (length (a0 ++ b)) (length s)) eqn:B.
  - apply andb_true_iff in B as [_ B]. apply Nat.eqb_eq in B. rewrite Ea, !app_length in B. destruct u as [|v u]; [|cbn in B; lia].
    rewrite parts_app by exact F. cbn [parts pieces map]. unfold text_of. cbn [fst snd]. rewrite app_nil_r. f_equal.
    replace (length s) with (length a0 + length b) by (rewrite E, !app_length; cbn; lia). apply (text_mid a0 b []). exact E.
  - destruct (next_of (has c) u) as (k & v & -> & Fk & H).
    rewrite (leftmost_skip (RCls c) (has c) (char_none c) k (a0 ++ b) v Ea Fk H) by (rewrite Ea, !app_length; lia).
    rewrite app_assoc, parts_app by (apply Forall_app; split; assumption). destruct v as [|v u'].
    + cbn [pieces map parts]. unfold text_of. cbn [fst snd]. rewrite app_nil_r. f_equal.
      replace (length s) with (length a0 + length (b ++ k)) by (rewrite E, !app_length; cbn; lia). apply (text_mid a0 (b ++ k) []). rewrite E, <- !app_assoc. reflexivity.
    + rewrite first_char. assert (E1 : nth_error s (length (a0 ++ b) + length k) = Some v).
      { rewrite Ea, nth_error_app2 by lia. replace (length (a0 ++ b) + length k - length (a0 ++ b)) with (length k) by lia.
        rewrite nth_error_app2, Nat.sub_diag by lia. reflexivity. }
      rewrite E1, H. cbn [pieces map parts fst snd]. rewrite H. unfold text_of at 1. cbn [fst snd]. rewrite app_nil_r. f_equal.
      * rewrite app_length. replace (length a0 + length b + length k) with (length a0 + length (b ++ k)) by (rewrite app_length; lia).
        apply (text_mid a0 (b ++ k) (v :: u')). rewrite E, <- !app_assoc. reflexivity.
      * replace (S (length (a0 ++ b) + length k)) with (length (a0 ++ b ++ k ++ [v])) by (rewrite !app_length; cbn; lia).
        pose proof (IH false (a0 ++ b ++ k ++ [v]) [] u') as J. cbn [app] in J. rewrite app_nil_r in J. apply J.
        -- rewrite E, <- !app_assoc. reflexivity.
        -- constructor.
        -- rewrite app_length in L. cbn in L. lia.
Qed.
End Text.

Section Squeezed.
Variable s : list Z.
Variable f : flags.
Notation has := (cls_has (f_ci f)).
Lemma squeeze_skip : forall (P : Z -> bool) k u, Forall (fun v => P v = false) k -> forall x, squeeze P x (k ++ u) = k ++ squeeze P (match k with [] => x | _ => false end) u.
Proof.
  intros P k u F. induction F as [|v k H F IH]; intros x; [reflexivity|]. cbn [app squeeze]. rewrite H. cbn [andb]. rewrite IH. destruct k; reflexivity.
Qed.
Lemma squeeze_run : forall (P : Z -> bool) w u, Forall (fun v => P v = true) w -> squeeze P true (w ++ u) = squeeze P true u.
Proof. intros P w u F. induction F as [|v w H F IH]; [reflexivity|]. cbn [app squeeze]. rewrite H. exact IH. Qed.
Lemma squeeze_again : forall (P : Z -> bool) u x, match u with v :: _ => P v = false | [] => True end -> squeeze P x u = squeeze P false u.
Proof. intros P [|v u] x H; [reflexivity|]. cbn [squeeze]. rewrite H. reflexivity. Qed.
Lemma split_squeezed : forall c fuel start a0 b u, s = a0 ++ b ++ u -> Forall (fun v => has c v = false) b -> length u < fuel ->
  map (text_of s) (pieces s (length a0) (matches_from s f (plus c) fuel start (length (a0 ++ b)))) = parts (has c) (squeeze (has c) false (b ++ u)).
Proof.
  intros c. induction fuel as [|fuel IH]; intros start a0 b u E F L; [lia|]. cbn [matches_from].
  assert (Ea : s = (a0 ++ b) ++ u) by (rewrite <- app_assoc; exact E).
  destruct (negb start && Nat.eqb (length (a0 ++ b)) (length s)) eqn:B.
  - apply andb_true_iff in B as [_ B]. apply Nat.eqb_eq in B. rewrite Ea, !app_length in B. destruct u as [|v u]; [|cbn in B; lia].
    rewrite squeeze_skip, parts_app by exact F. cbn [squeeze parts pieces map]. unfold text_of. cbn [fst snd]. rewrite app_nil_r. f_equal.
    replace (length s) with (length a0 + length b) by (rewrite E, !app_length; cbn; lia). apply (text_mid s a0 b []). exact E.
  - destruct (next_of (has c) u) as (k & v & -> & Fk & H).
    rewrite (leftmost_skip s f (plus c) (has c) (plus_none s f c) k (a0 ++ b) v Ea Fk H) by (rewrite Ea, !app_length; lia).
    assert (Fbk : Forall (fun v => has c v = false) (b ++ k)) by (apply Forall_app; split; assumption).
    rewrite app_assoc, squeeze_skip, parts_app by exact Fbk. destruct v as [|v u'].
    + cbn [squeeze pieces map parts]. unfold text_of. cbn [fst snd]. rewrite app_nil_r. f_equal.
      replace (length s) with (length a0 + length (b ++ k)) by (rewrite E, !app_length; cbn; lia). apply (text_mid s a0 (b ++ k) []). rewrite E, <- !app_assoc. reflexivity.
    + assert (E' : s = (a0 ++ b ++ k) ++ v :: u') by (rewrite E, <- !app_assoc; reflexivity).
      destruct (plus_at s f c (a0 ++ b ++ k) v u' E' H) as (w & u2 & E2 & N1 & Fw & G & E3).
      replace (length (a0 ++ b) + length k) with (length (a0 ++ b ++ k)) by (rewrite !app_length; lia). rewrite E3. rewrite E2. cbn [pieces map fst snd].
      assert (Sq : squeeze (has c) (match b ++ k with [] => false | _ => false end) (w ++ u2) = hd 0%Z w :: squeeze (has c) false u2 /\ has c (hd 0%Z w) = true).
      { destruct w as [|x w]; [contradiction|]. inversion_clear Fw as [|? ? X1 X2]. split; [|exact X1].
        replace (match b ++ k with [] => false | _ => false end) with false by (destruct (b ++ k); reflexivity).
        cbn [app squeeze hd]. rewrite X1. cbn [andb]. rewrite squeeze_run by exact X2. rewrite (squeeze_again _ _ true G). reflexivity. }
      destruct Sq as [Sq Sh]. rewrite Sq. cbn [parts]. rewrite Sh. unfold text_of at 1. cbn [fst snd]. rewrite app_nil_r. f_equal.
      * replace (length (a0 ++ b ++ k)) with (length a0 + length (b ++ k)) by (rewrite !app_length; lia).
        apply (text_mid s a0 (b ++ k) (v :: u')). rewrite E, <- !app_assoc. reflexivity.
      * assert (Q : length (a0 ++ b ++ k) + length w = length (a0 ++ b ++ k ++ w)) by (rewrite !app_length; lia). rewrite Q.
        pose proof (IH false (a0 ++ b ++ k ++ w) [] u2) as J. cbn [app] in J. rewrite app_nil_r in J. apply J.
        -- rewrite E', E2, <- !app_assoc. reflexivity.
        -- constructor.
        -- assert (X : length (k ++ v :: u') = length (k ++ w ++ u2)) by (rewrite E2; reflexivity). rewrite !app_length in X. rewrite app_length in L.
           destruct w; [contradiction|]. cbn [length] in *. lia.
Qed.
(** A run in a group and an optional character behind it. *)
Definition item (c d : cls) : re := RSeq [RCap 1 [plus c]; RRep Greedy 0 1 [RCls d]].
Definition ends_item (d : cls) (u : list Z) : nat := match u with v :: _ => if has d v then 1 else 0 | [] => 0 end.
Lemma hd_flat : forall {A B} (g : A -> list B) l, (forall x, g x <> []) -> hd_error (flat_map g l) = match hd_error l with Some x => hd_error (g x) | None => None end.
Proof.
  intros A B g [|x l] H; [reflexivity|]. cbn [flat_map hd_error]. destruct (g x) eqn:E; [apply H in E as []|reflexivity].
Qed.
Lemma body_step : forall c ml names st, (fun st => flat_map (fun st => [st]) (enum s ml (f_ci f) names false (RCls c) st)) st = step s (has c) st.
Proof. intros c ml names st. cbn [enum]. unfold step. destruct (nth_error s (fst st)) as [v|]; [|reflexivity]. destruct (has c v); reflexivity. Qed.
Lemma option_enum : forall d ml names st, exists l, enum s ml (f_ci f) names false (RRep Greedy 0 1 [RCls d]) st = (fst st + ends_item d (skipn (fst st) s), snd st) :: l.
Proof.
  intros d ml names [p lg]. cbn [fst snd]. 
  change (enum s ml (f_ci f) names false (RRep Greedy 0 1 [RCls d]) (p, lg)) with
    (iterate s false (fun st => flat_map (fun st => [st]) (enum s ml (f_ci f) names false (RCls d) st)) Greedy 0 1 (p, lg)).
  unfold iterate. cbn [N.eqb negb andb N.ltb N.compare]. change (N.to_nat 0) with 0. cbn [mandatory flat_map more_greedy]. change (N.eqb 1 0 || N.ltb 0 1) with true. cbv iota.
  rewrite body_step. unfold step. cbn [fst snd]. unfold keep. rewrite app_nil_r. destruct (nth_error s p) as [v|] eqn:E.
  - rewrite (skip_cons s p v E). cbn [ends_item]. assert (p < length s) by (apply nth_error_Some; congruence). destruct (has d v); cbn [filter].
    + assert (A : advances (p, lg) (S p, lg) = true) by (apply Nat.ltb_lt; cbn [fst]; lia). rewrite A. cbn [flat_map]. rewrite app_nil_r.
      destruct (length s - p) as [|m] eqn:Em; [lia|]. cbn [more_greedy]. change (N.eqb 1 0 || N.ltb (N.succ 0) 1) with false. cbv iota. cbn [app].
      eexists. replace (p + 1) with (S p) by lia. reflexivity.
    + cbn [flat_map app]. eexists. rewrite Nat.add_0_r. reflexivity.
  - apply nth_error_None in E. rewrite skipn_all2 by exact E. cbn. eexists. rewrite Nat.add_0_r. reflexivity.
Qed.
Lemma first_item : forall c d p, first_at s f (item c d) p =
  match run (has c) (skipn p s) with
  | [] => None
  | w => Some (p + length w + ends_item d (skipn (p + length w) s), [(1, (p, p + length w))])
  end.
Proof.
  intros c d p. unfold first_at. rewrite outcomes_plain by reflexivity. unfold item.
  set (E := enum s (f_ml f) (f_ci f) (names_of (RSeq [RCap 1 [plus c]; RRep Greedy 0 1 [RCls d]])) false).
  change (E (RSeq [RCap 1 [plus c]; RRep Greedy 0 1 [RCls d]]) (p, [])) with
    (flat_map (fun st => flat_map (fun st => [st]) (E (RRep Greedy 0 1 [RCls d]) st))
       (map (fun st' => (fst st', (1, (p, fst st')) :: snd st')) (flat_map (fun st => [st]) (E (plus c) (p, []))))).
  rewrite hd_flat.
  2:{ intros st. unfold E. destruct (option_enum d (f_ml f) (names_of (RSeq [RCap 1 [plus c]; RRep Greedy 0 1 [RCls d]])) st) as [l ->]. discriminate. }
  assert (H1 : hd_error (flat_map (fun st => [st]) (E (plus c) (p, []))) = match run (has c) (skipn p s) with [] => None | w => Some (p + length w, []) end).
  { rewrite hd_flat by discriminate. 
    assert (H2 : hd_error (E (plus c) (p, [])) = match run (has c) (skipn p s) with [] => None | w => Some (p + length w, []) end).
    { unfold E, plus. cbn [enum]. apply plus_first. intros st. exact (body_step c (f_ml f) (names_of (item c d)) st). }
    rewrite H2. destruct (run (has c) (skipn p s)); reflexivity. }
  assert (H3 : forall (g : state -> state) l, hd_error (map g l) = option_map g (hd_error l)) by (intros g [|x l]; reflexivity).
  rewrite H3, H1. destruct (run (has c) (skipn p s)) as [|x w]; [reflexivity|]. cbn [option_map fst snd]. rewrite hd_flat by discriminate. unfold E.
  destruct (option_enum d (f_ml f) (names_of (RSeq [RCap 1 [plus c]; RRep Greedy 0 1 [RCls d]])) (p + length (x :: w), [(1, (p, p + length (x :: w)))])) as [l ->].
  reflexivity.
Qed.
Definition group_of (id : nat) (x : nat * state) : option (list Z) := option_map (fun y => text s (fst y) (snd y)) (lookup id (snd (snd x))).
Lemma search_items : forall c d fuel start a u, s = a ++ u -> length u < fuel ->
  map (group_of 1) (matches_from s f (item c d) fuel start (length a)) = map Some (words (has c) u).
Proof.
  intros c d.
  assert (HP : forall p, first_at s f (item c d) p = None <-> match nth_error s p with Some v => has c v = false | None => True end).
  { intros p. rewrite first_item. destruct (nth_error s p) as [v|] eqn:E.
    - rewrite (skip_cons s p v E). cbn [run]. destruct (has c v); split; congruence.
    - apply nth_error_None in E. rewrite skipn_all2 by exact E. split; auto. }
  induction fuel as [|fuel IH]; intros start a u E L; [lia|]. cbn [matches_from].
  destruct (negb start && Nat.eqb (length a) (length s)) eqn:B.
  - apply andb_true_iff in B as [_ B]. apply Nat.eqb_eq in B. rewrite E, app_length in B. destruct u; [reflexivity|cbn in B; lia].
  - destruct (next_of (has c) u) as (k & v & -> & F & H).
    rewrite (leftmost_skip s f (item c d) (has c) HP k a v E F H) by (rewrite E, app_length; lia). rewrite words_skip by exact F.
    destruct v as [|v u']; [reflexivity|].
    assert (E' : s = (a ++ k) ++ v :: u') by (rewrite <- app_assoc; exact E). rewrite <- app_length.
    rewrite first_item, (at_suffix s _ _ E'). destruct (run_spec (has c) (v :: u')) as (u2 & E2 & Fw & G).
    assert (N1 : run (has c) (v :: u') <> []) by (cbn [run]; rewrite H; discriminate). set (w := run (has c) (v :: u')) in *. clearbody w.
    rewrite E2, words_run by assumption. destruct w as [|x w']; [contradiction|]. set (w := x :: w') in *.
    assert (E3 : s = ((a ++ k) ++ w) ++ u2) by (rewrite <- app_assoc, E', E2; reflexivity).
    assert (E4 : skipn (length (a ++ k) + length w) s = u2) by (rewrite <- app_length; apply at_suffix; exact E3).
    cbv beta iota zeta. fold w. rewrite E4. cbn [map]. f_equal.
    + unfold group_of. cbn [fst snd lookup Nat.eqb option_map]. f_equal. apply (text_mid s (a ++ k) w u2). rewrite E', E2. reflexivity.
    + cbn [fst]. assert (L2 : length u2 < fuel).
      { assert (X : length (k ++ v :: u') = length (k ++ w ++ u2)) by (rewrite E2; reflexivity). rewrite !app_length in X. rewrite app_length in L.
        unfold w in X. cbn [length] in *. lia. }
      destruct u2 as [|y u3]; cbn [ends_item].
      * rewrite Nat.add_0_r, <- app_length. apply (IH false ((a ++ k) ++ w) []); [exact E3|exact L2].
      * destruct (has d y).
        -- replace (words (has c) (y :: u3)) with (words (has c) u3) by (symmetry; apply (words_skip (has c) [y] u3); constructor; [exact G|constructor]).
           replace (length (a ++ k) + length w + 1) with (length (((a ++ k) ++ w) ++ [y])) by (rewrite (app_length _ [y]), app_length; reflexivity).
           apply IH; [rewrite <- app_assoc; exact E3|cbn [length] in L2; lia].
        -- rewrite Nat.add_0_r, <- app_length. apply (IH false ((a ++ k) ++ w) (y :: u3)); [exact E3|exact L2].
Qed.
End Squeezed.
