(** search_all, tokenize, split and iterator on other subjects than arrays: the loops of iterators.hpp do
    the same on related views, and never leave the subject. *)
From Coq Require Import List ZArith NArith Bool Lia Arith.
From Verif Require Import Chars Syntax First Utf8 View Eval Api Spec CharProofs EvalInv ApiProofs Match Sim Utf8Proofs Iter Views Anchor IterProofs.
Import ListNotations.

(** * On related views *)
Section Loops.
Variables (P : nat -> nat -> Prop) (Rv : Z -> Z -> Prop) (back prev : bool).
Variables (exec1 exec2 : nat -> res caps) (v1 v2 : view) (r : re).
Hypothesis P_0 : P 0 0.
Hypothesis Hv : vsim P Rv back prev v1 v2.
Hypothesis He : forall p p', P p p' -> rrel (crel P) (exec1 p) (exec2 p').

Lemma rrel_bind : forall A B A' B' (R : A -> A' -> Prop) (R' : B -> B' -> Prop) x x' k k',
  rrel R x x' -> (forall a a', R a a' -> rrel R' (k a) (k' a')) -> rrel R' (bind x k) (bind x' k').
Proof.
  intros A B A' B' R R' x x' k k' H K. destruct x; [|destruct x'; try contradiction; exact I ..| |];
    try exact I; destruct x'; try contradiction; try exact I. apply K. exact H.
Qed.
Lemma rrel_or_ub : forall A A' (R : A -> A' -> Prop) B B' (R' : B -> B' -> Prop) o o' (k : A -> res B) (k' : A' -> res B'),
  opt_rel R o o' -> (forall a a', R a a' -> rrel R' (k a) (k' a')) -> rrel R' (or_ub o k) (or_ub o' k').
Proof. intros A A' R B B' R' o o' k k' H K. destruct H as [y|a b H]; [exact I|]. apply K. exact H. Qed.
Lemma opos_opt : forall a b, opos P a b -> opt_rel P a b.
Proof. intros [a|] [b|] H; cbn in H; try contradiction; constructor. exact H. Qed.
Lemma crel_truth : forall a b, crel P a b -> matched a = matched b.
Proof. intros a b [(_ & _ & H) _]. exact H. Qed.

Definition irel (a b : riter) : Prop := P (ri_cur a) (ri_cur b) /\ crel P (ri_match a) (ri_match b).
Lemma sim_advance : forall p p' c c', P p p' -> crel P c c' -> rrel irel (ri_advance p c) (ri_advance p' c').
Proof.
  intros p p' c c' Hp Hc. unfold ri_advance. rewrite (crel_truth _ _ Hc). destruct (matched c').
  - eapply rrel_or_ub; [apply opos_opt, Hc|]. intros e e' E. split; assumption.
  - split; assumption.
Qed.
Lemma sim_ri_next : forall a b, irel a b -> rrel irel (ri_next exec1 v1 r a) (ri_next exec2 v2 r b).
Proof.
  intros a b [Hp Hc]. unfold ri_next. eapply rrel_or_ub; [apply (sim_end _ _ _ _ _ _ Hv), Hp|].
  intros e e' <-. destruct e.
  - split; [assumption|apply crel_fresh].
  - eapply rrel_bind; [apply He, Hp|]. intros c c'. apply sim_advance, Hp.
Qed.
Lemma sim_ri_loop : forall m a b, irel a b -> rrel (Forall2 (crel P)) (ri_loop exec1 v1 r m a) (ri_loop exec2 v2 r m b).
Proof.
  induction m as [|m IH]; intros a b H; [exact I|]. cbn [ri_loop]. unfold ri_ne_end.
  rewrite (crel_truth _ _ (proj2 H)). destruct (matched (ri_match b)); [|constructor].
  eapply rrel_bind; [apply sim_ri_next, H|]. intros it it' K. eapply rrel_bind; [apply IH, K|].
  intros l l' L. constructor; [apply H|assumption].
Qed.
Lemma sim_ri_all : forall m, rrel (Forall2 (crel P)) (ri_all exec1 v1 r m) (ri_all exec2 v2 r m).
Proof.
  intros m. unfold ri_all, ri_begin. eapply rrel_bind; [|intros a b; apply sim_ri_loop].
  eapply rrel_bind; [apply He, P_0|]. intros c c'. apply sim_advance, P_0.
Qed.

Definition jrel (a b : siter) : Prop :=
  P (si_cur a) (si_cur b) /\ crel P (si_match a) (si_match b) /\ si_last a = si_last b.
Lemma sim_take : forall p p' l c c', P p p' -> crel P c c' -> rrel jrel (si_take p l c) (si_take p' l c').
Proof.
  intros p p' l c c' Hp Hc. unfold si_take. rewrite (crel_truth _ _ Hc). destruct (matched c').
  - unfold modify_match. eapply rrel_or_ub; [apply opos_opt, Hc|]. intros e e' E.
    eapply rrel_or_ub; [apply opos_opt, Hc|]. intros b b' B. repeat split; auto; try apply Hc.
  - unfold match_rest. eapply rrel_or_ub; [apply opos_opt; cbn [set_matched set_start_mark c0 s_end]; apply Hc|].
    intros e e' E. repeat split; auto; apply Hc.
Qed.
Lemma sim_si_next : forall a b, jrel a b -> rrel jrel (si_next exec1 v1 r a) (si_next exec2 v2 r b).
Proof.
  intros a b (Hp & Hc & Hl). unfold si_next. eapply rrel_or_ub; [apply (sim_end _ _ _ _ _ _ Hv), Hp|].
  intros e e' <-. rewrite Hl. destruct (e && si_last b).
  - repeat split; auto; apply crel_fresh.
  - eapply rrel_bind; [apply He, Hp|]. intros c c'. apply sim_take, Hp.
Qed.
Lemma sim_si_loop : forall m a b, jrel a b -> rrel (Forall2 (crel P)) (si_loop exec1 v1 r m a) (si_loop exec2 v2 r m b).
Proof.
  induction m as [|m IH]; intros a b H; [exact I|]. cbn [si_loop]. unfold si_ne_end.
  rewrite (crel_truth _ _ (proj1 (proj2 H))). destruct (matched (si_match b)); [|constructor].
  eapply rrel_bind; [apply sim_si_next, H|]. intros it it' K. eapply rrel_bind; [apply IH, K|].
  intros l l' L. constructor; [apply H|assumption].
Qed.
Lemma sim_si_all : forall m, rrel (Forall2 (crel P)) (si_all exec1 v1 r m) (si_all exec2 v2 r m).
Proof.
  intros m. unfold si_all, si_begin. eapply rrel_bind; [|intros a b; apply sim_si_loop].
  eapply rrel_bind; [apply He, P_0|]. intros c c'. apply sim_take, P_0.
Qed.
End Loops.

(** * On an array *)
(** What the loops rely on: the call stays within the subject and says where it stopped. *)
Section Array.
Variables (opt : bool) (s : list Z) (f : flags) (r : re).
Hypothesis Hw : well_numbered r.
Let len := length s.

Lemma starts_no_ub : forall n p, p <= len -> exec_starts_with opt n (arr_view s) (arr_view s) f r p <> UB.
Proof.
  intros n p Hp H. unfold exec_starts_with in H.
  pose proof (attempt_ok opt n s f r p _ Hw Hp eq_refl) as E.
  unfold attempt in E. destruct (eval _ _ _ _ _ _ _ _); try discriminate. contradiction.
Qed.
Lemma search_no_ub : forall n p, p <= len -> exec_search opt n (arr_view s) (arr_view s) f r p <> UB.
Proof.
  intros n p Hp H. unfold exec_search in H. destruct (starts_with_anchor f r) eqn:Ha.
  - destruct (Nat.eq_dec n 0) as [->|Hn]; [discriminate|].
    rewrite search_anchored in H by auto. unfold search_last in H.
    pose proof (attempt_ok opt n s f r p _ Hw Hp eq_refl) as E.
    unfold attempt in E. destruct (eval _ _ _ _ _ _ _ _); try discriminate. contradiction.
  - apply search_loop_spec in H; auto.
Qed.

Definition stays (exec : nat -> res caps) : Prop := forall p, p <= len ->
  exec p <> UB /\ forall c, exec p = Ok c -> matched c = true ->
    exists b e, s_beg (c0 c) = Some b /\ s_end (c0 c) = Some e /\ e <= len.
Definition marks_end (exec : nat -> res caps) : Prop := forall p c, p <= len ->
  exec p = Ok c -> exists e, s_end (c0 c) = Some e /\ e <= len.

Lemma search_stays : forall n, stays (exec_search opt n (arr_view s) (arr_view s) f r).
Proof.
  intros n p Hp. split; [apply search_no_ub, Hp|]. intros c H Hm. apply search_cases in H; auto.
  destruct H as [(q & Hq & H & _)|(q & -> & _)]; [|discriminate].
  apply (found opt s f r Hw) in H as (_ & e & E1 & E2 & _ & E3); [|lia]. exists q, e. repeat split; auto. apply E3.
Qed.
Lemma search_marks_end : forall n, marks_end (exec_search opt n (arr_view s) (arr_view s) f r).
Proof.
  intros n p c Hp H. apply search_cases in H; auto. destruct H as [(q & Hq & H & _)|(q & -> & H)].
  - apply (found opt s f r Hw) in H as (_ & e & E1 & E2 & _ & E3); [|lia]. exists e. split; auto. apply E3.
  - exists q. split; [reflexivity|]. unfold len in *. destruct (starts_with_anchor f r); destruct H as [-> _]; lia.
Qed.
Lemma starts_stays : forall n, stays (exec_starts_with opt n (arr_view s) (arr_view s) f r).
Proof.
  intros n p Hp. split; [apply starts_no_ub, Hp|]. intros c H Hm. unfold exec_starts_with in H.
  apply returned_cases in H as [H|[_ ->]]; [|discriminate].
  apply (found opt s f r Hw n p c Hp) in H as (_ & e & E1 & E2 & _ & E3). exists p, e. repeat split; auto. apply E3.
Qed.

Lemma bind_ub : forall A B (x : res A) (k : A -> res B), bind x k = UB -> x = UB \/ exists a, x = Ok a /\ k a = UB.
Proof. intros A B [] k H; try discriminate; auto. right. eauto. Qed.

Section Loop.
Variable exec : nat -> res caps.
Hypothesis Hs : stays exec.
Lemma advance_stays : forall p c, p <= len -> exec p = Ok c ->
  exists it, ri_advance p c = Ok it /\ ri_cur it <= len.
Proof.
  intros p c Hp H. unfold ri_advance. destruct (matched c) eqn:Hm.
  - destruct (proj2 (Hs p Hp) c H Hm) as (b & e & _ & -> & Ee). cbn [or_ub]. eexists. split; [reflexivity|exact Ee].
  - eexists. split; [reflexivity|exact Hp].
Qed.
Lemma ri_step_no_ub : forall p, p <= len -> bind (exec p) (ri_advance p) <> UB /\
  forall it, bind (exec p) (ri_advance p) = Ok it -> ri_cur it <= len.
Proof.
  intros p Hp. pose proof (proj1 (Hs p Hp)) as U. pose proof (advance_stays p) as A.
  destruct (exec p) as [c| | | |]; cbn [bind]; try (split; [discriminate|discriminate]); [|congruence].
  destruct (A c Hp eq_refl) as (it & -> & Hi). split; [discriminate|]. intros it' [= <-]. exact Hi.
Qed.
Lemma ri_loop_no_ub : forall m it, ri_cur it <= len -> ri_loop exec (arr_view s) r m it <> UB.
Proof.
  induction m as [|m IH]; intros it Hp H; [discriminate|]. cbn [ri_loop] in H.
  destruct (ri_ne_end it); [|discriminate]. unfold ri_next in H. cbn [arr_view vend or_ub] in H.
  apply bind_ub in H as [H|(it' & H & K)].
  - destruct (Nat.eqb _ _); [discriminate|]. exact (proj1 (ri_step_no_ub _ Hp) H).
  - assert (Hi : ri_cur it' <= len).
    { destruct (Nat.eqb _ _); [injection H as <-; exact Hp|]. exact (proj2 (ri_step_no_ub _ Hp) _ H). }
    apply bind_ub in K as [K|(l & _ & K)]; [|discriminate]. exact (IH _ Hi K).
Qed.
Lemma ri_all_no_ub : forall m, ri_all exec (arr_view s) r m <> UB.
Proof.
  intros m H. unfold ri_all, ri_begin in H. destruct (ri_step_no_ub 0 ltac:(lia)) as [U V].
  apply bind_ub in H as [H|(it & H & K)]; [exact (U H)|]. exact (ri_loop_no_ub m it (V it H) K).
Qed.

Hypothesis Hm : marks_end exec.
Lemma si_step_no_ub : forall p l, p <= len -> bind (exec p) (si_take p l) <> UB /\
  forall it, bind (exec p) (si_take p l) = Ok it -> si_cur it <= len.
Proof.
  intros p l Hp. pose proof (Hs p Hp) as [U V]. pose proof (fun c => Hm p c Hp) as E.
  destruct (exec p) as [c| | | |]; cbn [bind]; try (split; [discriminate|discriminate]); [|congruence].
  unfold si_take. destruct (matched c) eqn:Hc.
  - destruct (V c eq_refl Hc) as (b & e & E1 & E2 & E3). unfold modify_match. rewrite E2. cbn [or_ub]. rewrite E1. cbn [or_ub].
    split; [discriminate|]. intros it [= <-]. exact E3.
  - destruct (E c eq_refl) as (e & E2 & E3). unfold match_rest. cbn [set_matched set_start_mark c0 s_end]. rewrite E2. cbn [or_ub].
    split; [discriminate|]. intros it [= <-]. exact E3.
Qed.
Lemma si_loop_no_ub : forall m it, si_cur it <= len -> si_loop exec (arr_view s) r m it <> UB.
Proof.
  induction m as [|m IH]; intros it Hp H; [discriminate|]. cbn [si_loop] in H.
  destruct (si_ne_end it); [|discriminate]. unfold si_next in H. cbn [arr_view vend or_ub] in H.
  apply bind_ub in H as [H|(it' & H & K)].
  - destruct (_ && _); [discriminate|]. exact (proj1 (si_step_no_ub _ _ Hp) H).
  - assert (Hi : si_cur it' <= len).
    { destruct (_ && _); [injection H as <-; exact Hp|]. exact (proj2 (si_step_no_ub _ _ Hp) _ H). }
    apply bind_ub in K as [K|(l & _ & K)]; [|discriminate]. exact (IH _ Hi K).
Qed.
Lemma si_all_no_ub : forall m, si_all exec (arr_view s) r m <> UB.
Proof.
  intros m H. unfold si_all, si_begin in H. destruct (si_step_no_ub 0 false ltac:(lia)) as [U V].
  apply bind_ub in H as [H|(it & H & K)]; [exact (U H)|]. exact (si_loop_no_ub m it (V it H) K).
Qed.
End Loop.
End Array.

(** * The three ranges *)
Inductive range_method := GSearchAll | GTokenize | GSplit.
Definition range_of (a : range_method) (opt : bool) (n : nat) (v w : view) (f : flags) (r : re) : res (list caps) :=
  match a with
  | GSearchAll => range_search_all opt n v w f r
  | GTokenize => range_tokenize opt n v w f r
  | GSplit => range_split opt n v w f r
  end.
(** wrapper.hpp lines 178-203, with the methods of lines 120-145. *)
Definition range_array (a : range_method) (opt : bool) (n : nat) (s : list Z) (f : flags) (r : re) :=
  range_of a opt n (arr_view s) (arr_view s) f r.
Definition range_pointer (a : range_method) (opt : bool) (n : nat) (mem : list Z) (f : flags) (r : re) :=
  range_of a opt n (zt_view mem) (zt_view mem) f r.
Definition range_u8 (strict : bool) (a : range_method) (opt : bool) (n : nat) (mem : list Z) (f : flags) (r : re) :=
  range_of a opt n (utf8_view strict mem (length mem)) (raw8_view mem) f r.

Theorem range_no_ub : forall a opt n s f r, well_numbered r -> range_array a opt n s f r <> UB.
Proof.
  intros a opt n s f r Hw. destruct a; cbn [range_array range_of].
  - apply ri_all_no_ub, search_stays, Hw.
  - apply ri_all_no_ub, starts_stays, Hw.
  - apply si_all_no_ub; [apply search_stays, Hw|apply search_marks_end, Hw].
Qed.

Definition move_list (g : nat -> nat) (x : res (list caps)) : res (list caps) :=
  match x with Ok l => Ok (map (move g) l) | No => No | Fuel => Fuel | UB => UB | Ill => Ill end.
Lemma list_move : forall (P : nat -> nat -> Prop) g, (forall i j, P i j -> j = g i) ->
  forall x y, rrel (Forall2 (crel P)) x y -> x <> UB -> y = move_list g x.
Proof.
  intros P g H x y Hxy Hx. destruct x, y; cbn in *; try contradiction; try reflexivity; try congruence.
  f_equal. clear Hx. induction Hxy as [|c c' l l' Hc _ IH]; [reflexivity|]. cbn [map]. f_equal; [|exact IH].
  eapply crel_move; eassumption.
Qed.
Lemma move_list_id : forall x, move_list (fun i => i) x = x.
Proof.
  intros []; cbn; try reflexivity. f_equal. rewrite <- (map_id a) at 2. apply map_ext. intros c. apply move_id.
Qed.

Section Sims.
Variables (P : nat -> nat -> Prop) (Rv : Z -> Z -> Prop) (okf : flags -> flags -> Prop) (okc : cls -> bool) (okl : Z -> bool)
  (okm : mode -> bool) (back lazy prev : bool).
Hypothesis P_0 : P 0 0.
Hypothesis P_eqb : forall a b a' b', P a a' -> P b b' -> Nat.eqb a b = Nat.eqb a' b'.
Hypothesis okf_same : forall f f', okf f f' -> f_block f = f_block f' /\ f_ml f = f_ml f'.
Hypothesis okf_block : forall f f' b, okf f f' -> okf (consumed_something f b) (consumed_something f' b).
Hypothesis okf_ne : forall f f', okf f f' -> okf (not_empty_match f) (not_empty_match f').
Hypothesis okf_mode : forall f f' m, okf f f' -> okm m = true -> okf (add_mode f m) (add_mode f' m).
Hypothesis R_cls : forall f f' k x x', okf f f' -> okc k = true -> Rv x x' -> match_cls (f_ci f) k x = match_cls (f_ci f') k x'.
Hypothesis R_lit : forall f f' k x x', okf f f' -> okl k = true -> Rv x x' -> match_lit (f_ci f) k x = match_lit (f_ci f') k x'.
Hypothesis R_nl : forall x x', Rv x x' -> Z.eqb x 10 = Z.eqb x' 10.
Hypothesis R_eq : back = true -> forall x x' y y', Rv x x' -> Rv y y' -> Z.eqb x y = Z.eqb x' y'.
Variables (v1 v2 w1 w2 : view) (f f' : flags) (r : re).
Hypothesis Hv : vsim P Rv back prev v1 v2.
Hypothesis Hw : lazy = true -> vsim P Rv back prev w1 w2.
Hypothesis Hf : okf f f'.
Hypothesis Hr : pok okc okl okm back lazy prev r = true.
Lemma sim_range : forall a opt n, rrel (Forall2 (crel P)) (range_of a opt n v1 w1 f r) (range_of a opt n v2 w2 f' r).
Proof.
  intros a opt n. destruct a; cbn [range_of];
    [unfold range_search_all|unfold range_tokenize|unfold range_split];
    [apply (sim_ri_all P Rv back prev)|apply (sim_ri_all P Rv back prev)|apply (sim_si_all P Rv back prev)]; try assumption; intros p p' Hp.
  - eapply sim_search with (okf := okf) (Rv := Rv) (back := back) (lazy := lazy) (prev := prev); eassumption.
  - eapply sim_starts with (okf := okf) (Rv := Rv) (back := back) (lazy := lazy) (prev := prev); eassumption.
  - eapply sim_search with (okf := okf) (Rv := Rv) (back := back) (lazy := lazy) (prev := prev); eassumption.
Qed.
End Sims.

(** * NUL-terminated strings *)
Theorem range_pointer_same : forall s rest, ~ In 0%Z s -> forall a opt n f r, well_numbered r ->
  range_pointer a opt n (s ++ 0%Z :: rest) f r = range_array a opt n s f r.
Proof.
  intros s rest Hs a opt n f r Hw. rewrite <- (move_list_id (range_array a opt n s f r)).
  apply (list_move (fun p q => p = q /\ p <= length s)); [intros i j [-> _]; reflexivity| |apply range_no_ub; assumption].
  pose proof (any_pok r) as Hr. pose proof (pointer_sim s rest Hs) as Hv.
  unfold range_pointer, range_array.
  eapply sim_range with (okf := @eq flags) (Rv := @eq Z) (back := true) (lazy := true) (prev := true);
    try exact Hr; try exact Hv; try (intros; subst; auto; fail).
  - split; lia.
  - intros ? ? ? ? [-> _] [-> _]. reflexivity.
Qed.

(** * UTF-8 *)
Section Moved.
Variables (P : nat -> nat -> Prop) (g : nat -> nat) (prev : bool) (t mem : list Z) (strict : bool).
Hypothesis P_g : forall i j, P i j -> j = g i.
Hypothesis P_eqb : forall a b a' b', P a a' -> P b b' -> Nat.eqb a b = Nat.eqb a' b'.
Hypothesis P_0 : P 0 0.
Hypothesis sim : vsim P eq false prev (arr_view t) (utf8_view strict mem (length mem)).
Lemma range_u8_same : forall a opt n f r, well_numbered r -> u8_ok prev r = true ->
  range_u8 strict a opt n mem f r = move_list g (range_array a opt n t f r).
Proof.
  intros a opt n f r Hw Hr. apply (list_move P); [assumption| |apply range_no_ub; assumption].
  unfold range_u8, range_array.
  eapply sim_range with (okf := @eq flags) (Rv := @eq Z) (back := false) (lazy := false) (prev := prev);
    try exact Hr; try assumption; try (intros; subst; auto; fail); intros H; discriminate.
Qed.
End Moved.

Theorem range_text_same : forall t, wf_text t -> forall a opt n f r, well_numbered r -> u8_ok true r = true ->
  range_u8 true a opt n (encode t) f r = move_list (offset t) (range_array a opt n t f r).
Proof.
  intros t wf. apply (range_u8_same (fun i j => j = offset t i /\ i <= length t));
    [intros i j [-> _]; reflexivity|exact (inj_eqb t)|split; [reflexivity|lia]|exact (text_sim t wf)].
Qed.
Theorem range_bytes_same : forall bs, Forall byte bs -> forall a opt n f r, well_numbered r -> u8_ok false r = true ->
  range_u8 false a opt n bs f r = move_list (reached bs) (range_array a opt n (decode bs) f r).
Proof.
  intros bs B. apply (range_u8_same (fun i j => j = reached bs i /\ i <= length (decode bs)));
    [intros i j [-> _]; reflexivity|exact (bytes_eqb bs)|split; [reflexivity|lia]|exact (bytes_sim bs B)].
Qed.
Corollary range_bytes_reads : forall bs, Forall byte bs -> forall a opt n f r, well_numbered r -> u8_ok false r = true ->
  range_u8 false a opt n bs f r <> UB.
Proof.
  intros bs B a opt n f r Hw Hr. rewrite range_bytes_same by assumption. pose proof (range_no_ub a opt n (decode bs) f r Hw).
  destruct (range_array a opt n (decode bs) f r); cbn; congruence.
Qed.

(** * Case flips *)
Theorem range_flip_same : forall s s' f r, Forall2 case_variant s s' -> f_ci f = true -> folding r = true -> well_numbered r ->
  forall a opt n, range_array a opt n s' f r = range_array a opt n s f r.
Proof.
  intros s s' f r Hs Hf Hr Hw a opt n. rewrite <- (move_list_id (range_array a opt n s f r)).
  apply (list_move eq); [auto| |apply range_no_ub; assumption].
  pose proof (arr_sim case_variant false s s' Hs) as Hv. unfold range_array.
  eapply (sim_range eq case_variant (fun f f' => f = f' /\ f_ci f = true) folds (fun _ => true)
    (fun m => match m with ModeCS => false | _ => true end) false true true); auto.
  - intros g g' [-> _]. auto.
  - intros g g' b [-> H]. split; [reflexivity|]. destruct b; assumption.
  - intros g g' [-> H]. split; [reflexivity|assumption].
  - intros g g' m [-> H] Hm. split; [reflexivity|]. destruct m; try discriminate; auto.
  - intros g g' k x x' [-> H] Hk [-> | ->]; [reflexivity|]. rewrite H. destruct (is_alpha x) eqn:E; [|rewrite swap_other by assumption; reflexivity].
    apply eqb_prop. unfold folds in Hk. rewrite forallb_forall in Hk. apply Hk, letters_in. assumption.
  - intros g g' k x x' [-> H] Hk [-> | ->]; [reflexivity|]. rewrite H. destruct (is_alpha x) eqn:E; [|rewrite swap_other by assumption; reflexivity].
    apply lit_fold. assumption.
  - intros x x' [-> | ->]; [reflexivity|]. unfold swap_case.
    destruct ((65 <=? x)%Z && (x <=? 90)%Z) eqn:E1; [lia|]. destruct ((97 <=? x)%Z && (x <=? 122)%Z) eqn:E2; lia.
  - discriminate.
Qed.

(** * Calls without undefined behaviour from any starting point (regex_iterator passes [orig_begin] and [current]) *)
Theorem exec_no_ub : forall a opt n s f r p, well_numbered r -> p <= length s -> a <> MMatch -> exec a opt n (arr_view s) (arr_view s) f r p <> UB.
Proof.
  intros [] opt n s f r p Hw Hp H; [congruence|apply starts_no_ub; assumption|apply search_no_ub; assumption].
Qed.

(** * The texts of the results in code units *)
Lemma group_move : forall g c b e, group c 0 = Some (b, e) -> group (move g c) 0 = Some (g b, g e).
Proof.
  intros g [[b' e' m] l] b e H. unfold group, get_id in *. cbn [c0 move move_slot s_beg s_end s_m Nat.eqb] in *.
  destruct b' as [b'|]; [|discriminate]. destruct e' as [e'|]; [|discriminate]. destruct m; [|discriminate].
  injection H as <- <-. reflexivity.
Qed.
Lemma group_move_none : forall g c, group c 0 = None -> group (move g c) 0 = None.
Proof.
  intros g [[b' e' m] l] H. unfold group, get_id in *. cbn [c0 move move_slot s_beg s_end s_m Nat.eqb] in *.
  destruct b' as [b'|]; [|reflexivity]. destruct e' as [e'|]; [|reflexivity]. destruct m; [discriminate|reflexivity].
Qed.
Lemma firstn_encode : forall t i, firstn (offset t i) (encode t) = encode (firstn i t).
Proof.
  intros t i. unfold offset. rewrite <- (firstn_skipn i t) at 2. rewrite encode_app, firstn_app, firstn_all, Nat.sub_diag.
  cbn [firstn]. apply app_nil_r.
Qed.
Lemma skipn_encode : forall t i, skipn (offset t i) (encode t) = encode (skipn i t).
Proof.
  intros t i. unfold offset. rewrite <- (firstn_skipn i t) at 2. rewrite encode_app, skipn_app, skipn_all, Nat.sub_diag.
  reflexivity.
Qed.
Lemma offset_split : forall t b e, b <= e -> offset t e = offset t b + offset (skipn b t) (e - b).
Proof.
  intros t b e H. unfold offset. destruct (Nat.le_gt_cases (length t) b) as [L|L].
  - rewrite (skipn_all2 t), (firstn_all2 (n:=e) t), (firstn_all2 (n:=b) t) by lia. rewrite firstn_nil. cbn. lia.
  - rewrite <- (firstn_skipn b t) at 1. rewrite firstn_app, firstn_length_le by lia.
    rewrite (firstn_all2 (n:=e)) by (rewrite firstn_length; lia).
    rewrite encode_app, app_length. reflexivity.
Qed.
Lemma text_encode : forall t b e, text (encode t) (offset t b) (offset t e) = encode (text t b e).
Proof.
  intros t b e. unfold text. destruct (Nat.le_gt_cases b e) as [H|H].
  - rewrite (offset_split t b e H). replace (_ + _ - _) with (offset (skipn b t) (e - b)) by lia.
    rewrite skipn_encode. apply firstn_encode.
  - replace (e - b) with 0 by lia. rewrite (offset_split t e b) by lia. replace (_ - _) with 0 by lia. reflexivity.
Qed.
Lemma span_encode : forall t c, span_text (encode t) (move (offset t) c) = encode (span_text t c).
Proof.
  intros t c. unfold span_text. destruct (group c 0) as [[b e]|] eqn:H.
  - rewrite (group_move _ _ _ _ H). apply text_encode.
  - rewrite (group_move_none _ _ H). reflexivity.
Qed.
Lemma weave_encode : forall ps l, weave (map encode ps) (map encode l) = encode (weave ps l).
Proof.
  induction ps as [|x ps IH]; intros l; [reflexivity|]. destruct l as [|y l]; [reflexivity|].
  cbn [map weave]. rewrite IH, !encode_app. reflexivity.
Qed.

(** Pieces and separators of well-formed UTF-8, put together again. *)
Theorem u8_reassembles : forall t opt f r n ps, wf_text t -> u8_ok true r = true -> well_numbered r -> zero_safe r = true ->
  starts_with_anchor f r = false -> no_empty opt t f r -> range_u8 true GSplit opt n (encode t) f r = Ok ps ->
  exists l, range_u8 true GSearchAll opt n (encode t) f r = Ok l /\ length ps = S (length l) /\
    weave (map (span_text (encode t)) ps) (map (span_text (encode t)) l) = encode t.
Proof.
  intros t opt f r n ps Ht Hr Hw Hz Ha Hn H. rewrite range_text_same in * by assumption. cbn [range_array range_of] in *.
  change (range_split _ _ _ _ _ _) with (ctre_split opt n t f r) in H.
  change (range_search_all _ _ _ _ _ _) with (ctre_search_all opt n t f r).
  destruct (ctre_split opt n t f r) as [qs| | | |] eqn:E; try discriminate. injection H as <-.
  destruct (split_reassembles opt t f r n qs Hw Hz Ha Hn E) as (l & -> & L & W).
  eexists. split; [reflexivity|]. rewrite !map_length. split; [exact L|].
  rewrite !map_map. rewrite !(map_ext _ _ (span_encode t)). rewrite <- !(map_map (span_text t) encode), weave_encode, W. reflexivity.
Qed.
