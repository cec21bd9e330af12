(** Patterns combined with the operators of /repo/include/ctre/operators.hpp. *)
From Coq Require Import List ZArith NArith Bool Lia Arith.
From Verif Require Import Chars Syntax First View Eval Api Spec CharProofs EvalMono EvalInv ApiProofs EvalTop Anchor Checks Match Utf8Proofs Views Term
  Mode ModeSem ModeScope ModeCalls ModeTop Compiles Total Lang Blind.
Import ListNotations.

(** operators.hpp lines 4-6 and 8-10: both take [regular_expression<A>], [regular_expression<B>] (the method is
    the default one, so that [match], [search] and so on are called on the combination). *)
Definition op_or (a b : re) : re := RSelect [a; b].
Definition op_then (a b : re) : re := RSeq [a; b].

(** Every group of the pattern is in its result type and every reference is by number to one of these. *)
Definition own_groups (r : re) : list nat := map fst (find_captures r).
Definition closed (r : re) : bool := within (own_groups r) r.

(** * The table of a combination *)
Lemma find_empty : forall id l, In id (map fst l) -> find_id id (map (fun p : nat * option (list Z) => (p, empty_slot)) l) = Some empty_slot.
Proof.
  intros id. induction l as [|[i nm] l IH]; [intros []|]. cbn [map fst In find_id]. intros [->|H].
  - rewrite Nat.eqb_refl. reflexivity.
  - rewrite (IH H). destruct (Nat.eqb i id); reflexivity.
Qed.
Lemma caps_or : forall a b, find_captures (op_or a b) = find_captures a ++ find_captures b.
Proof. intros a b. cbn. rewrite app_nil_r. reflexivity. Qed.
Lemma agree_fresh_l : forall a b, agree (own_groups a) (fresh a) (fresh (op_or a b)).
Proof.
  intros a b. split; [reflexivity|]. intros id H _. exists empty_slot. unfold fresh. cbn [cl]. rewrite caps_or. split; apply find_empty; [exact H|].
  rewrite map_app. apply in_or_app. left. exact H.
Qed.
Lemma agree_fresh_r : forall a b, agree (own_groups b) (fresh b) (fresh (op_or a b)).
Proof.
  intros a b. split; [reflexivity|]. intros id H _. exists empty_slot. unfold fresh. cbn [cl]. rewrite caps_or. split; apply find_empty; [exact H|].
  rewrite map_app. apply in_or_app. right. exact H.
Qed.

(** [c] reports what [d] reports: the span of the match and the groups of [r]. *)
Definition same_report (r : re) (d c : caps) : Prop :=
  c0 c = c0 d /\ forall id, In id (own_groups r) -> get_id id c = get_id id d.
Lemma agree_report : forall r d c, agree (own_groups r) d c -> same_report r d c.
Proof.
  intros r d c [H1 H2]. split; [symmetry; exact H1|]. intros id Hid. unfold get_id. destruct (Nat.eqb_spec id 0) as [->|E]; [rewrite H1; reflexivity|].
  destruct (H2 id Hid E) as (s & -> & ->). reflexivity.
Qed.

(** * One attempt *)
Section Attempt.
Variables (opt : bool) (v w : view) (f : flags) (a b : re).
Hypothesis Ha : closed a = true.
Hypothesis Hb : closed b = true.
Definition run (n : nat) (p : nat) (r : re) (tl : list atom) : res caps := eval opt n v w p f (fresh r) (AStart :: AR r :: tl).

Definition plain_tail (tl : list atom) : bool := forallb (fun t => match t with AR (RAssert _) | AEnd | AAccept => true | _ => false end) tl.
Lemma plain_awithin : forall G tl, plain_tail tl = true -> forallb (awithin G) tl = true.
Proof.
  intros G. induction tl as [|t tl IH]; [reflexivity|]. cbn [plain_tail forallb]. intros H. apply andb_true_iff in H as [H1 H2]. rewrite (IH H2).
  destruct t as [r| | | | | | |]; try discriminate; try reflexivity. destruct r; try discriminate; reflexivity.
Qed.
Lemma side_l : forall n p tl, plain_tail tl = true -> vconv v = true ->
  out_rel (agree (own_groups a)) (run (S n) p a tl) (eval opt n v w p f (set_start_mark p (fresh (op_or a b))) (AR a :: tl)).
Proof.
  intros n p tl Ht Hv. unfold run. cbn [eval]. rewrite Hv. apply blind.
  - apply agree_start, agree_fresh_l.
  - cbn [forallb awithin]. rewrite (plain_awithin _ _ Ht). unfold closed in Ha. rewrite Ha. reflexivity.
Qed.
Lemma side_r : forall n p tl, plain_tail tl = true -> vconv v = true ->
  out_rel (agree (own_groups b)) (run (S n) p b tl) (eval opt n v w p f (set_start_mark p (fresh (op_or a b))) (AR b :: tl)).
Proof.
  intros n p tl Ht Hv. unfold run. cbn [eval]. rewrite Hv. apply blind.
  - apply agree_start, agree_fresh_r.
  - cbn [forallb awithin]. rewrite (plain_awithin _ _ Ht). unfold closed in Hb. rewrite Hb. reflexivity.
Qed.

(** The outcome of the combination from the outcomes of the two parts. *)
Definition either (x y z : res caps) : Prop :=
  match x with
  | Ok d => exists c, z = Ok c /\ same_report a d c
  | No => match y with
          | Ok d => exists c, z = Ok c /\ same_report b d c
          | No => z = No
          | Fuel => z = Fuel
          | UB => z = UB
          | Ill => z = Ill
          end
  | Fuel => z = Fuel
  | UB => z = UB
  | Ill => z = Ill
  end.
Lemma attempt_either : forall n p tl, plain_tail tl = true -> vconv v = true ->
  either (run (S (S (S n))) p a tl) (run (S (S n)) p b tl) (run (S (S (S (S n)))) p (op_or a b) tl).
Proof.
  intros n p tl Ht Hv.
  assert (E : run (S (S (S (S n)))) p (op_or a b) tl =
    match eval opt (S (S n)) v w p f (set_start_mark p (fresh (op_or a b))) (AR a :: tl) with
    | No => match eval opt (S n) v w p f (set_start_mark p (fresh (op_or a b))) (AR b :: tl) with No => No | x => x end
    | x => x end).
  { unfold run, op_or. cbn [eval]. rewrite Hv. match goal with |- context [match ?X with Ok _ => _ | No => _ | Fuel => _ | UB => _ | Ill => _ end] => destruct X; reflexivity end. }
  rewrite E. clear E. pose proof (side_l (S (S n)) p tl Ht Hv) as L. pose proof (side_r (S n) p tl Ht Hv) as R.
  unfold either. destruct (run (S (S (S n))) p a tl) as [d| | | |]; destruct (eval opt (S (S n)) v w p f (set_start_mark p (fresh (op_or a b))) (AR a :: tl)) as [c| | | |]; cbn [out_rel] in L; try contradiction; auto.
  - exists c. split; [reflexivity|]. apply agree_report. exact L.
  - destruct (run (S (S n)) p b tl) as [d| | | |]; destruct (eval opt (S n) v w p f (set_start_mark p (fresh (op_or a b))) (AR b :: tl)) as [c| | | |]; cbn [out_rel] in R; try contradiction; auto.
    exists c. split; [reflexivity|]. apply agree_report. exact R.
Qed.
Lemma run_mono : forall n m p r tl, n <= m -> run n p r tl <> Fuel -> run m p r tl = run n p r tl.
Proof. intros n m p r tl L H. unfold run in *. exact (eval_mono n m opt v w p f _ _ _ L eq_refl H). Qed.
(** From the outcome of the combination. *)
Lemma attempt_parts : forall n p tl, plain_tail tl = true -> vconv v = true -> run n p (op_or a b) tl <> Fuel ->
  exists m, either (run m p a tl) (run m p b tl) (run n p (op_or a b) tl).
Proof.
  intros n p tl Ht Hv H. exists (3 + n). pose proof (attempt_either n p tl Ht Hv) as X.
  rewrite (run_mono n (S (S (S (S n)))) p _ tl ltac:(lia) H) in X. cbn [plus].
  unfold either in *. destruct (run (S (S (S n))) p a tl); auto.
  destruct (run (S (S n)) p b tl) eqn:E; try congruence; rewrite (run_mono (S (S n)) (S (S (S n))) p b tl ltac:(lia)), E by (rewrite E; discriminate); exact X.
Qed.
(** To the outcome of the combination. *)
Lemma attempt_whole : forall n p tl, plain_tail tl = true -> vconv v = true -> run n p a tl <> Fuel -> (run n p a tl = No -> run n p b tl <> Fuel) ->
  exists m, either (run n p a tl) (run n p b tl) (run m p (op_or a b) tl).
Proof.
  intros n p tl Ht Hv H1 H2. exists (4 + n). pose proof (attempt_either n p tl Ht Hv) as X. cbn [plus].
  rewrite (run_mono n (S (S (S n))) p a tl ltac:(lia) H1) in X. unfold either in *. destruct (run n p a tl) eqn:E; auto.
  rewrite (run_mono n (S (S n)) p b tl ltac:(lia) (H2 eq_refl)) in X. exact X.
Qed.
End Attempt.

(** Patterns of which the groups are numbered one by one, and their combinations. *)
Inductive sum : re -> Prop :=
| sum_one : forall r, closed r = true -> well_numbered r -> sum r
| sum_or : forall a b, sum a -> sum b -> sum (op_or a b).
Lemma within_mono : forall G H r, (forall id, In id G -> In id H) -> within G r = true -> within H r = true.
Proof.
  intros G H r GH. assert (X : forall id, existsb (Nat.eqb id) G = true -> existsb (Nat.eqb id) H = true).
  { intros id E. apply in_G in E. apply existsb_exists. exists id. split; [apply GH; exact E|apply Nat.eqb_refl]. }
  induction r using re_ind2 with (Q := fun l => forallb (within G) l = true -> forallb (within H) l = true); cbn [within forallb]; auto.
  all: intros E; apply andb_true_iff in E as [E1 E2]; first [rewrite (X _ E1), (IHr E2); reflexivity | rewrite (IHr E1), (IHr0 E2); reflexivity].
Qed.
Lemma sum_closed : forall r, sum r -> closed r = true.
Proof.
  induction 1 as [r H _|a b _ IHa _ IHb]; [exact H|]. unfold closed in *. unfold own_groups at 1. rewrite caps_or. cbn [op_or within forallb].
  rewrite (within_mono _ _ a) with (2 := IHa), (within_mono _ _ b) with (2 := IHb); [reflexivity| |];
    intros id Hid; rewrite map_app; apply in_or_app; unfold own_groups in Hid; auto.
Qed.

(** * match and starts_with *)
Definition stands (a : method) : Prop := a = MMatch \/ a = MStarts.
Lemma exec_stands : forall m opt n v w f r p, stands m ->
  exec m opt n v w f r p = returned r (run opt v w f n p r (tail_of m)) /\ plain_tail (tail_of m) = true.
Proof. intros m opt n v w f r p [->| ->]; split; reflexivity. Qed.

Lemma run_matched : forall opt v w f n p r tl c, run opt v w f n p r tl = Ok c -> matched c = true.
Proof. intros opt v w f n p r tl c H. exact (proj1 (ok_matched n) _ _ _ _ _ _ _ _ H). Qed.
Lemma returned_cases : forall r x c, returned r x = Ok c -> x = Ok c \/ x = No /\ c = fresh r.
Proof. intros r [d| | | |] c H; try discriminate; injection H as <-; auto. Qed.

(** The answer of the first part when it matches, otherwise the one of the second. *)
Definition picks (a b : re) (ca cb c : caps) : Prop :=
  if matched ca then same_report a ca c else if matched cb then same_report b cb c else matched c = false.
Lemma report_matched : forall r d c, same_report r d c -> matched c = matched d.
Proof. intros r d c [H _]. unfold matched. rewrite H. reflexivity. Qed.

Theorem either_stands : forall m opt n v w f a b p ca cb, stands m -> vconv v = true -> closed a = true -> closed b = true ->
  exec m opt n v w f a p = Ok ca -> exec m opt n v w f b p = Ok cb ->
  exists c, answers (fun n => exec m opt n v w f (op_or a b) p) c /\ picks a b ca cb c.
Proof.
  intros m opt n v w f a b p ca cb Hm Hv Ha Hb Ea Eb.
  destruct (exec_stands m opt n v w f a p Hm) as [Xa Ht]. destruct (exec_stands m opt n v w f b p Hm) as [Xb _].
  rewrite Xa in Ea. rewrite Xb in Eb. clear Xa Xb. apply returned_cases in Ea. apply returned_cases in Eb.
  destruct (attempt_whole opt v w f a b Ha Hb n p (tail_of m) Ht Hv) as (k & K).
  { destruct Ea as [->|[-> _]]; discriminate. }
  { intros _. destruct Eb as [->|[-> _]]; discriminate. }
  assert (X : forall c, returned (op_or a b) (run opt v w f k p (op_or a b) (tail_of m)) = Ok c -> answers (fun n => exec m opt n v w f (op_or a b) p) c).
  { intros c Hc. apply (exec_answers m opt k). rewrite (proj1 (exec_stands m opt k v w f _ p Hm)). exact Hc. }
  unfold picks. destruct Ea as [Ea|[Ea ->]]; rewrite Ea in K; cbn [either] in K.
  - destruct K as (c & Ec & R). exists c. split; [apply X; rewrite Ec; reflexivity|]. rewrite (run_matched _ _ _ _ _ _ _ _ _ Ea). exact R.
  - cbn [matched fresh c0 empty_slot s_m]. destruct Eb as [Eb|[Eb ->]]; rewrite Eb in K; cbn [either] in K.
    + destruct K as (c & Ec & R). exists c. split; [apply X; rewrite Ec; reflexivity|]. change (matched (fresh a)) with false. cbn iota.
      rewrite (run_matched _ _ _ _ _ _ _ _ _ Eb). exact R.
    + exists (fresh (op_or a b)). split; [apply X; rewrite K; reflexivity|]. reflexivity.
Qed.

(** * search *)
(** Like [search_cases], for every numbering of the groups. *)
Lemma search_shape : forall opt n s f r c, exec_search opt n (arr_view s) (arr_view s) f r 0 = Ok c ->
  (exists q, q <= length s /\ attempt opt n s f r q = Ok c /\ (starts_with_anchor f r = true -> q = 0) /\
             forall p, p < q -> attempt opt n s f r p = No) \/
  (matched c = false /\ attempt opt n s f r 0 = No /\
     (starts_with_anchor f r = false -> forall p, p <= length s -> attempt opt n s f r p = No)).
Proof.
  intros opt n s f r c H.
  assert (L : forall m it, it <= length s -> (forall p, p < it -> attempt opt n s f r p = No) -> starts_with_anchor f r = false ->
    search_loop opt n (arr_view s) (arr_view s) f r m it = Ok c ->
    (exists q, q <= length s /\ attempt opt n s f r q = Ok c /\ forall p, p < q -> attempt opt n s f r p = No) \/
    (matched c = false /\ forall p, p <= length s -> attempt opt n s f r p = No)).
  { induction m as [|m IH]; intros it Hit Hno Han Hs; [discriminate|]. cbn [search_loop arr_view vend or_ub] in Hs. rewrite Han in Hs. cbn [negb andb] in Hs.
    fold (arr_view s) in Hs. destruct (Nat.eqb_spec it (length s)) as [E|E]; cbn [negb andb] in Hs.
    - unfold search_last in Hs. fold (attempt opt n s f r it) in Hs. destruct (attempt opt n s f r it) eqn:A; try discriminate.
      + injection Hs as ->. left. exists it. auto.
      + injection Hs as <-. right. split; [reflexivity|]. intros p Hp. destruct (Nat.eq_dec p it) as [->|]; [exact A|apply Hno; lia].
    - fold (attempt opt n s f r it) in Hs. destruct (attempt opt n s f r it) eqn:A; try discriminate.
      + injection Hs as ->. left. exists it. auto.
      + cbn [vnext arr_view] in Hs. assert (L : it < length s) by lia. apply Nat.ltb_lt in L as L'. rewrite L' in Hs. cbn [or_ub] in Hs.
        apply (IH (S it)); auto. intros p Hp. destruct (Nat.eq_dec p it) as [->|]; [exact A|apply Hno; lia]. }
  destruct (starts_with_anchor f r) eqn:Ha.
  - destruct (Nat.eq_dec n 0) as [->|Hn]; [discriminate|]. unfold exec_search in H. rewrite search_anchored in H by (auto; lia). unfold search_last in H.
    fold (attempt opt n s f r 0) in H. destruct (attempt opt n s f r 0) eqn:E; try discriminate.
    + injection H as ->. left. exists 0. repeat split; auto; lia.
    + injection H as <-. right. split; [reflexivity|]. split; [reflexivity|discriminate].
  - destruct (L n 0 (Nat.le_0_l _) ltac:(intros; lia) eq_refl H) as [(q & Q1 & Q2 & Q3)|(Q1 & Q2)].
    + left. exists q. repeat split; auto. discriminate.
    + right. split; [exact Q1|]. split; [apply Q2; lia|auto].
Qed.

Definition start_of (c : caps) : option nat := option_map fst (group c 0).
(** The first part was found, and the second one not or not further left. *)
Definition wins (ca cb : caps) : Prop :=
  matched ca = true /\ (matched cb = false \/ exists i j, start_of ca = Some i /\ start_of cb = Some j /\ i <= j).
Definition leftmost (a b : re) (ca cb c : caps) : Prop :=
  matched c = (matched ca || matched cb)%bool /\ (wins ca cb -> same_report a ca c) /\ (matched cb = true -> ~ wins ca cb -> same_report b cb c).

Section Search.
Variables (opt : bool) (s : list Z) (f : flags).
Definition at_ (r : re) (p : nat) (x : res caps) : Prop := exists n, attempt opt n s f r p = x /\ x <> Fuel.
Lemma at_fun : forall r p x y, at_ r p x -> at_ r p y -> x = y.
Proof.
  intros r p x y (n & H1 & H2) (m & H3 & H4). unfold attempt in *. destruct (le_ge_dec n m) as [L|L].
  - rewrite (eval_mono n m _ _ _ _ _ _ _ _ L H1 H2) in H3. exact H3.
  - rewrite (eval_mono m n _ _ _ _ _ _ _ _ L H3 H4) in H1. congruence.
Qed.
(** What a search says about the attempts. *)
Definition searched (r : re) (c : caps) : Prop :=
  (exists q, q <= length s /\ at_ r q (Ok c) /\ forall p, p < q -> at_ r p No) \/
  (matched c = false /\ (forall p, p <= length s -> forall d, ~ at_ r p (Ok d)) /\ at_ r 0 No /\
    (starts_with_anchor f r = false -> forall p, p <= length s -> at_ r p No)).
Lemma search_searched : forall n r c, zero_safe r = true -> exec_search opt n (arr_view s) (arr_view s) f r 0 = Ok c -> searched r c.
Proof.
  intros n r c Hz H. apply search_shape in H as [(q & Q1 & Q2 & _ & Q4)|(Q1 & Q2 & Q3)].
  - left. exists q. split; [exact Q1|]. split; [exists n; split; [exact Q2|discriminate]|]. intros p Hp. exists n. split; [apply Q4; exact Hp|discriminate].
  - right. split; [exact Q1|]. split.
    2:{ split; [exists n; split; [exact Q2|discriminate]|]. intros E p Hp. exists n. split; [exact (Q3 E p Hp)|discriminate]. }
    intros p Hp d (m & M & _). destruct (starts_with_anchor f r) eqn:E.
    + destruct (Nat.eq_dec p 0) as [->|Hp0].
      * assert (X : at_ r 0 No) by (exists n; split; [exact Q2|discriminate]).
        assert (Y : at_ r 0 (Ok d)) by (exists m; split; [exact M|discriminate]). pose proof (at_fun _ _ _ _ X Y). discriminate.
      * apply (anchored_nowhere_else opt m s f r p d Hz E ltac:(lia) M).
    + assert (X : at_ r p No) by (exists n; split; [apply (Q3 eq_refl p Hp)|discriminate]).
      assert (Y : at_ r p (Ok d)) by (exists m; split; [exact M|discriminate]). pose proof (at_fun _ _ _ _ X Y). discriminate.
Qed.
Lemma at_either : forall a b, closed a = true -> closed b = true -> forall p x, at_ (op_or a b) p x -> match x with
    | Ok c => (exists d, at_ a p (Ok d) /\ same_report a d c) \/ (at_ a p No /\ exists d, at_ b p (Ok d) /\ same_report b d c)
    | No => at_ a p No /\ at_ b p No | _ => True end.
Proof.
  intros a b Ha Hb. intros p x (k & K & Kf). destruct (attempt_parts opt (arr_view s) (arr_view s) f a b Ha Hb k p tail_starts eq_refl eq_refl) as (m & M).
    { change (attempt opt k s f (op_or a b) p <> Fuel). rewrite K. exact Kf. }
    change (either a b (attempt opt m s f a p) (attempt opt m s f b p) (attempt opt k s f (op_or a b) p)) in M. rewrite K in M.
    unfold either in M. destruct (attempt opt m s f a p) as [d| | | |] eqn:E1.
    - destruct M as (c' & -> & R). left. exists d. split; [exists m; split; [exact E1|discriminate]|exact R].
    - destruct (attempt opt m s f b p) as [d| | | |] eqn:E2.
      + destruct M as (c' & -> & R). right. split; [exists m; split; [exact E1|discriminate]|]. exists d. split; [exists m; split; [exact E2|discriminate]|exact R].
      + rewrite M. split; exists m; split; try assumption; discriminate.
      + rewrite M; exact I.
      + rewrite M; exact I.
      + rewrite M; exact I.
    - rewrite M; exact I.
    - rewrite M; exact I.
    - rewrite M; exact I.
Qed.
Lemma at_start : forall r p c, sum r -> p <= length s -> at_ r p (Ok c) -> matched c = true /\ start_of c = Some p.
Proof.
  intros r p c Hs Hp. revert c. induction Hs as [r _ Hw|a b Ha IHa Hb IHb]; intros c.
  - intros (n & H & _). apply attempt_ok in H; auto. destruct H as (H1 & H2 & (e & H3 & _) & _). split; [exact H1|].
    unfold start_of. rewrite (c0_group c p e H1 H2 H3). reflexivity.
  - intros H. pose proof (at_either a b (sum_closed a Ha) (sum_closed b Hb) p _ H) as X. cbn iota in X.
    assert (E : forall r d, same_report r d c -> matched d = true /\ start_of d = Some p -> matched c = true /\ start_of c = Some p).
    { intros r d [R _]. unfold matched, start_of, group, get_id. cbn [Nat.eqb]. rewrite R. auto. }
    destruct X as [(d & D & R)|(_ & d & D & R)]; [exact (E _ _ R (IHa d D))|exact (E _ _ R (IHb d D))].
Qed.
Theorem either_search : forall n n1 n2 a b ca cb c, sum a -> sum b -> zero_safe a = true -> zero_safe b = true ->
  ctre_search opt n1 s f a = Ok ca -> ctre_search opt n2 s f b = Ok cb -> ctre_search opt n s f (op_or a b) = Ok c -> leftmost a b ca cb c.
Proof.
  intros n n1 n2 a b ca cb c Wa Wb Za Zb Ea Eb Ec. pose proof (sum_closed a Wa) as Ha. pose proof (sum_closed b Wb) as Hb. unfold ctre_search in *.
  apply search_searched in Ea; [|assumption]. apply search_searched in Eb; [|assumption].
  assert (Zc : zero_safe (op_or a b) = true) by (cbn; rewrite Za, Zb; reflexivity).
  apply search_searched in Ec; [|assumption].
  pose proof (at_either a b Ha Hb) as P.
  (* the other direction *)
  assert (Q : forall p d, at_ a p (Ok d) -> exists c, at_ (op_or a b) p (Ok c)).
  { intros p d (k & K & _). destruct (attempt_whole opt (arr_view s) (arr_view s) f a b Ha Hb k p tail_starts eq_refl eq_refl) as (m & M).
    - change (attempt opt k s f a p <> Fuel). congruence.
    - change (attempt opt k s f a p = No -> attempt opt k s f b p <> Fuel). congruence.
    - change (either a b (attempt opt k s f a p) (attempt opt k s f b p) (attempt opt m s f (op_or a b) p)) in M. rewrite K in M. cbn [either] in M.
      destruct M as (c' & E & _). exists c', m. split; [exact E|discriminate]. }
  assert (Found : forall r d, searched r d -> matched d = true -> exists q, q <= length s /\ at_ r q (Ok d) /\ forall p, p < q -> at_ r p No).
  { intros r d [H|[H _]] M; [exact H|congruence]. }
  destruct Ec as [(q & Q1 & Q2 & Q3)|(Q1 & Q2 & Q0 & Q3)].
  - (* found at q *)
    destruct (P _ _ Q2) as [(d & D1 & D2)|(D0 & d & D1 & D2)].
    + destruct (at_start a q d Wa Q1 D1) as (M1 & M2).
      assert (ca = d).
      { destruct Ea as [(i & I1 & I2 & I3)|(I1 & I2)]; [|destruct I2 as [I2 _]; destruct (I2 q Q1 d D1)].
        destruct (Nat.lt_trichotomy i q) as [L|[->|L]].
        - destruct (P _ _ (Q3 i L)) as [X _]. pose proof (at_fun _ _ _ _ I2 X). discriminate.
        - pose proof (at_fun _ _ _ _ I2 D1) as X. congruence.
        - pose proof (at_fun _ _ _ _ (I3 q L) D1). discriminate. }
      subst d. assert (W : wins ca cb).
      { split; [exact M1|]. destruct (matched cb) eqn:B; [|left; reflexivity]. right. destruct (Found b cb Eb B) as (j & J1 & J2 & _).
        destruct (at_start b j cb Wb J1 J2) as (_ & N2). exists q, j. split; [exact M2|]. split; [exact N2|].
        destruct (le_lt_dec q j) as [L|L]; [exact L|]. destruct (P _ _ (Q3 j L)) as [_ X]. pose proof (at_fun _ _ _ _ J2 X). discriminate. }
      split; [rewrite (report_matched _ _ _ D2), M1; reflexivity|]. split; [intros _; exact D2|]. intros _ X. destruct (X W).
    + destruct (at_start b q d Wb Q1 D1) as (M1 & M2).
      assert (cb = d).
      { destruct Eb as [(i & I1 & I2 & I3)|(I1 & I2)]; [|destruct I2 as [I2 _]; destruct (I2 q Q1 d D1)].
        destruct (Nat.lt_trichotomy i q) as [L|[->|L]].
        - destruct (P _ _ (Q3 i L)) as [_ X]. pose proof (at_fun _ _ _ _ I2 X). discriminate.
        - pose proof (at_fun _ _ _ _ I2 D1) as X. congruence.
        - pose proof (at_fun _ _ _ _ (I3 q L) D1). discriminate. }
      subst d. split; [rewrite (report_matched _ _ _ D2), M1; destruct (matched ca); reflexivity|]. split; [|intros _ _; exact D2].
      intros (W1 & [W2|(i & j & W2 & W3 & W4)]); [congruence|]. exfalso. destruct (Found a ca Ea W1) as (k & K1 & K2 & _).
      destruct (at_start a k ca Wa K1 K2) as (_ & N2). rewrite N2 in W2. injection W2 as <-. rewrite M2 in W3. injection W3 as <-.
      destruct (Nat.eq_dec k q) as [->|]; [|assert (L : k < q) by lia; destruct (P _ _ (Q3 k L)) as [X _]; pose proof (at_fun _ _ _ _ K2 X); discriminate].
      pose proof (at_fun _ _ _ _ K2 D0). discriminate.
  - (* not found *)
    assert (Ma : matched ca = false).
    { destruct (matched ca) eqn:M; [|reflexivity]. exfalso. destruct (Found a ca Ea M) as (k & K1 & K2 & _). destruct (Q k ca K2) as (c' & X). exact (Q2 k K1 c' X). }
    assert (Mb : matched cb = false).
    { destruct (matched cb) eqn:M; [|reflexivity]. exfalso. destruct (Found b cb Eb M) as (k & K1 & K2 & _).
      destruct (starts_with_anchor f (op_or a b)) eqn:E.
      - cbn in E. apply andb_true_iff in E as [_ E]. apply andb_true_iff in E as [E _]. destruct (Nat.eq_dec k 0) as [->|Hk].
        + destruct (P _ _ Q0) as [_ X]. pose proof (at_fun _ _ _ _ K2 X). discriminate.
        + destruct K2 as (m & K2 & _). apply (anchored_nowhere_else opt m s f b k cb Zb E ltac:(lia) K2).
      - destruct (P _ _ (Q3 eq_refl k K1)) as [_ X]. pose proof (at_fun _ _ _ _ K2 X). discriminate. }
    split; [rewrite Q1, Ma, Mb; reflexivity|]. split; [intros [W _]; congruence|congruence].
Qed.
End Search.

(** No reading out of bounds. *)
Lemma sum_no_ub : forall opt s f r, sum r -> forall n p tl, tl = tail_match \/ tl = tail_starts -> p <= length s ->
  run opt (arr_view s) (arr_view s) f n p r tl <> UB.
Proof.
  intros opt s f r Hr. induction Hr as [r _ Hw|a b Ha IHa Hb IHb]; intros n p tl Htl Hp E.
  - unfold run in E. pose proof (attempt_spec opt n s f r p tl Hw Hp) as Y. rewrite E in Y. cbn [from_suffix] in Y.
    destruct Y as (n' & q & f' & c1 & _ & Y & Hq & _). symmetry in Y. destruct Htl as [->| ->].
    + revert Y. unfold tail_match. destruct n' as [|[|[|n']]]; cbn [eval eval_assert arr_view vend vconv or_ub]; try discriminate;
        destruct (Nat.eqb q (length s)); cbn; try discriminate; destruct (f_block f'); discriminate.
    + revert Y. unfold tail_starts. destruct n' as [|[|n']]; cbn [eval arr_view vconv]; try discriminate; destruct (f_block f'); discriminate.
  - assert (Pt : plain_tail tl = true) by (destruct Htl as [->| ->]; reflexivity).
    destruct (attempt_parts opt (arr_view s) (arr_view s) f a b (sum_closed a Ha) (sum_closed b Hb) n p tl Pt eq_refl) as (k & K); [rewrite E; discriminate|]. rewrite E in K.
    specialize (IHa k p tl Htl Hp). specialize (IHb k p tl Htl Hp).
    unfold either in K. destruct (run opt (arr_view s) (arr_view s) f k p a tl); try discriminate; try congruence.
    + destruct K as (c & K & _). discriminate.
    + destruct (run opt (arr_view s) (arr_view s) f k p b tl); try discriminate; try congruence.
      destruct K as (c & K & _). discriminate.
Qed.
Theorem either_answers : forall m opt s f r, sum r -> terminating r = true -> compiles opt true r (tail_of m) = true ->
  exists c, answers (fun n => on_array m opt n s f r) c.
Proof.
  intros m opt s f r Hr Ht Hc. pose proof (sum_no_ub opt s f r Hr) as U. apply answered.
  - destruct m; [apply match_settles|apply starts_settles|apply search_settles]; assumption.
  - intros n. apply exec_never_no.
  - intros n E. unfold on_array in E. destruct m; cbn [exec] in E.
    + unfold exec_match in E. apply (U n 0 tail_match); [left; reflexivity|lia|]. unfold run, tail_match. destruct (eval opt n _ _ _ _ _ _); try discriminate. reflexivity.
    + unfold exec_starts_with in E. apply (U n 0 tail_starts); [right; reflexivity|lia|]. unfold run, tail_starts. destruct (eval opt n _ _ _ _ _ _); try discriminate. reflexivity.
    + unfold exec_search in E.
      assert (X : forall k it, it <= length s -> search_loop opt n (arr_view s) (arr_view s) f r k it <> UB); [|exact (X n 0 (Nat.le_0_l _) E)].
      clear E. induction k as [|k IH]; intros it Hit; cbn [search_loop arr_view vend or_ub]; [discriminate|]. fold (arr_view s).
      pose proof (U n it tail_starts (or_intror eq_refl) Hit) as V. unfold run, tail_starts in V.
      destruct (Nat.eqb_spec it (length s)) as [E|E]; cbn [negb andb].
      * unfold search_last. destruct (eval opt n _ _ _ _ _ _); congruence.
      * destruct (negb (starts_with_anchor f r)).
        -- destruct (eval opt n _ _ _ _ _ _); try congruence. cbn [vnext arr_view]. assert (L : it < length s) by lia.
           apply Nat.ltb_lt in L as L'. rewrite L'. cbn [or_ub]. apply IH. exact L.
        -- unfold search_last. destruct (eval opt n _ _ _ _ _ _); congruence.
  - intros n. eapply exec_no_ill; [apply arr_views|assumption].
Qed.

(** * One pattern after the other *)
Definition fully (opt : bool) (f : flags) (r : re) (s : list Z) : Prop := exists n c, ctre_match opt n s f r = Ok c /\ matched c = true.
(** The conditions under which a call is right (C48), for a regular pattern. *)
Definition plain_sailing (opt : bool) (f : flags) (r : re) : Prop :=
  well_numbered r /\ regular r = true /\ scope_check f r = true /\ terminating r = true /\ msound_check opt f r = true /\ right_check opt f r MMatch = true.
Lemma sailing : forall opt f r s, plain_sailing opt f r -> forallb val_ok s = true ->
  exists c, answers (fun n => ctre_match opt n s f r) c /\ (matched c = true <-> word (textbook f r) s) /\ (fully opt f r s <-> word (textbook f r) s).
Proof.
  intros opt f r s (H1 & H2 & H3 & H4 & H5 & H6) Hs. destruct (match_right opt s f r Hs H1 H4 H5 H6) as (c & A & B & _).
  rewrite (whole_accepts s f r H2 H3), accepts_word in B. exists c. split; [exact A|]. split; [exact B|]. destruct A as (n & A). rewrite <- B. split.
  - intros (m & d & E & M). assert (X : ctre_match opt (n + m) s f r = Ok c) by (apply A; lia).
    assert (Y : ctre_match opt (n + m) s f r = Ok d) by (apply (exec_mono MMatch opt m (n + m) (arr_view s) (arr_view s) f r 0 d ltac:(lia) E)). congruence.
  - intros M. exists n, c. split; [apply A; lia|exact M].
Qed.
Theorem then_match : forall opt s f a b, forallb val_ok s = true -> (forall k, a <> RMode k) ->
  plain_sailing opt f a -> plain_sailing opt f b -> plain_sailing opt f (op_then a b) ->
  exists c, answers (fun n => ctre_match opt n s f (op_then a b)) c /\
    (matched c = true <-> exists s1 s2, s = s1 ++ s2 /\ fully opt f a s1 /\ fully opt f b s2).
Proof.
  intros opt s f a b Hs Hk Ha Hb Hc. destruct (sailing opt f (op_then a b) s Hc Hs) as (c & A & B & _). exists c. split; [exact A|]. rewrite B.
  assert (W : word (textbook f (op_then a b)) s <-> exists s1 s2, s = s1 ++ s2 /\ word (textbook f a) s1 /\ word (textbook f b) s2).
  { unfold textbook, op_then. change (denote (mode_of f) (RSeq [a; b])) with (denotes (mode_of f) [a; b]).
    assert (E : denotes (mode_of f) [a; b] = XCat (denote (mode_of f) a) (denotes (mode_of f) [b])) by (destruct a; try reflexivity; destruct (Hk m eq_refl)).
    rewrite E, word_cat. assert (F : forall x, word (denotes (mode_of f) [b]) x <-> word (denote (mode_of f) b) x).
    { intros x. destruct b; cbn [denotes]; try (rewrite word_cat; split;
        [intros (x1 & x2 & -> & X1 & X2); apply word_eps in X2; subst x2; rewrite app_nil_r; exact X1
        |intros X; exists x, []; rewrite app_nil_r; split; [reflexivity|split; [exact X|constructor]]]).
      cbn [denote]. reflexivity. }
    split; intros (s1 & s2 & H1 & H2 & H3); exists s1, s2; (split; [exact H1|split; [exact H2|apply F; exact H3]]). }
  rewrite W. split; intros (s1 & s2 & -> & H1 & H2); exists s1, s2; (split; [reflexivity|]);
    rewrite forallb_app in Hs; apply andb_true_iff in Hs as [V1 V2];
    destruct (sailing opt f a s1 Ha V1) as (_ & _ & _ & X1); destruct (sailing opt f b s2 Hb V2) as (_ & _ & _ & X2);
    (split; [apply X1; exact H1|apply X2; exact H2]).
Qed.
