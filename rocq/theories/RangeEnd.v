(** Exactly when the loops over search_all, tokenize and split end, in terms of the outcomes of the pattern. *)
From Coq Require Import List ZArith NArith Bool Arith Lia.
From Verif Require Import Chars Syntax First View Eval Api Spec CharProofs EvalMono EvalInv SpecProps ApiProofs Checks EvalSound
  Match Term Anchor Iter IterProofs Views RangeSim Mode ModeSem ModeEnum ModeCalls ModeOpt ModeRefine Follow ModeTop Compiles Total RangeSpec.
Import ListNotations.

(** A match that leads on: it is not empty, or it is the last one anyway. *)
Definition leads_on (len : nat) (x : nat * state) : Prop := fst x < fst (snd x) \/ fst (snd x) = len.
Definition nonempty (x : nat * state) : Prop := fst x < fst (snd x).

Section Generic.
Variables (s : list Z) (r : re) (ex : nat -> nat -> res caps) (look : nat -> option (nat * state)).
Let len := length s.
Let v := arr_view s.
Hypothesis ex_ans : forall p, p <= len -> exists c N, forall n, N <= n -> ex n p = Ok c.
Hypothesis ex_look : forall n p c, p <= len -> ex n p = Ok c ->
  match look p with
  | Some (b, (e, lg)) => matched c = true /\ p <= b <= e /\ e <= len /\ s_beg (c0 c) = Some b /\ s_end (c0 c) = Some e /\ reports r c (b, (e, lg))
  | None => matched c = false
  end.
Hypothesis look_again : forall p b lg, p <= len -> look p = Some (b, (b, lg)) -> look b = Some (b, (b, lg)).

Fixpoint list_from (fuel : nat) (start : bool) (p : nat) : list (nat * state) :=
  match fuel with
  | O => []
  | S fuel' =>
      if negb start && Nat.eqb p len then []
      else match look p with
           | Some (b, st) => (b, st) :: list_from fuel' false (fst st)
           | None => []
           end
  end.

Lemma loop_ends : forall fuel p c, p <= len -> len - p <= fuel -> matched c = true ->
  Forall (leads_on len) (list_from fuel false p) ->
  exists l N, (forall n k, N <= n -> N <= k -> ri_loop (ex n) v r k (mkRiter p c) = Ok (c :: l)) /\
    Forall2 (reports r) l (list_from fuel false p).
Proof. clear look_again.
  induction fuel as [|fuel IH]; intros p c Hp Hf Hm HA.
  all: destruct (Nat.eq_dec p len) as [->|Hne];
    [exists [], 2; split; [intros n [|[|k]] _ Hk; try lia; cbn [ri_loop]; unfold ri_ne_end; cbn [ri_match]; rewrite Hm; unfold ri_next;
       cbn [ri_cur]; unfold v; cbn [arr_view vend or_ub]; fold len; rewrite Nat.eqb_refl; reflexivity
      |cbn [list_from]; rewrite ?Nat.eqb_refl; constructor]|].
  - lia.
  - cbn [list_from] in *. destruct (Nat.eqb_spec p len) as [|_]; [contradiction|]. cbn [negb andb] in *.
    destruct (ex_ans p Hp) as (c1 & N1 & H1). pose proof (ex_look N1 p c1 Hp (H1 N1 (le_n _))) as L.
    assert (Next : forall n k, N1 <= n -> ri_loop (ex n) v r (S k) (mkRiter p c) =
      bind (ri_advance p c1) (fun it' => bind (ri_loop (ex n) v r k it') (fun l => Ok (c :: l)))).
    { intros n k Hn. cbn [ri_loop]. unfold ri_ne_end. cbn [ri_match]. rewrite Hm. unfold ri_next. cbn [ri_cur v arr_view vend or_ub].
      destruct (Nat.eqb_spec p (length s)); [contradiction|]. rewrite H1 by assumption. reflexivity. }
    destruct (look p) as [[b [e lg]]|].
    + destruct L as (M & L1 & L2 & L3 & L4 & L5). inversion HA as [|? ? A1 A2]; subst. cbn [fst snd] in *.
      assert (Hpe : p < e) by (destruct A1; cbn [fst snd] in *; lia).
      destruct (IH e c1 L2 ltac:(lia) M A2) as (l & N2 & I1 & I2). exists (c1 :: l), (S (max N1 N2)). split; [|constructor; assumption].
      intros n [|k] Hn Hk; [lia|]. rewrite Next by lia. unfold ri_advance. rewrite M, L4. cbn [or_ub bind].
      rewrite I1 by lia. reflexivity.
    + exists [], (S (S N1)). split; [|constructor]. intros n [|[|k]] Hn Hk; try lia. rewrite Next by lia. unfold ri_advance.
      rewrite L. cbn [bind ri_loop]. unfold ri_ne_end. cbn [ri_match]. rewrite L. reflexivity.
Qed.
Lemma loop_stuck : forall n p lg, p < len -> look p = Some (p, (p, lg)) -> forall k c l, matched c = true ->
  ri_loop (ex n) v r k (mkRiter p c) <> Ok l.
Proof. clear ex_ans look_again.
  intros n p lg Hp Hl. induction k as [|k IH]; intros c l Hm H; [discriminate|].
  cbn [ri_loop] in H. unfold ri_ne_end in H. cbn [ri_match] in H. rewrite Hm in H. unfold ri_next in H. cbn [ri_cur v arr_view vend or_ub] in H.
  destruct (Nat.eqb_spec p (length s)); [unfold len in *; lia|]. apply bind_ok in H as (it & H1 & H2).
  apply bind_ok in H1 as (c1 & H0 & H1). pose proof (ex_look n p c1 ltac:(lia) H0) as L. rewrite Hl in L.
  destruct L as (M & _ & _ & _ & L4 & _). unfold ri_advance in H1. rewrite M, L4 in H1. cbn [or_ub] in H1. injection H1 as <-.
  apply bind_ok in H2 as (l' & H2 & _). exact (IH c1 l' M H2).
Qed.
Lemma leads_dec : forall x, {leads_on len x} + {~ leads_on len x}.
Proof. clear ex_ans ex_look look_again. intros [b [e lg]]. unfold leads_on. cbn [fst snd]. destruct (lt_dec b e); [left; lia|]. destruct (Nat.eq_dec e len); [left; lia|right; lia]. Qed.
Lemma loop_never : forall fuel p c n k l, p <= len -> matched c = true -> ~ Forall (leads_on len) (list_from fuel false p) ->
  ri_loop (ex n) v r k (mkRiter p c) <> Ok l.
Proof. clear ex_ans.
  induction fuel as [|fuel IH]; intros p c n k l Hp Hm HA H; cbn [list_from] in HA; [apply HA; constructor|].
  destruct (Nat.eqb_spec p len) as [|Hne]; cbn [negb andb] in HA; [apply HA; constructor|].
  destruct (look p) as [[b [e lg]]|] eqn:Hl; [|apply HA; constructor]. cbn [fst] in HA.
  destruct k as [|k]; [discriminate|].
  cbn [ri_loop] in H. unfold ri_ne_end in H. cbn [ri_match] in H. rewrite Hm in H. unfold ri_next in H. cbn [ri_cur v arr_view vend or_ub] in H.
  destruct (Nat.eqb_spec p (length s)); [contradiction|]. apply bind_ok in H as (it & H1 & H2).
  apply bind_ok in H1 as (c1 & H0 & H1). pose proof (ex_look n p c1 Hp H0) as L. rewrite Hl in L.
  destruct L as (M & L1 & L2 & _ & L4 & _). unfold ri_advance in H1. rewrite M, L4 in H1. cbn [or_ub] in H1. injection H1 as <-.
  apply bind_ok in H2 as (l' & H2 & _).
  destruct (leads_dec (b, (e, lg))) as [A|A].
  - apply (IH e c1 n k l' L2 M); [|exact H2]. intros F. apply HA. constructor; assumption.
  - unfold leads_on in A. cbn [fst snd] in A. assert (b = e) by lia. subst e.
    apply (loop_stuck n b lg ltac:(lia) (look_again p b lg Hp Hl) k c1 l' M H2).
Qed.
Lemma all_ends : Forall (leads_on len) (list_from (S len) true 0) ->
  exists l N, (forall n, N <= n -> ri_all (ex n) v r n = Ok l) /\ Forall2 (reports r) l (list_from (S len) true 0).
Proof. clear look_again.
  cbn [list_from negb andb]. intros HA. destruct (ex_ans 0 ltac:(lia)) as (c1 & N1 & H1).
  pose proof (ex_look N1 0 c1 ltac:(lia) (H1 N1 (le_n _))) as L. destruct (look 0) as [[b [e lg]]|].
  - destruct L as (M & L1 & L2 & L3 & L4 & L5). inversion HA as [|? ? A1 A2]; subst. cbn [fst snd] in *.
    destruct (loop_ends len e c1 L2 ltac:(lia) M A2) as (l & N2 & I1 & I2). exists (c1 :: l), (max N1 N2). split; [|constructor; assumption].
    intros n Hn. unfold ri_all, ri_begin. rewrite H1 by lia. cbn [bind]. unfold ri_advance. rewrite M, L4. cbn [or_ub bind]. apply I1; lia.
  - exists [], (S N1). split; [|constructor]. intros [|n] Hn; [lia|]. unfold ri_all, ri_begin. rewrite H1 by lia. cbn [bind]. unfold ri_advance. rewrite L.
    cbn [bind ri_loop]. unfold ri_ne_end. cbn [ri_match]. rewrite L. reflexivity.
Qed.
Lemma all_never : ~ Forall (leads_on len) (list_from (S len) true 0) -> forall n l, ri_all (ex n) v r n <> Ok l.
Proof. clear ex_ans.
  cbn [list_from negb andb]. intros HA n l H. destruct (look 0) as [[b [e lg]]|] eqn:Hl; [|apply HA; constructor]. cbn [fst] in HA.
  unfold ri_all, ri_begin in H. apply bind_ok in H as (it & H1 & H2). apply bind_ok in H1 as (c1 & H0 & H1).
  pose proof (ex_look n 0 c1 ltac:(lia) H0) as L. rewrite Hl in L. destruct L as (M & L1 & L2 & _ & L4 & _).
  unfold ri_advance in H1. rewrite M, L4 in H1. cbn [or_ub] in H1. injection H1 as <-.
  destruct (leads_dec (b, (e, lg))) as [A|A].
  - apply (loop_never len e c1 n n l L2 M); [|exact H2]. intros F. apply HA. constructor; assumption.
  - unfold leads_on in A. cbn [fst snd] in A. assert (b = e) by lia. subst e.
    apply (loop_stuck n b lg ltac:(lia) (look_again 0 b lg ltac:(lia) Hl) n c1 l M H2).
Qed.
Lemma leads_decided : {Forall (leads_on len) (list_from (S len) true 0)} + {~ Forall (leads_on len) (list_from (S len) true 0)}.
Proof. apply Forall_dec, leads_dec. Qed.

(** * split *)
Section Split.
(** What a failing search leaves behind: the end mark of the subject ... *)
Hypothesis ex_none : forall n p c, p <= len -> ex n p = Ok c -> look p = None -> c = set_end_mark len (fresh r).
Fixpoint cuts_from (fuel p : nat) : list (nat * state) :=
  match fuel with
  | O => []
  | S fuel' => match look p with Some (b, st) => (b, st) :: cuts_from fuel' (fst st) | None => [] end
  end.
Hypothesis ids : ~ In 0 (map fst (find_captures r)).

Lemma piece_reports : forall c p b e lg, matched c = true -> reports r c (b, (e, lg)) ->
  reports r (set_start_mark p (set_end_mark b c)) (p, (b, lg)).
Proof.
  intros c p b e lg M [_ R]. split; [apply piece_span; exact M|]. intros id Hid. rewrite group_marks; [apply R; exact Hid|].
  intros ->. exact (ids Hid).
Qed.
Lemma rest_reports : forall p, reports r (set_matched (set_start_mark p (set_end_mark len (fresh r)))) (p, (len, [])).
Proof.
  intros p. unfold len. split; [apply rest_span|]. intros id Hid. cbn [snd]. rewrite rest_groups; [reflexivity|]. intros ->. exact (ids Hid).
Qed.
Lemma split_loop_ends : forall fuel p c, p <= len -> len - p < fuel -> matched c = true -> Forall nonempty (cuts_from fuel p) ->
  exists l N, (forall n k, N <= n -> N <= k -> si_loop (ex n) v r k (mkSiter p c false) = Ok (c :: l)) /\
    Forall2 (reports r) l (pieces s p (cuts_from fuel p)).
Proof. clear look_again.
  induction fuel as [|fuel IH]; intros p c Hp Hf Hm HA; [lia|]. cbn [cuts_from] in *.
  destruct (ex_ans p Hp) as (c1 & N1 & H1). pose proof (ex_look N1 p c1 Hp (H1 N1 (le_n _))) as L.
  assert (Next : forall n k, N1 <= n -> si_loop (ex n) v r (S k) (mkSiter p c false) =
    bind (si_take p false c1) (fun it' => bind (si_loop (ex n) v r k it') (fun l => Ok (c :: l)))).
  { intros n k Hn. cbn [si_loop]. unfold si_ne_end. cbn [si_match]. rewrite Hm. unfold si_next. cbn [si_cur si_last v arr_view vend or_ub].
    rewrite andb_false_r. rewrite H1 by assumption. reflexivity. }
  destruct (look p) as [[b [e lg]]|] eqn:Hl.
  - destruct L as (M & L1 & L2 & L3 & L4 & L5). inversion HA as [|? ? A1 A2]; subst. unfold nonempty in A1. cbn [fst snd] in *.
    set (c2 := set_start_mark p (set_end_mark b c1)).
    destruct (IH e c2 L2 ltac:(lia) M A2) as (l & N2 & I1 & I2). exists (c2 :: l), (S (max N1 N2)). split.
    + intros n [|k] Hn Hk; [lia|]. rewrite Next by lia. unfold si_take. rewrite M. unfold modify_match. rewrite L3, L4. cbn [or_ub bind].
      fold c2. rewrite I1 by lia. reflexivity.
    + cbn [pieces]. constructor; [|exact I2]. eapply piece_reports; eassumption.
  - pose proof (ex_none N1 p c1 Hp (H1 N1 (le_n _)) Hl) as E.
    exists [set_matched (set_start_mark p c1)], (S (S (S N1))). split; [|constructor; [rewrite E; apply rest_reports|constructor]].
    intros n [|[|[|k]]] Hn Hk; try lia. rewrite Next by lia. unfold si_take. rewrite L. unfold match_rest. rewrite E at 1.
    cbn [c0 s_end set_matched set_start_mark set_end_mark or_ub bind]. rewrite E.
    unfold v, len. rewrite si_rest by reflexivity. reflexivity.
Qed.
Lemma split_loop_stuck : forall n p lg, p <= len -> look p = Some (p, (p, lg)) -> forall k c l, matched c = true ->
  si_loop (ex n) v r k (mkSiter p c false) <> Ok l.
Proof. clear ex_ans ex_none ids look_again.
  intros n p lg Hp Hl. induction k as [|k IH]; intros c l Hm H; [discriminate|].
  cbn [si_loop] in H. unfold si_ne_end in H. cbn [si_match] in H. rewrite Hm in H. unfold si_next in H. cbn [si_cur si_last v arr_view vend or_ub] in H.
  rewrite andb_false_r in H. apply bind_ok in H as (it & H1 & H2).
  apply bind_ok in H1 as (c1 & H0 & H1). pose proof (ex_look n p c1 Hp H0) as L. rewrite Hl in L.
  destruct L as (M & _ & _ & L3 & L4 & _). unfold si_take, modify_match in H1. rewrite M, L3, L4 in H1. cbn [or_ub] in H1. injection H1 as <-.
  apply bind_ok in H2 as (l' & H2 & _). refine (IH _ l' _ H2). exact M.
Qed.
Lemma split_loop_never : forall fuel p c n k l, p <= len -> matched c = true -> ~ Forall nonempty (cuts_from fuel p) ->
  si_loop (ex n) v r k (mkSiter p c false) <> Ok l.
Proof. clear ex_ans ex_none ids.
  induction fuel as [|fuel IH]; intros p c n k l Hp Hm HA H; cbn [cuts_from] in HA; [apply HA; constructor|].
  destruct (look p) as [[b [e lg]]|] eqn:Hl; [|apply HA; constructor]. cbn [fst] in HA.
  destruct k as [|k]; [discriminate|].
  cbn [si_loop] in H. unfold si_ne_end in H. cbn [si_match] in H. rewrite Hm in H. unfold si_next in H. cbn [si_cur si_last v arr_view vend or_ub] in H.
  rewrite andb_false_r in H. apply bind_ok in H as (it & H1 & H2).
  apply bind_ok in H1 as (c1 & H0 & H1). pose proof (ex_look n p c1 Hp H0) as L. rewrite Hl in L.
  destruct L as (M & L1 & L2 & L3 & L4 & _). unfold si_take, modify_match in H1. rewrite M, L3, L4 in H1. cbn [or_ub] in H1. injection H1 as <-.
  apply bind_ok in H2 as (l' & H2 & _).
  destruct (lt_dec b e) as [A|A].
  - refine (IH e _ n k l' L2 _ _ H2); [exact M|]. intros F. apply HA. constructor; assumption.
  - assert (b = e) by lia. subst e. refine (split_loop_stuck n b lg L2 (look_again p b lg Hp Hl) k _ l' _ H2). exact M.
Qed.
Lemma split_all_ends : Forall nonempty (cuts_from (S len) 0) ->
  exists l N, (forall n, N <= n -> si_all (ex n) v r n = Ok l) /\ Forall2 (reports r) l (pieces s 0 (cuts_from (S len) 0)).
Proof. clear look_again.
  cbn [cuts_from]. intros HA. destruct (ex_ans 0 ltac:(lia)) as (c1 & N1 & H1).
  pose proof (ex_look N1 0 c1 ltac:(lia) (H1 N1 (le_n _))) as L. destruct (look 0) as [[b [e lg]]|] eqn:Hl.
  - destruct L as (M & L1 & L2 & L3 & L4 & L5). inversion HA as [|? ? A1 A2]; subst. unfold nonempty in A1. cbn [fst snd] in *.
    set (c2 := set_start_mark 0 (set_end_mark b c1)).
    destruct (split_loop_ends len e c2 L2 ltac:(lia) M A2) as (l & N2 & I1 & I2). exists (c2 :: l), (max N1 N2). split.
    + intros n Hn. unfold si_all, si_begin. rewrite H1 by lia. cbn [bind]. unfold si_take, modify_match. rewrite M, L3, L4. cbn [or_ub bind]. apply I1; lia.
    + cbn [pieces]. constructor; [|exact I2]. eapply piece_reports; eassumption.
  - pose proof (ex_none N1 0 c1 ltac:(lia) (H1 N1 (le_n _)) Hl) as E.
    exists [set_matched (set_start_mark 0 c1)], (S (S N1)). split; [|constructor; [rewrite E; apply rest_reports|constructor]].
    intros [|[|n]] Hn; try lia. unfold si_all, si_begin. rewrite H1 by lia. cbn [bind]. unfold si_take. rewrite L. unfold match_rest. rewrite E at 1.
    cbn [c0 s_end set_matched set_start_mark set_end_mark or_ub bind]. rewrite E.
    unfold v, len. rewrite si_rest by reflexivity. reflexivity.
Qed.
Lemma split_all_never : forall fuel, ~ Forall nonempty (cuts_from fuel 0) -> forall n l, si_all (ex n) v r n <> Ok l.
Proof. clear ex_ans ex_none ids.
  intros [|fuel]; cbn [cuts_from]; intros HA n l H; [apply HA; constructor|].
  destruct (look 0) as [[b [e lg]]|] eqn:Hl; [|apply HA; constructor]. cbn [fst] in HA.
  unfold si_all, si_begin in H. apply bind_ok in H as (it & H1 & H2). apply bind_ok in H1 as (c1 & H0 & H1).
  pose proof (ex_look n 0 c1 ltac:(lia) H0) as L. rewrite Hl in L. destruct L as (M & L1 & L2 & L3 & L4 & _).
  unfold si_take, modify_match in H1. rewrite M, L3, L4 in H1. cbn [or_ub] in H1. injection H1 as <-.
  destruct (lt_dec b e) as [A|A].
  - refine (split_loop_never fuel e _ n n l L2 _ _ H2); [exact M|]. intros F. apply HA. constructor; assumption.
  - assert (b = e) by lia. subst e. refine (split_loop_stuck n b lg L2 (look_again 0 b lg ltac:(lia) Hl) n _ l _ H2). exact M.
Qed.
End Split.
End Generic.

(** * The three ranges *)
Section Ranges.
Variables (opt : bool) (s : list Z) (f : flags) (r : re).
Hypothesis s_ok : forallb val_ok s = true.
Hypothesis Hw : well_numbered r.
Hypothesis Ht : terminating r = true.
Hypothesis Hp : mpriority_check opt f r tail_starts = true.
Hypothesis Hc : compiles opt true r tail_starts = true.
Let len := length s.
Let v := arr_view s.
Notation first_at := (first_at s f r).

Lemma exec_answers : forall a p, a <> MMatch -> p <= len -> exists c N, forall n, N <= n -> exec a opt n v v f r p = Ok c.
Proof.
  intros a p Ha Hl. apply (answered (fun n => exec a opt n v v f r p)).
  - destruct a; [contradiction| |]; cbn [exec]; [apply starts_settles_at|apply search_settles_at]; assumption.
  - intros n. apply exec_never_no.
  - intros n. apply exec_no_ub; assumption.
  - intros n. eapply exec_no_ill; [apply arr_views|]. destruct a; [contradiction| |]; exact Hc.
Qed.
Lemma never_fuel : forall a, (forall n l, range_array a opt n s f r <> Ok l) -> forall n, range_array a opt n s f r = Fuel.
Proof.
  intros a H n. pose proof (range_clean opt s f r Hc a n) as [C1 C2]. pose proof (range_no_ub a opt n s f r Hw) as C3.
  specialize (H n). destruct (range_array a opt n s f r) as [l| | | |]; try contradiction; [destruct (H l); reflexivity|reflexivity].
Qed.

(** Leftmost from [p] on, and at [p] only. *)
Definition next_match (p : nat) : option (nat * state) := leftmost s f r (len - p) p.
Definition next_token (p : nat) : option (nat * state) := match first_at p with Some st => Some (p, st) | None => None end.
Lemma matches_list : forall fuel start p, matches_from s f r fuel start p = list_from s next_match fuel start p.
Proof. induction fuel as [|fuel IH]; intros start p; [reflexivity|]. cbn [matches_from list_from]. fold len. fold (next_match p).
  destruct (negb start && Nat.eqb p len); [reflexivity|]. destruct (next_match p) as [[b st]|]; [rewrite IH|]; reflexivity. Qed.
Lemma tokens_list : forall fuel start p, tokens_from s f r fuel start p = list_from s next_token fuel start p.
Proof. induction fuel as [|fuel IH]; intros start p; [reflexivity|]. cbn [tokens_from list_from]. unfold next_token at 1.
  destruct (negb start && Nat.eqb p (length s)); [reflexivity|]. destruct (first_at p) as [st|]; [rewrite IH|]; reflexivity. Qed.

Lemma search_look : zero_safe r = true -> forall n p c, p <= len -> exec_search opt n v v f r p = Ok c ->
  match next_match p with
  | Some (b, (e, lg)) => matched c = true /\ p <= b <= e /\ e <= len /\ s_beg (c0 c) = Some b /\ s_end (c0 c) = Some e /\ reports r c (b, (e, lg))
  | None => matched c = false
  end.
Proof.
  intros Hz n p c Hl H. unfold next_match. apply search_from in H; try assumption.
  destruct H as [(M & q & e & Q1 & Q2 & Q3 & Q4 & Q5 & Q6 & Q7) | (M & N & _)].
  - destruct (finds_first opt s f r s_ok Hw Hp q c ltac:(lia) Q3) as (e' & lg & F1 & F2 & F3).
    assert (e' = e) by congruence. subst e'.
    rewrite (leftmost_some opt s f r (len - p) p q (e, lg)); [|unfold len in *; lia|exact F1|].
    + repeat split; try assumption; try lia.
    + intros q' Hq. apply (misses_first opt s f r s_ok Hw Ht Hp Hc); [lia|]. apply Q4. exact Hq.
  - rewrite (leftmost_none opt); [exact M|]. intros q Hq. apply (misses_first opt s f r s_ok Hw Ht Hp Hc); [unfold len in *; lia|]. apply N. unfold len in *. lia.
Qed.
Lemma token_look : forall n p c, p <= len -> exec_starts_with opt n v v f r p = Ok c ->
  match next_token p with
  | Some (b, (e, lg)) => matched c = true /\ p <= b <= e /\ e <= len /\ s_beg (c0 c) = Some b /\ s_end (c0 c) = Some e /\ reports r c (b, (e, lg))
  | None => matched c = false
  end.
Proof.
  intros n p c Hl H. unfold next_token. apply starts_from in H; try assumption. destruct H as [(M & Q3 & e & Q1 & Q6 & Q7) | (M & N)].
  - destruct (finds_first opt s f r s_ok Hw Hp p c Hl Q3) as (e' & lg & F1 & F2 & F3).
    assert (e' = e) by congruence. subst e'. rewrite F1. repeat split; try assumption; try lia.
    destruct Q3 as [m Q3]. apply found in Q3; try assumption. destruct Q3 as (_ & ? & E1 & _). exact E1.
  - rewrite (misses_first opt s f r s_ok Hw Ht Hp Hc p Hl N). exact M.
Qed.
Lemma leftmost_from : forall d p b st, leftmost s f r d p = Some (b, st) -> p <= b <= p + d /\ first_at b = Some st.
Proof.
  induction d as [|d IH]; intros p b st H; cbn [leftmost] in H; destruct (first_at p) as [st'|] eqn:E; try discriminate.
  - injection H as <- <-. split; [lia|exact E].
  - injection H as <- <-. split; [lia|exact E].
  - apply IH in H as [H1 H2]. split; [lia|exact H2].
Qed.
Lemma match_again : forall p b lg, p <= len -> next_match p = Some (b, (b, lg)) -> next_match b = Some (b, (b, lg)).
Proof.
  intros p b lg Hl H. apply leftmost_from in H as [H1 H2]. unfold next_match. destruct (len - b); cbn [leftmost]; rewrite H2; reflexivity.
Qed.
Lemma token_again : forall p b lg, p <= len -> next_token p = Some (b, (b, lg)) -> next_token b = Some (b, (b, lg)).
Proof. intros p b lg _ H. unfold next_token in *. destruct (first_at p) as [st|] eqn:E; [|discriminate]. injection H as <- ->. rewrite E. reflexivity. Qed.

Theorem search_all_exact : zero_safe r = true ->
  (Forall (leads_on len) (all_matches s f r) ->
    exists l N, (forall n, N <= n -> ctre_search_all opt n s f r = Ok l) /\ Forall2 (reports r) l (all_matches s f r)) /\
  (~ Forall (leads_on len) (all_matches s f r) -> forall n, ctre_search_all opt n s f r = Fuel).
Proof.
  intros Hz. unfold all_matches. rewrite matches_list.
  assert (A : forall p, p <= length s -> exists c N, forall n, N <= n -> exec_search opt n v v f r p = Ok c).
  { intros p Hl. exact (exec_answers MSearch p ltac:(discriminate) Hl). }
  split; intros H.
  - exact (all_ends s r (fun n => exec_search opt n v v f r) next_match A (search_look Hz) H).
  - apply (never_fuel GSearchAll). intros n l.
    exact (all_never s r (fun n => exec_search opt n v v f r) next_match (search_look Hz) match_again H n l).
Qed.
Theorem tokenize_exact :
  (Forall (leads_on len) (all_tokens s f r) ->
    exists l N, (forall n, N <= n -> ctre_tokenize opt n s f r = Ok l) /\ Forall2 (reports r) l (all_tokens s f r)) /\
  (~ Forall (leads_on len) (all_tokens s f r) -> forall n, ctre_tokenize opt n s f r = Fuel).
Proof.
  unfold all_tokens. rewrite tokens_list.
  assert (A : forall p, p <= length s -> exists c N, forall n, N <= n -> exec_starts_with opt n v v f r p = Ok c).
  { intros p Hl. exact (exec_answers MStarts p ltac:(discriminate) Hl). }
  split; intros H.
  - exact (all_ends s r (fun n => exec_starts_with opt n v v f r) next_token A token_look H).
  - apply (never_fuel GTokenize). intros n l.
    exact (all_never s r (fun n => exec_starts_with opt n v v f r) next_token token_look token_again H n l).
Qed.

(** split: a match at the very end of the subject is looked for as well, and found again and again. *)
Lemma first_range : forall p e lg, p <= len -> first_at p = Some (e, lg) -> p <= e <= len.
Proof. clear s_ok Hw Ht Hp Hc.
  intros p e lg Hl H. unfold RangeSpec.first_at in H. destruct (moutcomes false s f r p) as [|x rest] eqn:M; [discriminate|].
  injection H as ->. assert (I : In (e, lg) (moutcomes false s f r p)) by (rewrite M; left; reflexivity).
  unfold moutcomes in I. apply in_map_iff in I as ([m st] & E & I). cbn [snd] in E. subst st.
  apply menum_forth in I. destruct I as [[I1 _] I2]; [split; [exact Hl|constructor]|]. cbn [fst snd] in *. unfold len. lia.
Qed.
Lemma matches_cuts : first_at len = None -> forall fuel (start : bool) p, p <= len -> matches_from s f r fuel start p = cuts_from next_match fuel p.
Proof. clear s_ok Hw Ht Hp Hc.
  intros Hn. induction fuel as [|fuel IH]; intros start p Hl; [reflexivity|]. cbn [matches_from cuts_from]. fold len. fold (next_match p).
  destruct (negb start && Nat.eqb p len) eqn:E.
  - apply andb_true_iff in E as [_ E]. apply Nat.eqb_eq in E. subst p. unfold next_match. rewrite Nat.sub_diag. cbn [leftmost]. rewrite Hn. reflexivity.
  - destruct (next_match p) as [[b [e lg]]|] eqn:L; [|reflexivity]. rewrite IH; [reflexivity|]. cbn [fst].
    apply leftmost_from in L as [L1 L2]. apply first_range in L2; [apply L2|lia].
Qed.
Lemma cuts_empty : first_at len <> None -> forall fuel p, p <= len -> len - p < fuel -> ~ Forall nonempty (cuts_from next_match fuel p).
Proof. clear s_ok Hw Ht Hp Hc.
  intros Hn. induction fuel as [|fuel IH]; intros p Hl Hf HA; [lia|]. cbn [cuts_from] in HA.
  destruct (next_match p) as [[b [e lg]]|] eqn:L.
  - inversion HA as [|? ? A1 A2]; subst. unfold nonempty in A1. cbn [fst snd] in *. apply leftmost_from in L as [L1 L2].
    apply first_range in L2; [|lia]. apply (IH e); [lia|lia|exact A2].
  - clear - Hn Hl L. apply Hn. unfold next_match in L. remember (len - p) as d eqn:E. revert p Hl E L.
    induction d as [|d IH]; intros p Hl E L; cbn [leftmost] in L; destruct (first_at p) eqn:F; try discriminate.
    + replace len with p by lia. exact F.
    + apply (IH (S p)); [lia|lia|exact L].
Qed.
Lemma no_zero : ~ In 0 (map fst (find_captures r)).
Proof.
  unfold mpriority_check, mfragment in Hp. apply andb_true_iff in Hp as [X _]. apply andb_true_iff in X as [X _].
  apply andb_true_iff in X as [X _]. eapply mwf_ids. exact X.
Qed.
(** Not anchored: nothing is found at the end of the subject, and no match is empty. *)
Definition splits : Prop := first_at len = None /\ Forall nonempty (all_matches s f r).
Lemma splits_dec : splits \/ ~ splits.
Proof.
  unfold splits. destruct (first_at len); [right; intros [H _]; discriminate|].
  destruct (Forall_dec nonempty (fun x => lt_dec (fst x) (fst (snd x))) (all_matches s f r)); [left; auto|right; tauto].
Qed.
Theorem split_exact : zero_safe r = true -> starts_with_anchor f r = false ->
  (splits -> exists l N, (forall n, N <= n -> ctre_split opt n s f r = Ok l) /\ Forall2 (reports r) l (all_pieces s f r)) /\
  (~ splits -> forall n, ctre_split opt n s f r = Fuel).
Proof.
  intros Hz Ha.
  assert (A : forall p, p <= length s -> exists c N, forall n, N <= n -> exec_search opt n v v f r p = Ok c).
  { intros p Hl. exact (exec_answers MSearch p ltac:(discriminate) Hl). }
  split.
  - intros [H1 H2]. unfold all_pieces.
    assert (E : all_matches s f r = cuts_from next_match (S len) 0) by (apply (matches_cuts H1); lia). rewrite E in H2 |- *.
    apply (split_all_ends s r (fun n => exec_search opt n v v f r) next_match A (search_look Hz)); [|exact no_zero|exact H2].
    intros n p c Hl X L. pose proof (search_look Hz n p c Hl X) as M. rewrite L in M. apply search_from in X; try assumption.
    destruct X as [(M' & _) | (_ & _ & X)]; [congruence|]. apply X. exact Ha.
  - intros H. apply (never_fuel GSplit). intros n l.
    apply (split_all_never s r (fun n => exec_search opt n v v f r) next_match (search_look Hz) match_again (S len)).
    destruct (first_at len) eqn:E.
    + apply cuts_empty; [congruence|lia|lia].
    + intros F. apply H. split; [exact E|]. unfold all_matches. fold len. rewrite (matches_cuts E (S len) true 0 ltac:(lia)). exact F.
Qed.
(** Anchored: the failing search leaves the position where it began as the end, so only a match of the whole subject (or
    nothing at all in an empty subject) ends the loop. *)
Definition anchored_splits : Prop :=
  if Nat.eqb len 0 then first_at 0 = None else exists lg, first_at 0 = Some (len, lg).
Theorem split_anchored_exact : zero_safe r = true -> starts_with_anchor f r = true ->
  (anchored_splits -> exists l N, (forall n, N <= n -> ctre_split opt n s f r = Ok l) /\ Forall2 (reports r) l (all_pieces s f r)) /\
  (~ anchored_splits -> forall n, ctre_split opt n s f r = Fuel).
Proof.
  intros Hz Ha.
  assert (A : forall p, p <= length s -> exists c N, forall n, N <= n -> exec_search opt n v v f r p = Ok c).
  { intros p Hl. exact (exec_answers MSearch p ltac:(discriminate) Hl). }
  assert (M0 : forall p, 0 < p -> misses opt s f r p).
  { intros p Hp0 c' [m Hc']. apply (anchored_nowhere_else opt m s f r p c' Hz Ha) in Hc'; [assumption|lia]. }
  assert (None0 : forall p, 0 < p -> p <= len -> first_at p = None).
  { intros p Hp0 Hl. apply (misses_first opt s f r s_ok Hw Ht Hp Hc p Hl). apply M0. exact Hp0. }
  assert (Next0 : next_match 0 = match first_at 0 with Some st => Some (0, st) | None => None end).
  { unfold next_match. destruct (first_at 0) as [st|] eqn:E.
    - destruct (len - 0); cbn [leftmost]; rewrite E; reflexivity.
    - apply (leftmost_none opt). intros q Hq. destruct q as [|q]; [exact E|]. apply None0; lia. }
  assert (NextS : forall p, 0 < p -> p <= len -> next_match p = None).
  { intros p Hp0 Hl. unfold next_match. apply (leftmost_none opt). intros q Hq. apply None0; lia. }
  assert (Left : forall n p c, p <= len -> exec_search opt n v v f r p = Ok c -> next_match p = None -> c = set_end_mark p (fresh r)).
  { intros n p c Hl E L. apply (anchored_exec opt s f r Hw n p c Hz Ha Hl); [|exact E].
    pose proof (search_look Hz n p c Hl E) as M. rewrite L in M. apply search_from in E; try assumption.
    destruct E as [(M' & _) | (_ & E & _)]; [congruence|]. apply E. lia. }
  destruct (A 0 ltac:(lia)) as (c1 & N1 & H1). pose proof (search_look Hz N1 0 c1 ltac:(lia) (H1 N1 (le_n _))) as L. rewrite Next0 in L.
  unfold anchored_splits. destruct (first_at 0) as [[e lg]|] eqn:F0.
  - destruct L as (M & L1 & L2 & L3 & L4 & L5). set (c2 := set_start_mark 0 (set_end_mark 0 c1)).
    assert (P : reports r c2 (0, (0, lg))) by (apply piece_reports with (e := e); [exact no_zero|exact M|exact L5]).
    destruct (Nat.eqb_spec len 0) as [Z0|Z0].
    + (* empty subject, found: found again *)
      split; [intros; discriminate|]. intros _. apply (never_fuel GSplit). intros n l.
      apply (split_all_never s r (fun n => exec_search opt n v v f r) next_match (search_look Hz) match_again 1).
      cbn [cuts_from]. rewrite Next0. intros FA. inversion FA as [|? ? A1 A2]; subst. unfold nonempty in A1. cbn [fst snd] in A1. lia.
    + split.
      * intros [lg' E]. injection E as -> ->.
        destruct (A len (le_n _)) as (c3 & N3 & H3). pose proof (NextS len ltac:(lia) (le_n _)) as L6.
        pose proof (Left N3 len c3 (le_n _) (H3 N3 (le_n _)) L6) as E3.
        exists [c2; set_matched (set_start_mark len c3)], (S (S (S (max N1 N3)))). split.
        { intros [|[|[|n]]] Hn; try lia. change (ctre_split opt (S (S (S n))) s f r) with (si_all (exec_search opt (S (S (S n))) v v f r) v r (S (S (S n)))).
          unfold si_all, si_begin. rewrite H1 by lia. cbn [bind]. unfold si_take, modify_match. rewrite M, L3, L4. cbn [or_ub bind].
          fold c2. remember (exec_search opt (S (S (S n))) v v f r) as ex eqn:Eex.
          assert (Hex : ex len = Ok c3) by (subst ex; apply H3; lia). clear Eex.
          cbn [si_loop]. unfold si_ne_end. cbn [si_match]. change (matched c2) with (matched c1). rewrite M.
          unfold si_next. cbn [si_cur si_last]. unfold v; cbn [arr_view vend or_ub]. rewrite andb_false_r, Hex. cbn [bind].
          unfold si_take. rewrite E3. cbn [bind or_ub match_rest matched]. change (matched (set_end_mark len (fresh r))) with false. cbv iota.
          unfold match_rest. cbn [c0 s_end set_matched set_start_mark set_end_mark or_ub bind si_match si_cur si_last]. 
          change (s_m _) with true. cbv iota. fold len. rewrite Nat.eqb_refl. cbn [andb bind]. reflexivity. }
        unfold all_pieces, all_matches. rewrite matches_list. cbn [list_from negb andb]. rewrite Next0. cbn [fst].
        assert (X : forall k, list_from s next_match k false len = []) by (intros [|k]; [reflexivity|]; cbn [list_from]; unfold len; rewrite Nat.eqb_refl; reflexivity).
        fold len. rewrite X. cbn [pieces]. constructor; [exact P|]. constructor; [|constructor]. rewrite E3. apply rest_reports. exact no_zero.
      * intros Hno. apply (never_fuel GSplit). intros n l H.
        assert (He : e <> len) by (intros ->; apply Hno; eauto).
        change (si_all (exec_search opt n v v f r) v r n = Ok l) in H. unfold si_all, si_begin in H.
        apply bind_ok in H as (it & H2 & H). apply bind_ok in H2 as (c & H2 & H3).
        pose proof (search_look Hz n 0 c ltac:(lia) H2) as K. rewrite Next0 in K. destruct K as (K & K1 & K2 & K3 & K4 & _).
        unfold si_take, modify_match in H3. rewrite K, K3, K4 in H3. cbn [or_ub] in H3. injection H3 as <-.
        destruct (Nat.eq_dec e 0) as [->|E0].
        { revert H. refine (split_loop_stuck s r (fun n => exec_search opt n v v f r) next_match (search_look Hz) n 0 lg ltac:(lia) Next0 n _ l _). exact K. }
        revert H. apply anchored_loop; try assumption; [unfold len in *; lia|apply M0; lia].
  - pose proof (Left N1 0 c1 ltac:(lia) (H1 N1 (le_n _)) Next0) as E1. destruct (Nat.eqb_spec len 0) as [Z0|Z0].
    + split; [|intros X; contradiction X; reflexivity]. intros _. exists [set_matched (set_start_mark 0 c1)], (S (S N1)). split.
      * intros [|[|n]] Hn; try lia. change (ctre_split opt (S (S n)) s f r) with (si_all (exec_search opt (S (S n)) v v f r) v r (S (S n))).
        unfold si_all, si_begin. rewrite H1 by lia. cbn [bind]. unfold si_take. rewrite L. unfold match_rest. rewrite E1 at 1.
        cbn [c0 s_end set_matched set_start_mark set_end_mark or_ub bind]. rewrite E1.
        pose proof (si_rest s r (exec_search opt (S (S n)) v v f r) (set_matched (set_start_mark 0 (set_end_mark 0 (fresh r)))) n eq_refl) as R.
        assert (Z1 : length s = 0) by exact Z0. rewrite Z1 in R. exact R.
      * unfold all_pieces, all_matches. rewrite matches_list. cbn [list_from negb andb]. rewrite Next0. cbn [pieces]. constructor; [|constructor].
        rewrite E1. pose proof (rest_reports s r no_zero 0) as R. assert (Z1 : length s = 0) by exact Z0. rewrite Z1 in *. exact R.
    + split; [intros [lg E]; discriminate|]. intros _. apply (never_fuel GSplit). intros n l H.
      change (si_all (exec_search opt n v v f r) v r n = Ok l) in H. unfold si_all, si_begin in H.
      apply bind_ok in H as (it & H2 & H). apply bind_ok in H2 as (c & H2 & H3).
      pose proof (Left n 0 c ltac:(lia) H2 Next0) as ->. unfold si_take in H3. change (matched (set_end_mark 0 (fresh r))) with false in H3.
      cbv iota in H3. unfold match_rest in H3. cbn [c0 s_end set_matched set_start_mark set_end_mark or_ub] in H3. injection H3 as <-.
      revert H. apply anchored_loop; try assumption; [unfold len in *; lia| |reflexivity].
      pose proof (search_from opt s f r Hw n 0 _ Hz ltac:(lia) H2) as [(X & _)|(_ & X & _)]; [discriminate|]. apply X. lia.
Qed.
End Ranges.
