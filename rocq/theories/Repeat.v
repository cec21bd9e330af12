(** Repetitions of a class, and the fact that possessive repetitions and atomic groups keep their first
    match. *)
From Coq Require Import List ZArith NArith Bool Lia Arith ZifyBool ZifyNat ZifyN.
From Verif Require Import Chars Syntax First View Eval Api Spec CharProofs EvalMono EvalInv EvalSem ApiProofs Match.
Import ListNotations.

Section Possessive.
Variables (opt : bool) (s : list Z).
Notation v := (arr_view s).

(** One run of the body from [p]: its first match ends in [q] with the captures [c']. *)
Definition first_match (f : flags) (l : list re) (p : nat) (c : caps) (q : nat) (c' : caps) : Prop :=
  exists n cc, eval opt n v v p (not_empty_match f) c (cycle l) = Ok cc /\ s_end (c0 cc) = Some q /\ c' = unmatch cc.
Definition no_match (f : flags) (l : list re) (p : nat) (c : caps) : Prop :=
  exists n, eval opt n v v p (not_empty_match f) c (cycle l) = No.

(** [i] runs of the body, each one taking its first match. *)
Inductive runs (f : flags) (l : list re) : N -> nat -> caps -> nat -> caps -> Prop :=
  | runs_none : forall p c, runs f l 0 p c p c
  | runs_more : forall i p c p1 c1 q c', first_match f l p c p1 c1 -> runs f l i p1 c1 q c' ->
      runs f l (N.succ i) p c q c'.

(** The end of a possessive repetition. *)
Definition stops (f : flags) (l : list re) (b i : N) (q : nat) (c : caps) : Prop :=
  (b <> 0%N /\ (b <= i)%N) \/ no_match f l q c.

Lemma poss_runs : forall n st p f c a b i l tl x,
  poss_loop opt n v v st p f c a b i l tl = x -> x = No \/ (exists c', x = Ok c') ->
  exists j q c1, runs f l j p c q c1 /\ (b <> 0%N -> i <= b -> i + j <= b)%N /\ stops f l b (i + j) q c1 /\
    ((x = No /\ (i + j < a)%N /\ no_match f l q c1) \/
     (((b <> 0%N /\ (b <= i + j)%N) \/ (a <= i + j)%N) /\
      exists n', eval opt n' v v q (consumed_something f (negb (Nat.eqb st q))) c1 tl = x)).
Proof.
  induction n as [|n IH]; intros st p f c a b i l tl x H Hx.
  { cbn [poss_loop] in H. subst x. destruct Hx as [H|[c' H]]; discriminate. }
  cbn [poss_loop] in H. unfold less_than_or_infinite in H.
  destruct (N.eqb b 0 || N.ltb i b) eqn:E.
  - destruct (eval opt n v v p (not_empty_match f) c (cycle l)) as [cc| | | |] eqn:E1.
    + destruct (s_end (c0 cc)) as [p1|] eqn:E2; cbn [or_ub] in H;
        [|subst x; destruct Hx as [H|[c' H]]; discriminate].
      destruct (IH _ _ _ _ _ _ _ _ _ _ H Hx) as (j & q & c1 & H1 & H2 & H3 & H4).
      exists (N.succ j), q, c1. replace (i + N.succ j)%N with (N.succ i + j)%N by lia.
      split; [|split; [lia|split; assumption]].
      eapply runs_more; [|exact H1]. exists n, cc. auto.
    + exists 0%N, p, c. rewrite N.add_0_r.
      assert (NM : no_match f l p c) by (exists n; assumption).
      split; [constructor|]. split; [lia|]. split; [right; assumption|].
      unfold less_than in H. destruct (negb (N.eqb a 0) && N.ltb i a) eqn:E2.
      * left. split; [auto|]. split; [lia|assumption].
      * right. split; [right; lia|]. exists n. assumption.
    + subst x. destruct Hx as [H|[c' H]]; discriminate.
    + subst x. destruct Hx as [H|[c' H]]; discriminate.
    + subst x. destruct Hx as [H|[c' H]]; discriminate.
  - exists 0%N, p, c. rewrite N.add_0_r. split; [constructor|]. split; [lia|]. split; [left; lia|].
    right. split; [left; lia|]. exists n. assumption.
Qed.

(** Ordinary results are independent of the fuel. *)
Lemma eval_fun : forall n m p f c k x y, eval opt n v v p f c k = x -> eval opt m v v p f c k = y ->
  x <> Fuel -> y <> Fuel -> x = y.
Proof.
  intros n m p f c k x y H1 H2 N1 N2. destruct (Nat.le_ge_cases n m) as [L|L].
  - rewrite <- H2. symmetry. eapply eval_mono; eauto.
  - rewrite <- H1. eapply eval_mono; eauto.
Qed.
Lemma first_match_fun : forall f l p c q1 c1 q2 c2, first_match f l p c q1 c1 -> first_match f l p c q2 c2 ->
  q1 = q2 /\ c1 = c2.
Proof.
  intros f l p c q1 c1 q2 c2 (n & x & H1 & H2 & ->) (m & y & H3 & H4 & ->).
  assert (E : @Ok caps x = Ok y) by (eapply eval_fun; eauto; discriminate). injection E as <-.
  split; congruence.
Qed.
Lemma first_match_no : forall f l p c q c', first_match f l p c q c' -> no_match f l p c -> False.
Proof.
  intros f l p c q c' (n & x & H1 & H2 & ->) (m & H3).
  assert (E : @Ok caps x = No) by (eapply eval_fun; eauto; discriminate). discriminate.
Qed.
(** So the end of a possessive repetition is unique, whatever comes after it. *)
Lemma runs_fun : forall f l b i p c q c', runs f l i p c q c' -> (b <> 0 -> i <= b)%N -> stops f l b i q c' ->
  forall i2 q2 c2, runs f l i2 p c q2 c2 -> (b <> 0 -> i2 <= b)%N -> stops f l b i2 q2 c2 -> i = i2 /\ q = q2 /\ c' = c2.
Proof.
  intros f l b i p c q c' H Hi Hs i2 q2 c2 H' Hi2 Hs2.
  assert (G : forall i p c q c', runs f l i p c q c' -> forall z i2 q2 c2, runs f l i2 p c q2 c2 ->
    (b <> 0 -> z + i <= b)%N -> stops f l b (z + i) q c' ->
    (b <> 0 -> z + i2 <= b)%N -> stops f l b (z + i2) q2 c2 -> i = i2 /\ q = q2 /\ c' = c2).
  { clear. intros i p c q c' H. induction H as [p c|i p c p1 c1 q c' H1 H2 IH]; intros z i2 q2 c2 H3 B1 S1 B2 S2.
    - inversion H3 as [|i' ? ? p1 c1 ? ? A1 A2]; subst; [auto|]. exfalso.
      destruct S1 as [[Hb Hl]|S1]; [specialize (B2 Hb); lia|]. eapply first_match_no; eauto.
    - inversion H3 as [|i' ? ? p1' c1' ? ? A1 A2]; subst.
      + exfalso. destruct S2 as [[Hb Hl]|S2]; [specialize (B1 Hb); lia|]. eapply first_match_no; eauto.
      + destruct (first_match_fun _ _ _ _ _ _ _ _ H1 A1) as [<- <-].
        destruct (IH (N.succ z) i' q2 c2 A2) as (-> & -> & ->); auto.
        * intros Hb. specialize (B1 Hb). lia.
        * replace (N.succ z + i)%N with (z + N.succ i)%N by lia. assumption.
        * intros Hb. specialize (B2 Hb). lia.
        * replace (N.succ z + i')%N with (z + N.succ i')%N by lia. assumption. }
  apply (G i p c q c' H 0%N i2 q2 c2 H'); rewrite ?N.add_0_l; assumption.
Qed.

(** A possessive repetition before any continuation. *)
Lemma possessive_first : forall n p f c a b l tl x,
  eval opt n v v p f c (AR (RRep Possessive a b l) :: tl) = x -> x = No \/ (exists c', x = Ok c') ->
  (b <> 0%N /\ (b < a)%N /\ x = No) \/
  exists j q c1, runs f l j p c q c1 /\ (b <> 0 -> j <= b)%N /\ stops f l b j q c1 /\
    ((x = No /\ (j < a)%N) \/
     ((a <= j)%N /\ exists n', eval opt n' v v q (consumed_something f (negb (Nat.eqb p q))) c1 tl = x)).
Proof.
  intros n p f c a b l tl x H Hx. destruct n as [|n].
  { subst x. destruct Hx as [H|[c' H]]; discriminate. }
  cbn [eval arr_view vconv negb] in H. fold (arr_view s) in H.
  destruct (negb (N.eqb b 0) && N.ltb b a) eqn:E; [left; split; [lia|]; split; [lia|auto]|]. right.
  destruct (poss_runs _ _ _ _ _ _ _ _ _ _ _ H Hx) as (j & q & c1 & H1 & H2 & H3 & H4).
  rewrite N.add_0_l in *. exists j, q, c1. split; [assumption|]. split; [lia|]. split; [assumption|].
  destruct H4 as [(A & B & _)|(A & B)]; [left; auto|]. right. split; [lia|assumption].
Qed.

Lemma atomic_first : forall n p f c l tl x,
  eval opt n v v p f c (AR (RAtomic l) :: tl) = x -> x = No \/ (exists c', x = Ok c') ->
  (no_match f l p c /\ x = No) \/
  exists q c1, first_match f l p c q c1 /\
    exists n', eval opt n' v v q (consumed_something f (negb (Nat.eqb p q))) c1 tl = x.
Proof.
  intros n p f c l tl x H Hx. destruct n as [|n].
  { subst x. destruct Hx as [H|[c' H]]; discriminate. }
  cbn [eval] in H. destruct (possessive_first _ _ _ _ _ _ _ _ _ H Hx) as [(_ & A & _)|(j & q & c1 & H1 & H2 & H3 & H4)]; [lia|].
  specialize (H2 ltac:(discriminate)). inversion H1 as [|i ? ? p1 c2 ? ? A1 A2]; subst.
  - left. destruct H3 as [[_ H3]|H3]; [lia|]. split; [assumption|]. destruct H4 as [[H4 _]|[H4 _]]; [auto|lia].
  - right. assert (i = 0%N) as -> by lia. inversion A2; subst; [|lia].
    exists q, c1. split; [assumption|]. destruct H4 as [[_ H4]|[_ H4]]; [lia|assumption].
Qed.
End Possessive.

(** * Repetition of a class *)
Section ClassRep.
Variables (opt : bool) (s : list Z) (k : cls).
Notation v := (arr_view s).
Notation len := (length s).

(** Is there a character of the class at [p]? *)
Definition inb (ci : bool) (p : nat) : bool :=
  match nth_error s p with Some x => match_cls ci k x | None => false end.
Definition all_from (ci : bool) (p : nat) : Prop := forall q, p <= q < len -> inb ci q = true.

Lemma cyc : forall n p f c, p <= len -> eval opt (S (S n)) v v p (not_empty_match f) c (cycle [RCls k]) =
  if inb (f_ci f) p then Ok (set_matched (set_end_mark (S p) c)) else No.
Proof.
  intros n p f c Hp. unfold inb. cbn [cycle map app eval arr_view vend vget vnext vconv or_ub not_empty_match f_ci negb].
  destruct (Nat.eqb_spec p len) as [E|E]; [assert (nth_error s p = None) as -> by (apply nth_error_None; lia); reflexivity|].
  destruct (nth_error s p) as [x|] eqn:Ex; [|apply nth_error_None in Ex; lia]. cbn [or_ub].
  destruct (match_cls (f_ci f) k x); [|reflexivity]. destruct (Nat.ltb_spec p len); [|lia]. reflexivity.
Qed.
Lemma cyc_any : forall n p f c x, p <= len -> eval opt n v v p (not_empty_match f) c (cycle [RCls k]) = x -> x <> Fuel ->
  x = if inb (f_ci f) p then Ok (set_matched (set_end_mark (S p) c)) else No.
Proof.
  intros n p f c x Hp H Hx. rewrite <- (cyc n p f c Hp). symmetry. eapply eval_mono; [|eassumption|assumption]. lia.
Qed.

(** [x] is a decision of [P]. *)
Definition decides (x : res caps) (P : Prop) : Prop :=
  match x with Ok _ => P | No => ~ P | Fuel => True | UB | Ill => False end.
Lemma decides_iff : forall x (P Q : Prop), decides x P -> (P <-> Q) -> decides x Q.
Proof. intros x P Q H HPQ. destruct x; cbn [decides] in *; tauto. Qed.

Lemma tail_decides : forall n p f c, p <= len -> decides (eval opt n v v p f c tail_match) (p = len).
Proof.
  intros n p f c Hp. destruct n as [|n]; [exact I|]. cbn [tail_match eval eval_assert arr_view vend or_ub].
  destruct (Nat.eqb_spec p len) as [E|E]; [|exact E].
  destruct n as [|n]; [exact I|]. cbn [eval arr_view vconv].
  destruct n as [|n]; [exact I|]. exact E.
Qed.

(** The remaining characters are in the class and there are few enough of them. *)
Definition fits (ci : bool) (b i : N) (p : nat) : Prop :=
  all_from ci p /\ (b = 0%N \/ (i + N.of_nat (len - p) <= b)%N).

Lemma fits_end : forall ci b i p, p = len -> (b = 0 \/ i <= b)%N -> fits ci b i p.
Proof. intros ci b i p -> H. split; [intros q Hq; lia|]. lia. Qed.
Lemma fits_next : forall ci b i p, inb ci p = true -> p < len -> fits ci b i p <-> fits ci b (N.succ i) (S p).
Proof.
  intros ci b i p H L. unfold fits, all_from. split; intros [H1 H2]; (split; [|lia]).
  - intros q Hq. apply H1. lia.
  - intros q Hq. destruct (Nat.eq_dec q p) as [->|]; [assumption|]. apply H1. lia.
Qed.
Lemma inb_len : forall ci p, inb ci p = true -> p < len.
Proof. intros ci p H. unfold inb in H. destruct (nth_error s p) eqn:E; [|discriminate]. apply nth_error_Some. congruence. Qed.
Lemma fits_stuck : forall ci b i p, inb ci p = false -> p <= len -> (b = 0 \/ i <= b)%N -> fits ci b i p <-> p = len.
Proof.
  intros ci b i p H L Hb. split; [|intros ->; apply fits_end; auto].
  intros [H1 _]. destruct (Nat.eq_dec p len) as [|]; [assumption|]. rewrite H1 in H by lia. discriminate.
Qed.
Lemma fits_full : forall ci b i p, b <> 0%N -> i = b -> p <= len -> fits ci b i p <-> p = len.
Proof.
  intros ci b i p Hb -> L. split; [|intros ->; apply fits_end; lia]. intros [_ [H|H]]; lia.
Qed.

Lemma rec_class : forall n p f c b i, p <= len -> (b = 0 \/ i <= b)%N ->
  decides (rec_loop opt n v v p f c b i [RCls k] tail_match) (fits (f_ci f) b i p).
Proof.
  induction n as [|n IH]; intros p f c b i Hp Hb; [exact I|]. cbn [rec_loop]. unfold less_than_or_infinite.
  destruct (N.eqb b 0 || N.ltb i b) eqn:E.
  - destruct (eval opt n v v p (not_empty_match f) c (cycle [RCls k])) as [cc| | | |] eqn:E1; try exact I;
      pose proof (cyc_any _ _ _ _ _ Hp E1 ltac:(discriminate)) as E2; destruct (inb (f_ci f) p) eqn:E3; try discriminate.
    + injection E2 as ->. cbn [set_matched set_end_mark c0 s_end or_ub].
      pose proof (inb_len _ _ E3) as L.
      specialize (IH (S p) f (unmatch (set_matched (set_end_mark (S p) c))) b (N.succ i) ltac:(lia) ltac:(lia)).
      assert (IH' := decides_iff _ _ _ IH (iff_sym (fits_next (f_ci f) b i p E3 L))). cbn [set_matched set_end_mark c0 cl s_beg s_end s_m] in IH'.
      destruct (rec_loop _ _ _ _ _ _ _ _ _ _ _); try exact IH'. cbn [decides] in IH'.
      pose proof (tail_decides n p (consumed_something f true) c Hp) as T.
      destruct (eval _ _ _ _ _ _ _ tail_match); try exact T; try exact IH'. cbn [decides] in T. lia.
    + eapply decides_iff; [apply tail_decides; assumption|]. symmetry. apply fits_stuck; assumption.
  - eapply decides_iff; [apply tail_decides; assumption|]. symmetry. apply fits_full; lia.
Qed.

Lemma poss_class : forall n st p f c a b i, p <= len -> (b = 0 \/ i <= b)%N -> (b = 0 \/ a <= b)%N ->
  decides (poss_loop opt n v v st p f c a b i [RCls k] tail_match) (fits (f_ci f) b i p /\ (a <= i + N.of_nat (len - p))%N).
Proof.
  induction n as [|n IH]; intros st p f c a b i Hp Hb Hab; [exact I|]. cbn [poss_loop]. unfold less_than_or_infinite.
  destruct (N.eqb b 0 || N.ltb i b) eqn:E.
  - destruct (eval opt n v v p (not_empty_match f) c (cycle [RCls k])) as [cc| | | |] eqn:E1; try exact I;
      pose proof (cyc_any _ _ _ _ _ Hp E1 ltac:(discriminate)) as E2; destruct (inb (f_ci f) p) eqn:E3; try discriminate.
    + injection E2 as ->. cbn [set_matched set_end_mark c0 s_end or_ub].
      pose proof (inb_len _ _ E3) as L.
      eapply decides_iff; [apply IH; lia|]. rewrite <- (fits_next (f_ci f) b i p E3 L).
      replace (N.succ i + N.of_nat (len - S p))%N with (i + N.of_nat (len - p))%N by lia. reflexivity.
    + pose proof (fits_stuck (f_ci f) b i p E3 Hp Hb) as F. unfold less_than.
      destruct (negb (N.eqb a 0) && N.ltb i a) eqn:E4.
      * cbn [decides]. intros [H1 H2]. apply F in H1. lia.
      * eapply decides_iff; [apply tail_decides; assumption|]. rewrite F. split; [intros ->; split; [reflexivity|lia]|tauto].
  - eapply decides_iff; [apply tail_decides; assumption|].
    rewrite (fits_full (f_ci f) b i p) by lia. split; [intros ->; split; [reflexivity|lia]|tauto].
Qed.

Lemma lazy_class : forall n p f c b i, p <= len -> (b = 0 \/ i <= b)%N ->
  decides (lazy_loop opt n v v p f c b i [RCls k] tail_match) (fits (f_ci f) b i p /\ (p < len \/ (b <> 0 /\ b <= i)%N)).
Proof.
  induction n as [|n IH]; intros p f c b i Hp Hb; [exact I|]. cbn [lazy_loop]. unfold less_than_or_infinite.
  destruct (N.eqb b 0 || N.ltb i b) eqn:E.
  - destruct (eval opt n v v p (not_empty_match f) c (cycle [RCls k])) as [cc| | | |] eqn:E1; try exact I;
      pose proof (cyc_any _ _ _ _ _ Hp E1 ltac:(discriminate)) as E2; destruct (inb (f_ci f) p) eqn:E3; try discriminate.
    + injection E2 as ->. cbn [set_matched set_end_mark c0 cl s_beg s_end s_m or_ub].
      pose proof (inb_len _ _ E3) as L.
      pose proof (fits_next (f_ci f) b i p E3 L) as F.
      set (c1 := unmatch _).
      pose proof (tail_decides n (S p) (consumed_something f true) c1 ltac:(lia)) as T.
      destruct (eval _ _ _ _ _ _ _ tail_match); try exact T; cbn [decides] in T.
      * cbn [decides]. split; [|lia]. apply F. apply fits_end; lia.
      * eapply decides_iff; [apply IH; lia|]. rewrite <- F. split; [intros [A _]; split; [exact A|lia]|].
        intros [A _]. split; [exact A|lia].
    + cbn [decides]. intros [H1 H2]. apply (fits_stuck (f_ci f) b i p E3 Hp Hb) in H1. lia.
  - eapply decides_iff; [apply tail_decides; assumption|].
    rewrite (fits_full (f_ci f) b i p) by lia. split; [intros ->; split; [reflexivity|lia]|tauto].
Qed.

(** The mandatory part. *)
Lemma req_class : forall n p f c a i, p <= len -> (i <= a)%N ->
  match req_loop opt n v v p f c a i [RCls k] with
  | Ok (q, c') => N.of_nat q = (N.of_nat p + (a - i))%N /\ q <= len /\ (forall j, p <= j < q -> inb (f_ci f) j = true)
  | No => ~ (all_from (f_ci f) p /\ (a <= i + N.of_nat (len - p))%N)
  | Fuel => True | UB | Ill => False
  end.
Proof.
  induction n as [|n IH]; intros p f c a i Hp Hi; [exact I|]. cbn [req_loop]. unfold less_than.
  destruct (negb (N.eqb a 0) && N.ltb i a) eqn:E; [|split; [lia|]; split; [lia|intros j Hj; lia]].
  destruct (eval opt n v v p (not_empty_match f) c (cycle [RCls k])) as [cc| | | |] eqn:E1; try exact I;
      pose proof (cyc_any _ _ _ _ _ Hp E1 ltac:(discriminate)) as E2; destruct (inb (f_ci f) p) eqn:E3; try discriminate.
  - injection E2 as ->. cbn [set_matched set_end_mark c0 cl s_beg s_end s_m or_ub].
    pose proof (inb_len _ _ E3) as L. set (c1 := unmatch _).
    specialize (IH (S p) f c1 a (N.succ i) ltac:(lia) ltac:(lia)).
    destruct (req_loop _ _ _ _ _ _ _ _ _ _) as [[q c']| | | |]; try exact IH.
    + destruct IH as (H1 & H2 & H3). split; [lia|]. split; [assumption|]. intros j Hj.
      destruct (Nat.eq_dec j p) as [->|]; [assumption|]. apply H3. lia.
    + intros [H1 H2]. apply IH. split; [intros j Hj; apply H1; lia|lia].
  - intros [H1 H2]. destruct (Nat.eq_dec p len) as [|]; [lia|]. rewrite H1 in E3 by lia. discriminate.
Qed.

Lemma all_split : forall ci p q, p <= q -> (forall j, p <= j < q -> inb ci j = true) -> all_from ci p <-> all_from ci q.
Proof.
  intros ci p q L H. unfold all_from. split; intros H1 j Hj; [apply H1; lia|].
  destruct (Nat.lt_ge_cases j q); [apply H; lia|apply H1; lia].
Qed.

Lemma class_rep : forall n f c kd a b, (kd = Greedy -> becomes_possessive opt [RCls k] tail_match <> None) ->
  decides (eval opt n v v 0 f c (AR (RRep kd a b [RCls k]) :: tail_match))
    (all_from (f_ci f) 0 /\ (a <= N.of_nat len)%N /\ (b = 0%N \/ (N.of_nat len <= b)%N)).
Proof.
  intros n f c kd a b Hbp.
  assert (PO : forall n c, decides (eval opt n v v 0 f c (AR (RRep Possessive a b [RCls k]) :: tail_match))
    (all_from (f_ci f) 0 /\ (a <= N.of_nat len)%N /\ (b = 0%N \/ (N.of_nat len <= b)%N))).
  { clear c n. intros [|n] c; [exact I|]. cbn [eval]. destruct (negb (N.eqb b 0) && N.ltb b a) eqn:E.
    { cbn [decides]. intros (_ & H1 & H2). lia. }
    cbn [arr_view vconv negb]. eapply decides_iff; [apply poss_class; lia|]. unfold fits.
    rewrite Nat.sub_0_r, !N.add_0_l. tauto. }
  destruct n as [|n]; [exact I|]. destruct kd; [| |apply PO].
  - cbn [eval]. destruct (negb (N.eqb b 0) && N.ltb b a) eqn:E; [cbn [decides]; intros (_ & H1 & H2); lia|].
    destruct (becomes_possessive opt [RCls k] tail_match) as [[]|]; [apply PO| |exfalso; apply Hbp; reflexivity].
    cbn [arr_view vconv negb]. pose proof (req_class n 0 f c a 0%N ltac:(lia) ltac:(lia)) as R. cbn [arr_view] in R.
    destruct (req_loop _ _ _ _ _ _ _ _ _ _) as [[q c']| | | |]; try exact R.
    + destruct R as (R1 & R2 & R3). eapply decides_iff; [apply rec_class; lia|].
      unfold fits. rewrite (all_split (f_ci f) 0 q) by (auto; lia). split; [intros [A B]|intros (A & B & C)]; (split; [exact A|lia]).
    + cbn [decides]. rewrite Nat.sub_0_r, N.add_0_l in R. tauto.
  - cbn [eval]. destruct (negb (N.eqb b 0) && N.ltb b a) eqn:E; [cbn [decides]; intros (_ & H1 & H2); lia|].
    cbn [arr_view vconv negb]. pose proof (req_class n 0 f c a 0%N ltac:(lia) ltac:(lia)) as R. cbn [arr_view] in R.
    destruct (req_loop _ _ _ _ _ _ _ _ _ _) as [[q c']| | | |]; try exact R.
    + destruct R as (R1 & R2 & R3).
      pose proof (tail_decides n q (consumed_something f (negb (0 =? q))) c' R2) as T. cbn [arr_view] in T.
      destruct (eval _ _ _ _ _ _ _ tail_match) as [c2| | | |]; try exact T; cbn [decides] in T.
      * cbn [decides]. split; [|lia]. apply (all_split (f_ci f) 0 q); [lia|assumption|]. intros j Hj. lia.
      * eapply decides_iff; [apply lazy_class; lia|].
        unfold fits. rewrite (all_split (f_ci f) 0 q) by (auto; lia). split; [intros [[A B] C]; split; [exact A|lia]|].
        intros (A & B & C). split; [split; [exact A|lia]|lia].
    + cbn [decides]. rewrite Nat.sub_0_r, N.add_0_l in R. tauto.
Qed.
End ClassRep.

(** The entry point on a repetition of a class. *)
Lemma rep_matches : forall opt n s f kd k a b c, ctre_match opt n s f (RRep kd a b [RCls k]) = Ok c ->
  (matched c = true <-> all_from s k (f_ci f) 0 /\ (a <= N.of_nat (length s))%N /\ (b = 0%N \/ (N.of_nat (length s) <= b)%N)).
Proof.
  intros opt n s f kd k a b c H. unfold ctre_match, exec_match in H. destruct n as [|n]; [discriminate|].
  cbn [eval arr_view vconv] in H. fold (arr_view s) in H. change [AR (RAssert ASubjectEnd); AEnd; AAccept] with tail_match in H.
  set (r := RRep kd a b [RCls k]) in *.
  assert (D : forall x, eval opt n (arr_view s) (arr_view s) 0 f (set_start_mark 0 (fresh r)) (AR r :: tail_match) = x -> x <> Fuel -> x <> Ill ->
     decides x (all_from s k (f_ci f) 0 /\ (a <= N.of_nat (length s))%N /\ (b = 0%N \/ (N.of_nat (length s) <= b)%N))).
  { intros x E Hx Hi. destruct (becomes_possessive opt [RCls k] tail_match) as [bp|] eqn:B.
    - subst x. apply class_rep. rewrite B. discriminate.
    - destruct n as [|n]; [cbn in E; congruence|]. destruct kd.
      + unfold r in E. cbn [eval] in E. rewrite B in E. destruct (negb (N.eqb b 0) && N.ltb b a) eqn:E1; [|congruence].
        subst x. cbn [decides]. intros (_ & H1 & H2). lia.
      + subst x. apply class_rep. discriminate.
      + subst x. apply class_rep. discriminate. }
  destruct (returned_cases _ _ _ H) as [E|[E ->]]; specialize (D _ E ltac:(discriminate) ltac:(discriminate)); cbn [decides] in D.
  - split; [intros _; exact D|]. intros _. exact (proj1 (ok_matched n) _ _ _ _ _ _ _ _ E).
  - split; [discriminate|]. tauto.
Qed.

(** With membership as in the specification. *)
Lemma all_from_Forall : forall s k ci, forallb val_ok s = true -> cls_ok ci k = true ->
  (all_from s k ci 0 <-> Forall (fun x => cls_has ci k x = true) s).
Proof.
  intros s k ci Hs Hk. rewrite forallb_forall in Hs. unfold all_from, inb. split.
  - intros H. apply Forall_forall. intros x Hx. destruct (In_nth_error _ _ Hx) as [q Hq].
    assert (q < length s) by (apply nth_error_Some; congruence). specialize (H q ltac:(lia)). rewrite Hq in H.
    rewrite match_cls_spec in H; auto.
  - intros H q Hq. destruct (nth_error s q) as [x|] eqn:E; [|apply nth_error_None in E; lia].
    rewrite Forall_forall in H. apply nth_error_In in E. rewrite match_cls_spec; auto.
Qed.
Lemma rep_counts : forall opt n s f kd k a b c, forallb val_ok s = true -> cls_ok (f_ci f) k = true ->
  ctre_match opt n s f (RRep kd a b [RCls k]) = Ok c ->
  (matched c = true <-> Forall (fun x => cls_has (f_ci f) k x = true) s /\ (a <= N.of_nat (length s))%N /\ (b = 0%N \/ (N.of_nat (length s) <= b)%N)).
Proof. intros. rewrite (rep_matches opt n s f kd k a b c) by assumption. rewrite all_from_Forall by assumption. reflexivity. Qed.

(** * Consequences for whole patterns *)
(** After [X*+] no character of [X] is left, so [X*+X] never matches; the same for [(?>X* )X]. *)
Lemma runs_class : forall opt s k f i p c q c', p <= length s -> runs opt s f [RCls k] i p c q c' -> q <= length s.
Proof.
  intros opt s k f i p c q c' Hp H. induction H as [|i p c p1 c1 q c' (n & cc & H1 & H2 & H3) _ IH]; [assumption|]. apply IH.
  pose proof (cyc_any _ _ _ _ _ _ _ _ Hp H1 ltac:(discriminate)) as E. destruct (inb s k (f_ci f) p) eqn:E1; [|discriminate].
  injection E as ->. cbn in H2. injection H2 as <-. apply inb_len in E1. lia.
Qed.
Lemma no_class : forall opt s k f q c, q <= length s -> no_match opt s f [RCls k] q c -> inb s k (f_ci f) q = false.
Proof.
  intros opt s k f q c Hq (n' & H).
  pose proof (cyc_any _ _ _ _ _ _ _ _ Hq H ltac:(discriminate)) as I. destruct (inb s k (f_ci f) q); [discriminate|reflexivity].
Qed.
(** Before the end of the subject or a character outside of the class nothing that starts with the class matches. *)
Lemma stuck_class : forall opt s k f q c n c' tl, inb s k (f_ci f) q = false ->
  eval opt n (arr_view s) (arr_view s) q f c (AR (RCls k) :: tl) <> Ok c'.
Proof.
  intros opt s k f q c n c' tl E1 E.
  destruct n as [|n]; [discriminate|]. cbn [eval arr_view vend vget or_ub] in E.
  destruct (Nat.eqb_spec q (length s)) as [|]; [discriminate|]. unfold inb in E1.
  destruct (nth_error s q) as [x|]; [|discriminate]. cbn [or_ub] in E.
  rewrite E1 in E. discriminate.
Qed.
Lemma stuck_seq : forall opt s k f q c n c' xs tl, inb s k (f_ci f) q = false ->
  eval opt n (arr_view s) (arr_view s) q f c (AR (RSeq (RCls k :: xs)) :: tl) <> Ok c'.
Proof.
  intros opt s k f q c n c' xs tl E1 E.
  destruct n as [|n]; [discriminate|]. cbn [eval] in E. destruct xs; eapply stuck_class; eauto.
Qed.
Lemma cs_ci : forall f b, f_ci (consumed_something f b) = f_ci f.
Proof. intros f []; reflexivity. Qed.

Lemma poss_class_end : forall opt n s f k a p c c' tl, p <= length s ->
  eval opt n (arr_view s) (arr_view s) p f c (AR (RRep Possessive a 0 [RCls k]) :: tl) = Ok c' ->
  exists q c1 n' b, q <= length s /\ inb s k (f_ci f) q = false /\
    eval opt n' (arr_view s) (arr_view s) q (consumed_something f b) c1 tl = Ok c'.
Proof.
  intros opt n s f k a p c c' tl Hp E.
  destruct (possessive_first _ _ _ _ _ _ _ _ _ _ _ E (or_intror (ex_intro _ c' eq_refl))) as [(H & _)|(j & q & c1 & H1 & H2 & H3 & H4)]; [congruence|].
  destruct H4 as [[H4 _]|(_ & n' & H4)]; [discriminate|]. destruct H3 as [[H3 _]|H3]; [congruence|].
  assert (Hq : q <= length s) by (eapply runs_class; eauto).
  exists q, c1, n', (negb (Nat.eqb p q)). split; [assumption|]. split; [|assumption]. eapply no_class; eauto.
Qed.

Lemma end_cycle : forall opt n s q f c cc, eval opt n (arr_view s) (arr_view s) q f c [AEndCycle] = Ok cc -> s_end (c0 cc) = Some q.
Proof.
  intros opt n s q f c cc H. destruct n as [|n]; [discriminate|]. cbn [eval arr_view vconv negb] in H.
  destruct (f_block f); [discriminate|]. injection H as <-. reflexivity.
Qed.
Lemma rec_class_end : forall opt n s f k i p c cc q, p <= length s ->
  rec_loop opt n (arr_view s) (arr_view s) p f c 0 i [RCls k] [AEndCycle] = Ok cc -> s_end (c0 cc) = Some q ->
  q <= length s /\ inb s k (f_ci f) q = false.
Proof.
  intros opt. induction n as [|n IH]; intros s f k i p c cc q Hp H Hq; [discriminate|]. cbn [rec_loop less_than_or_infinite N.eqb orb] in H.
  destruct (eval opt n (arr_view s) (arr_view s) p (not_empty_match f) c (cycle [RCls k])) as [c1| | | |] eqn:E1; try discriminate;
    pose proof (cyc_any _ _ _ _ _ _ _ _ Hp E1 ltac:(discriminate)) as E2; destruct (inb s k (f_ci f) p) eqn:E3; try discriminate.
  - injection E2 as ->. cbn [set_matched set_end_mark c0 s_end or_ub] in H. pose proof (inb_len _ _ _ _ E3) as L.
    destruct (rec_loop _ _ _ _ _ _ _ _ _ _ _) as [c2| | | |] eqn:E4; try discriminate.
    + injection H as <-. eapply IH; [| exact E4 | exact Hq]. lia.
    + (* at the next position the loop can always stop *)
      exfalso. clear IH H. revert E4. clear -L.
      assert (G : forall n p f c i, p <= length s -> rec_loop opt n (arr_view s) (arr_view s) p f c 0 i [RCls k] [AEndCycle] <> No).
      { clear. induction n as [|n IH]; intros p f c i Hp; [discriminate|]. cbn [rec_loop less_than_or_infinite N.eqb orb].
        assert (St : forall n, eval opt n (arr_view s) (arr_view s) p (consumed_something f true) c [AEndCycle] <> No) by (intros [|n']; discriminate).
        destruct (eval opt n (arr_view s) (arr_view s) p (not_empty_match f) c (cycle [RCls k])) as [c1| | | |] eqn:E1; try discriminate; [|apply St].
        pose proof (cyc_any _ _ _ _ _ _ _ _ Hp E1 ltac:(discriminate)) as E2. destruct (inb s k (f_ci f) p) eqn:E3; [|discriminate].
        injection E2 as ->. cbn [set_matched set_end_mark c0 s_end or_ub]. pose proof (inb_len _ _ _ _ E3) as L.
        match goal with |- match ?X with _ => _ end <> _ => destruct X eqn:E4 end; try discriminate. apply St. }
      apply G. lia.
  - apply end_cycle in H. assert (q = p) as -> by congruence. auto.
Qed.
Lemma atomic_class_end : forall opt n s f k p c c' tl, p <= length s ->
  eval opt n (arr_view s) (arr_view s) p f c (AR (RAtomic [RRep Greedy 0 0 [RCls k]]) :: tl) = Ok c' ->
  exists q c1 n' b, q <= length s /\ inb s k (f_ci f) q = false /\
    eval opt n' (arr_view s) (arr_view s) q (consumed_something f b) c1 tl = Ok c'.
Proof.
  intros opt n s f k p c c' tl Hp E.
  destruct (atomic_first _ _ _ _ _ _ _ _ _ E (or_intror (ex_intro _ c' eq_refl))) as [[_ H]|(q & c1 & (m & cc & H1 & H2 & ->) & n' & H3)]; [discriminate|].
  assert (G : q <= length s /\ inb s k (f_ci f) q = false).
  { destruct m as [|m]; [discriminate|]. cbn [cycle map app eval N.eqb negb andb arr_view vconv] in H1. fold (arr_view s) in H1.
    destruct (becomes_possessive opt [RCls k] [AEndCycle]) as [[]|]; try discriminate.
    - destruct (poss_class_end _ _ _ _ _ _ _ _ _ _ Hp H1) as (q' & c1 & n1 & b & A1 & A2 & A3).
      apply end_cycle in A3. assert (q' = q) as -> by congruence. auto.
    - destruct m as [|m]; [discriminate|]. cbn [req_loop less_than N.eqb negb andb] in H1.
      eapply rec_class_end in H1; eauto. }
  exists q, (unmatch cc), n', (negb (Nat.eqb p q)). destruct G. auto.
Qed.

(** So [X*+X...], [X++X...] and [(?>X* )X...] match nowhere. *)
Lemma starved : forall opt n s f k x xs p c, p <= length s ->
  (exists a, x = RRep Possessive a 0 [RCls k]) \/ x = RAtomic [RRep Greedy 0 0 [RCls k]] ->
  attempt opt n s f (RSeq (x :: RCls k :: xs)) p <> Ok c.
Proof.
  intros opt n s f k x xs p c Hp Hx H. unfold attempt in H.
  destruct n as [|[|n]]; try discriminate. cbn [eval arr_view vconv] in H. fold (arr_view s) in H.
  assert (G : exists q c1 n' b, q <= length s /\ inb s k (f_ci f) q = false /\
    eval opt n' (arr_view s) (arr_view s) q (consumed_something f b) c1 (AR (RSeq (RCls k :: xs)) :: [AEnd; AAccept]) = Ok c).
  { destruct Hx as [[a ->] | ->]; [eapply poss_class_end in H|eapply atomic_class_end in H]; eauto. }
  destruct G as (q & c1 & n' & b & _ & H1 & H2). revert H2. apply stuck_seq. rewrite cs_ci. assumption.
Qed.
