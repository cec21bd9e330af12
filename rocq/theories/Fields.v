(** Patterns that are a row of fields: characters and repetitions of characters of a class, in groups or not, like the examples of the
    README. What such a pattern derives is a splitting of the text into words. *)
From Coq Require Import List ZArith NArith Bool Lia Arith ZifyN ZifyNat.
From Verif Require Import Chars Syntax Spec SpecProps.
Import ListNotations.

(** The group of the field (number, name), its repetition if it has one (kind, at least, at most; 0: no limit) and its characters. *)
Record field := mkField { f_group : option (nat * option (list Z)); f_rep : option (rkind * N * N); f_cls : cls }.
Definition field_re (x : field) : re :=
  let body := match f_rep x with Some (k, a, b) => RRep k a b [RCls (f_cls x)] | None => RCls (f_cls x) end in
  match f_group x with Some (id, Some nm) => RNCap id nm [body] | Some (id, None) => RCap id [body] | None => body end.

(** The words of a field. *)
Definition fits (ci : bool) (x : field) (w : list Z) : Prop :=
  Forall (fun v => cls_has ci (f_cls x) v = true) w /\
  match f_rep x with
  | Some (_, a, b) => (a <= N.of_nat (length w))%N /\ (b = 0%N \/ (N.of_nat (length w) <= b)%N)
  | None => length w = 1
  end.
(** The log after a row of fields read from [p]. *)
Fixpoint fields_log (l : list field) (ws : list (list Z)) (p : nat) (lg : log) : log :=
  match l, ws with
  | x :: l, w :: ws =>
      fields_log l ws (p + length w) (match f_group x with Some (id, _) => (id, (p, p + length w)) :: lg | None => lg end)
  | _, _ => lg
  end.

Section Text.
Variable s : list Z.
Variables ml ci : bool.
Variable names : list Z -> option nat.
Notation sem := (sem s ml ci names).

Lemma one_char : forall c a u lg st, s = a ++ u ->
  (sem (RCls c) (length a, lg) st <-> exists v u', u = v :: u' /\ cls_has ci c v = true /\ st = (S (length a), lg)).
Proof.
  intros c a u lg st E. cbn [Spec.sem fst snd]. rewrite E, nth_error_app2, Nat.sub_diag by lia. split.
  - intros (v & H1 & H2 & H3). destruct u as [|x u]; [discriminate|]. injection H1 as <-. exists x, u. auto.
  - intros (v & u' & -> & H2 & H3). exists v. auto.
Qed.
Lemma iter_chars : forall c k a u lg st, s = a ++ u ->
  (iter (fun x y => exists z, sem (RCls c) x z /\ y = z) k (length a, lg) st <->
   exists w u', u = w ++ u' /\ length w = k /\ Forall (fun v => cls_has ci c v = true) w /\ st = (length a + length w, lg)).
Proof.
  intros c. induction k as [|k IH]; intros a u lg st E; cbn [iter].
  - split.
    + intros ->. exists [], u. split; [reflexivity|]. split; [reflexivity|]. split; [constructor|]. cbn. f_equal. lia.
    + intros (w & u' & _ & L & _ & ->). destruct w; [|discriminate]. cbn. f_equal. lia.
  - split.
    + intros (m & (z & H1 & ->) & H2). apply (one_char c a u lg z E) in H1 as (v & u' & -> & H1 & ->).
      replace (S (length a)) with (length (a ++ [v])) in H2 by (rewrite app_length; cbn; lia).
      apply (IH (a ++ [v]) u') in H2; [|rewrite <- app_assoc; exact E]. destruct H2 as (w & u2 & -> & L & F & ->).
      exists (v :: w), u2. split; [reflexivity|]. split; [cbn; lia|]. split; [constructor; assumption|]. rewrite app_length. cbn. f_equal. lia.
    + intros ([|v w] & u' & -> & L & F & ->); [discriminate|]. inversion_clear F as [|? ? F1 F2]. exists (S (length a), lg). split.
      * exists (S (length a), lg). split; [|reflexivity]. apply (one_char c a ((v :: w) ++ u') lg); [exact E|]. exists v, (w ++ u'). auto.
      * replace (S (length a)) with (length (a ++ [v])) by (rewrite app_length; cbn; lia).
        apply (IH (a ++ [v]) (w ++ u')); [rewrite <- app_assoc; exact E|]. exists w, u'. cbn in L. split; [reflexivity|]. split; [lia|].
        split; [exact F2|]. rewrite app_length. cbn. f_equal. lia.
Qed.
Lemma field_derives : forall x a u lg st, s = a ++ u ->
  (sem (field_re x) (length a, lg) st <->
   exists w u', u = w ++ u' /\ fits ci x w /\
     st = (length a + length w, match f_group x with Some (id, _) => (id, (length a, length a + length w)) :: lg | None => lg end)).
Proof.
  intros [g rep c] a u lg st E. unfold field_re, fits. cbn [f_group f_rep f_cls].
  set (body := match rep with Some (k, a0, b) => RRep k a0 b [RCls c] | None => RCls c end).
  assert (B : forall st, sem body (length a, lg) st <-> exists w u', u = w ++ u' /\ (Forall (fun v => cls_has ci c v = true) w /\
      match rep with Some (_, a, b) => (a <= N.of_nat (length w))%N /\ (b = 0%N \/ (N.of_nat (length w) <= b)%N) | None => length w = 1 end) /\
      st = (length a + length w, lg)).
  { intros y. unfold body. destruct rep as [[[k a0] b]|].
    - change (sem (RRep k a0 b [RCls c]) (length a, lg) y) with
        (exists n : nat, (a0 <= N.of_nat n)%N /\ (b = 0%N \/ (N.of_nat n <= b)%N) /\ iter (fun x y => exists z, sem (RCls c) x z /\ y = z) n (length a, lg) y).
      split.
      + intros (n & H1 & H2 & H3). apply (iter_chars c n a u lg y E) in H3 as (w & u' & -> & L & F & ->). exists w, u'. rewrite L. auto.
      + intros (w & u' & -> & (F & H1 & H2) & ->). exists (length w). split; [exact H1|]. split; [exact H2|].
        apply (iter_chars c (length w) a (w ++ u') lg _ E). exists w, u'. auto.
    - rewrite (one_char c a u lg y E). split.
      + intros (v & u' & -> & H & ->). exists [v], u'. split; [reflexivity|]. split; [split; [constructor; [exact H|constructor]|reflexivity]|]. cbn. f_equal. lia.
      + intros (w & u' & -> & (F & L) & ->). destruct w as [|v [|]]; try discriminate. inversion_clear F. exists v, u'.
        split; [reflexivity|]. split; [assumption|]. cbn. f_equal. lia. }
  destruct g as [[id nm]|].
  - assert (G : sem match nm with Some nm => RNCap id nm [body] | None => RCap id [body] end (length a, lg) st <->
      (exists m, (exists z, sem body (length a, lg) z /\ m = z) /\ st = (fst m, (id, (length a, fst m)) :: snd m))) by (destruct nm; reflexivity).
    rewrite G. clear G. split.
    + intros (m & (z & H & ->) & ->). apply B in H as (w & u' & H1 & H2 & ->). exists w, u'. auto.
    + intros (w & u' & H1 & H2 & ->). exists (length a + length w, lg). split; [|reflexivity]. eexists. split; [|reflexivity].
      apply B. exists w, u'. auto.
  - apply B.
Qed.
Theorem fields_derive : forall l a u lg st, s = a ++ u ->
  (sem (RSeq (map field_re l)) (length a, lg) st <->
   exists ws u', u = concat ws ++ u' /\ Forall2 (fits ci) l ws /\ st = (length a + length (concat ws), fields_log l ws (length a) lg)).
Proof.
  induction l as [|x l IH]; intros a u lg st E; cbn [map].
  - change (sem (RSeq []) (length a, lg) st) with (st = (length a, lg)). split.
    + intros ->. exists [], u. split; [reflexivity|]. split; [constructor|]. cbn. f_equal. lia.
    + intros (ws & u' & _ & F & ->). inversion_clear F. cbn. f_equal. lia.
  - change (sem (RSeq (field_re x :: map field_re l)) (length a, lg) st) with
      (exists m, sem (field_re x) (length a, lg) m /\ sem (RSeq (map field_re l)) m st).
    split.
    + intros (m & H1 & H2). apply (field_derives x a u lg m E) in H1 as (w & u' & -> & F & ->). rewrite <- app_length in H2.
      apply (IH (a ++ w) u') in H2; [|rewrite <- app_assoc; exact E]. destruct H2 as (ws & u2 & -> & G & ->).
      exists (w :: ws), u2. cbn [concat fields_log]. split; [apply app_assoc|]. split; [constructor; assumption|].
      rewrite !app_length. f_equal. lia.
    + intros ([|w ws] & u' & -> & F & ->); [inversion F|]. inversion_clear F as [|? ? ? ? F1 F2]. cbn [concat fields_log] in *.
      eexists. split.
      * apply (field_derives x a (w ++ (concat ws ++ u')) lg); [rewrite E, <- app_assoc; reflexivity|]. exists w, (concat ws ++ u').
        split; [reflexivity|]. split; [exact F1|reflexivity].
      * rewrite <- app_length. apply (IH (a ++ w) (concat ws ++ u')); [rewrite E, <- !app_assoc; reflexivity|]. exists ws, u'.
        split; [reflexivity|]. split; [exact F2|]. rewrite !app_length. f_equal. lia.
Qed.
End Text.

(** ** Two splittings of one text *)
(** Where a field cannot hold the first character of the next word, words have no choice. *)
Lemma run_unique : forall (P : Z -> Prop) w w' v v' u u', Forall P w -> Forall P w' -> ~ P v -> ~ P v' -> w ++ v :: u = w' ++ v' :: u' ->
  w = w' /\ v = v' /\ u = u'.
Proof.
  intros P. induction w as [|x w IH]; intros [|y w'] v v' u u' F F' N N' E; cbn in E.
  - injection E as -> ->. auto.
  - injection E as -> _. inversion F'; subst. contradiction.
  - injection E as -> _. inversion F; subst. contradiction.
  - injection E as -> E. inversion F; inversion F'; subst. destruct (IH w' v v' u u') as (-> & -> & ->); auto.
Qed.
