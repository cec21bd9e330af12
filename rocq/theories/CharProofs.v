(** The character predicates of the library against the specification. *)
From Coq Require Import List ZArith NArith Bool Lia ZifyBool.
From Verif Require Import Chars Syntax Spec.
Import ListNotations.
Local Open Scope Z_scope.
Ltac Zify.zify_post_hook ::= Z.div_mod_to_equations.

(** Literals of a pattern and values of a subject that are code points, or (possibly negative)
    values of char, char8_t, char16_t, char32_t, wchar_t. *)
Definition lit_ok (l : Z) : bool := (0 <=? l) && (l <? 2147483648).
Definition val_ok (v : Z) : bool := (-2147483648 <=? v) && (v <? 4294967296).

Lemma conv_val : forall l v, lit_ok l = true -> val_ok v = true -> l < 128 \/ 0 <= v -> conv l v = v.
Proof. unfold lit_ok, val_ok, conv, u32. intros l v Hl Hv H. destruct (l <? 128) eqn:E; lia. Qed.

Lemma conv_neg : forall l v, lit_ok l = true -> val_ok v = true -> 128 <= l -> v < 0 ->
  2147483648 <= conv l v.
Proof. unfold lit_ok, val_ok, conv, u32. intros l v Hl Hv H. destruct (l <? 128) eqn:E; lia. Qed.

Lemma lit_eq_spec : forall l v, lit_ok l = true -> val_ok v = true -> lit_eq v l = (l =? v).
Proof.
  intros l v Hl Hv. unfold lit_eq.
  destruct (Z_lt_dec l 128) as [H|H]; [rewrite conv_val; auto; lia|].
  destruct (Z_lt_dec v 0) as [H'|H']; [|rewrite conv_val; auto; lia].
  pose proof (conv_neg l v Hl Hv). unfold lit_ok in Hl. lia.
Qed.

Lemma range_spec : forall a b v, lit_ok a = true -> lit_ok b = true -> a <= b -> val_ok v = true ->
  lit_ge v a && lit_le v b = (a <=? v) && (v <=? b).
Proof.
  intros a b v Ha Hb Hab Hv. unfold lit_ge, lit_le.
  destruct (Z_lt_dec v 0) as [H|H].
  - destruct (Z_lt_dec a 128) as [H'|H'].
    + rewrite (conv_val a) by auto. unfold lit_ok in Ha. lia.
    + destruct (Z_lt_dec b 128) as [H2|H2].
      * rewrite (conv_val b) by auto. pose proof (conv_neg a v Ha Hv). unfold lit_ok in *. lia.
      * pose proof (conv_neg b v Hb Hv). unfold lit_ok in *. lia.
  - rewrite !conv_val by (auto; lia). reflexivity.
Qed.

Lemma flip_lower : forall v, is_lower v = true -> flip v = v - 32.
Proof.
  intros v H. assert (E : In v (map Z.of_nat (seq 97 26))).
  { unfold is_lower in H. apply in_map_iff. exists (Z.to_nat v). split; [lia|]. apply in_seq. lia. }
  cbv [map seq Z.of_nat Pos.of_succ_nat Pos.succ] in E. cbn in E.
  repeat (destruct E as [<-|E]; [reflexivity|]). contradiction.
Qed.
Lemma flip_upper : forall v, is_upper v = true -> flip v = v + 32.
Proof.
  intros v H. assert (E : In v (map Z.of_nat (seq 65 26))).
  { unfold is_upper in H. apply in_map_iff. exists (Z.to_nat v). split; [lia|]. apply in_seq. lia. }
  cbn in E. repeat (destruct E as [<-|E]; [reflexivity|]). contradiction.
Qed.

Lemma match_lit_spec : forall ci l v, lit_ok l = true -> val_ok v = true ->
  match_lit ci l v = lit_has ci l v.
Proof.
  intros ci l v Hl Hv. unfold match_lit, lit_has, fold_test, swap_case.
  rewrite (lit_eq_spec l v) by auto.
  destruct (is_alpha l) eqn:Ea; cbn [andb].
  - destruct ci; cbn [andb]; [|rewrite orb_false_r; reflexivity].
    unfold is_alpha in Ea. apply orb_true_iff in Ea as [Ea|Ea].
    + rewrite (flip_lower l Ea). unfold is_lower in Ea.
      rewrite lit_eq_spec by (unfold lit_ok in *; auto; lia).
      destruct (l - 32 =? v) eqn:E1; destruct ((65 <=? v) && (v <=? 90)) eqn:E2;
        destruct ((97 <=? v) && (v <=? 122)) eqn:E3; lia.
    + rewrite (flip_upper l Ea). unfold is_upper in Ea.
      rewrite lit_eq_spec by (unfold lit_ok in *; auto; lia).
      destruct (l + 32 =? v) eqn:E1; destruct ((65 <=? v) && (v <=? 90)) eqn:E2;
        destruct ((97 <=? v) && (v <=? 122)) eqn:E3; lia.
  - destruct ci; cbn [andb]; [|rewrite orb_false_r; reflexivity].
    unfold is_alpha, is_lower, is_upper in Ea.
    destruct ((65 <=? v) && (v <=? 90)) eqn:E2; destruct ((97 <=? v) && (v <=? 122)) eqn:E3; lia.
Qed.

(** A range that contains, with a letter, its other case too. *)
Definition letters : list Z :=
  map Z.of_nat (seq 65 26) ++ map Z.of_nat (seq 97 26).
Definition range_closed (a b : Z) : bool :=
  forallb (fun x => negb ((a <=? swap_case x) && (swap_case x <=? b)) || ((a <=? x) && (x <=? b)))
          letters.

Lemma letters_in : forall v, is_alpha v = true -> In v letters.
Proof.
  intros v H. unfold letters. apply in_or_app. unfold is_alpha, is_lower, is_upper in H.
  apply orb_true_iff in H as [H|H]; [right|left];
    apply in_map_iff; exists (Z.to_nat v); (split; [lia|]; apply in_seq; lia).
Qed.

Lemma swap_other : forall v, is_alpha v = false -> swap_case v = v.
Proof.
  intros v H. unfold is_alpha, is_lower, is_upper, swap_case in *.
  destruct ((65 <=? v) && (v <=? 90)) eqn:E2; [lia|].
  destruct ((97 <=? v) && (v <=? 122)) eqn:E3; [lia|reflexivity].
Qed.

Lemma range_closed_spec : forall a b v, range_closed a b = true ->
  a <= swap_case v <= b -> a <= v <= b.
Proof.
  intros a b v H Hs. destruct (is_alpha v) eqn:E.
  - unfold range_closed in H. rewrite forallb_forall in H. specialize (H v (letters_in v E)). lia.
  - rewrite swap_other in Hs by assumption. lia.
Qed.

Definition same_case (a b : Z) : bool := (is_lower a && is_lower b) || (is_upper a && is_upper b).
Definition range_ok (ci : bool) (a b : Z) : bool :=
  lit_ok a && lit_ok b && (a <=? b) && (negb ci || same_case a b || range_closed a b).

Lemma match_range_spec : forall ci a b v, range_ok ci a b = true -> val_ok v = true ->
  match_range ci a b v = fold_test ci (fun x => (a <=? x) && (x <=? b)) v.
Proof.
  intros ci a b v H Hv. unfold range_ok in H. apply andb_true_iff in H as [H H2].
  apply andb_true_iff in H as [H Hab]. apply andb_true_iff in H as [Ha Hb].
  apply Z.leb_le in Hab. unfold match_range, fold_test. fold (same_case a b).
  rewrite (range_spec a b v) by auto.
  destruct ci; cbn [negb orb andb] in *; [|rewrite !andb_false_r, orb_false_r; reflexivity].
  rewrite andb_true_r. destruct (same_case a b) eqn:Es; cbn [andb orb] in *.
  - unfold same_case in Es. apply orb_true_iff in Es as [Es|Es]; apply andb_true_iff in Es as [E1 E2].
    + rewrite (flip_lower a), (flip_lower b) by auto. unfold is_lower in *.
      rewrite range_spec by (unfold lit_ok in *; auto; lia). unfold swap_case.
      destruct ((65 <=? v) && (v <=? 90)) eqn:E3; destruct ((97 <=? v) && (v <=? 122)) eqn:E4;
        destruct ((a - 32 <=? v) && (v <=? b - 32)) eqn:E5; lia.
    + rewrite (flip_upper a), (flip_upper b) by auto. unfold is_upper in *.
      rewrite range_spec by (unfold lit_ok in *; auto; lia). unfold swap_case.
      destruct ((65 <=? v) && (v <=? 90)) eqn:E3; destruct ((97 <=? v) && (v <=? 122)) eqn:E4;
        destruct ((a + 32 <=? v) && (v <=? b + 32)) eqn:E5; lia.
  - pose proof (range_closed_spec a b v H2). lia.
Qed.

(** Classes for which the library agrees with the specification. *)
Fixpoint cls_ok (ci : bool) (c : cls) : bool :=
  match c with
  | CChar l => lit_ok l
  | CRange a b => range_ok ci a b
  | CSet l | CNeg l | CNegate l => forallb (cls_ok ci) l
  | CEnum vs => forallb lit_ok vs
  | CProp tbl => forallb (fun p => (0 <=? fst p) && (snd p <? 2147483648)) tbl
  end.

Lemma existsb_ext_in : forall A (g h : A -> bool) l, (forall x, In x l -> g x = h x) ->
  existsb g l = existsb h l.
Proof.
  intros A g h l H. induction l as [|x l IH]; [reflexivity|]. cbn. rewrite H by (left; reflexivity).
  rewrite IH; [reflexivity|]. intros y Hy. apply H. right. assumption.
Qed.

Theorem match_cls_spec : forall ci c v, cls_ok ci c = true -> val_ok v = true ->
  match_cls ci c v = cls_has ci c v.
Proof.
  intros ci c v Hc Hv. revert Hc.
  assert (L : forall l, Forall (fun c => cls_ok ci c = true -> match_cls ci c v = cls_has ci c v) l ->
            forallb (cls_ok ci) l = true ->
            existsb (fun c' => match_cls ci c' v) l = existsb (fun c' => cls_has ci c' v) l).
  { intros l Hl Hk. rewrite forallb_forall in Hk. rewrite Forall_forall in Hl.
    apply existsb_ext_in. intros x Hx. apply Hl; auto. }
  induction c as [l | a b | l IH | l IH | vs | l IH | tbl] using cls_ind2; cbn [cls_ok]; intros Hc.
  - apply match_lit_spec; assumption.
  - apply match_range_spec; assumption.
  - apply L; assumption.
  - cbn. f_equal. apply L; assumption.
  - rewrite forallb_forall in Hc. cbn. apply existsb_ext_in. intros x Hx.
    apply match_lit_spec; auto.
  - cbn. f_equal. apply L; assumption.
  - rewrite forallb_forall in Hc. cbn. unfold match_prop. apply existsb_ext_in. intros x Hx.
    specialize (Hc x Hx). unfold val_ok in Hv. unfold u32. lia.
Qed.

(** Case-insensitive classes do not see the case of the subject. *)
Lemma swap_swap : forall v, swap_case (swap_case v) = v.
Proof.
  intros v. unfold swap_case.
  destruct ((65 <=? v) && (v <=? 90)) eqn:E1.
  - destruct ((65 <=? v + 32) && (v + 32 <=? 90)) eqn:E2; [lia|].
    destruct ((97 <=? v + 32) && (v + 32 <=? 122)) eqn:E3; lia.
  - destruct ((97 <=? v) && (v <=? 122)) eqn:E3; [|rewrite E1, E3; reflexivity].
    destruct ((65 <=? v - 32) && (v - 32 <=? 90)) eqn:E2; lia.
Qed.
Lemma swap_val : forall v, val_ok v = true -> val_ok (swap_case v) = true.
Proof.
  intros v H. unfold val_ok, swap_case in *.
  destruct ((65 <=? v) && (v <=? 90)) eqn:E0; destruct ((97 <=? v) && (v <=? 122)) eqn:E; lia.
Qed.
Lemma fold_swap : forall P v, fold_test true P (swap_case v) = fold_test true P v.
Proof. intros P v. unfold fold_test. rewrite swap_swap. cbn. apply orb_comm. Qed.
