(** The entry points on the different kinds of subject: NUL-terminated strings (C09), UTF-8 (C10, C12),
    case flips and the case-insensitive modifier (C19). *)
From Coq Require Import List ZArith NArith Bool Lia Arith ZifyBool ZifyNat.
From Verif Require Import Chars Syntax First Utf8 View Eval Api Spec CharProofs EvalInv ApiProofs Match Sim Utf8Proofs.
Import ListNotations.
Ltac Zify.zify_post_hook ::= Z.div_mod_to_equations.

(** wrapper.hpp lines 66-118: [match_method], [starts_with_method], [search_method]. *)
Inductive method := MMatch | MStarts | MSearch.
Definition exec (a : method) (opt : bool) (n : nat) (v w : view) (f : flags) (r : re) (p : nat) : res caps :=
  match a with
  | MMatch => exec_match opt n v w f r p
  | MStarts => exec_starts_with opt n v w f r p
  | MSearch => exec_search opt n v w f r p
  end.
(** wrapper.hpp lines 184-189, 195-203: string views and containers. *)
Definition on_array (a : method) (opt : bool) (n : nat) (s : list Z) (f : flags) (r : re) : res caps :=
  exec a opt n (arr_view s) (arr_view s) f r 0.
(** wrapper.hpp lines 178-183: NUL-terminated strings. *)
Definition on_pointer (a : method) (opt : bool) (n : nat) (mem : list Z) (f : flags) (r : re) : res caps :=
  exec a opt n (zt_view mem) (zt_view mem) f r 0.
(** wrapper.hpp lines 190-194: [std::u8string_view]; only the code units of the view may be read. *)
Definition on_u8 (strict : bool) (a : method) (opt : bool) (n : nat) (mem : list Z) (f : flags) (r : re) : res caps :=
  exec a opt n (utf8_view strict mem (length mem)) (raw8_view mem) f r 0.

Lemma on_array_calls : on_array MMatch = ctre_match /\ on_array MStarts = ctre_starts_with /\ on_array MSearch = ctre_search.
Proof. repeat split. Qed.
Lemma on_array_no_ub : forall a opt n s f r, well_numbered r -> on_array a opt n s f r <> UB.
Proof.
  intros a opt n s f r Hw. destruct a; [apply (call_no_ub ctre_match)|apply (call_no_ub ctre_starts_with)|apply (call_no_ub ctre_search)];
    unfold entry_point; auto.
Qed.

Lemma any_pok : forall r, pok (fun _ => true) (fun _ => true) (fun _ => true) true true true r = true.
Proof.
  fix IH 1. assert (L : forall l, forallb (pok (fun _ => true) (fun _ => true) (fun _ => true) true true true) l = true)
    by (fix IHl 1; intros [|x l]; [reflexivity|cbn [forallb]; rewrite IH; apply IHl]).
  intros r. destruct r as [ k | | t | l | l | | | k a b l | id l | id nm l | id | nm | neg l | neg l | l | k | k | a | m ];
    cbn [pok]; rewrite ?L; try reflexivity.
  - clear. induction t; auto.
  - destruct k; reflexivity.
  - destruct a; reflexivity.
Qed.

(** * NUL-terminated strings *)
Section Pointer.
Variables (s rest : list Z).
Hypothesis no_nul : ~ In 0%Z s.
Let mem := s ++ 0%Z :: rest.
Let Q (p q : nat) : Prop := p = q /\ p <= length s.

Lemma mem_at : forall p, p < length s -> nth_error mem p = nth_error s p.
Proof. intros. unfold mem. apply nth_error_app1. assumption. Qed.
Lemma mem_end : nth_error mem (length s) = Some 0%Z.
Proof. unfold mem. rewrite nth_error_app2 by lia. rewrite Nat.sub_diag. reflexivity. Qed.

Lemma pointer_sim : vsim Q eq true true (arr_view s) (zt_view mem).
Proof.
  constructor; cbn [arr_view zt_view vend vbeg vget vnext vprev vconv vsame]; try reflexivity; try (intros _).
  - intros p p' [<- Hp]. destruct (Nat.eqb_spec p (length s)) as [->|Hn].
    + rewrite mem_end. constructor. reflexivity.
    + rewrite mem_at by lia. destruct (nth_error s p) as [c|] eqn:E; [|apply nth_error_None in E; lia].
      constructor. symmetry. apply Z.eqb_neq. intros ->. apply no_nul. eapply nth_error_In; eassumption.
  - intros p p' [<- Hp]. constructor. reflexivity.
  - intros p p' [<- Hp]. destruct (nth_error s p) as [c|] eqn:E; [|constructor].
    rewrite mem_at by (apply nth_error_Some; congruence). rewrite E. constructor. reflexivity.
  - intros p p' [<- Hp]. destruct (Nat.ltb_spec p (length s)); [|constructor].
    destruct (Nat.ltb_spec p (length mem)) as [_|K]; [|unfold mem in K; rewrite app_length in K; cbn in K; lia].
    constructor. split; [reflexivity|lia].
  - intros p p' [<- Hp]. destruct p; constructor. split; [reflexivity|lia].
Qed.

Theorem pointer_same : forall a opt n f r, well_numbered r -> on_pointer a opt n mem f r = on_array a opt n s f r.
Proof.
  intros a opt n f r Hw. rewrite <- (move_res_id (on_array a opt n s f r)).
  apply (rrel_move Q); [intros i j [-> _]; reflexivity| |apply on_array_no_ub; assumption].
  assert (Q_eqb : forall a b a' b', Q a a' -> Q b b' -> Nat.eqb a b = Nat.eqb a' b') by (intros ? ? ? ? [-> _] [-> _]; reflexivity).
  assert (Q0 : Q 0 0) by (split; [reflexivity|lia]).
  pose proof (any_pok r) as Hr. pose proof pointer_sim as Hv.
  unfold on_pointer, on_array.
  destruct a; cbn [exec];
    [eapply sim_match with (okf := @eq flags) (Rv := @eq Z) (back := true) (lazy := true) (prev := true)
    |eapply sim_starts with (okf := @eq flags) (Rv := @eq Z) (back := true) (lazy := true) (prev := true)
    |eapply sim_search with (okf := @eq flags) (Rv := @eq Z) (back := true) (lazy := true) (prev := true)];
    try exact Hr; try assumption; try (intros; subst; auto); intros _; assumption.
Qed.
End Pointer.

(** * UTF-8 *)
(** No lazy quantifier and no backreference; with [prev], no item that looks at the preceding
    character either. *)
Definition u8_ok (prev : bool) (r : re) : bool := pok (fun _ => true) (fun _ => true) (fun _ => true) false false prev r.

Section Moved.
Variables (P : nat -> nat -> Prop) (g : nat -> nat) (prev : bool) (t mem : list Z) (strict : bool).
Hypothesis P_g : forall i j, P i j -> j = g i.
Hypothesis P_eqb : forall a b a' b', P a a' -> P b b' -> Nat.eqb a b = Nat.eqb a' b'.
Hypothesis P_0 : P 0 0.
Hypothesis sim : vsim P eq false prev (arr_view t) (utf8_view strict mem (length mem)).
Theorem u8_same : forall a opt n f r, well_numbered r -> u8_ok prev r = true ->
  on_u8 strict a opt n mem f r = move_res g (on_array a opt n t f r).
Proof.
  intros a opt n f r Hw Hr.
  apply (rrel_move P); [assumption| |apply on_array_no_ub; assumption].
  unfold on_u8, on_array.
  destruct a; cbn [exec];
    [eapply sim_match with (okf := @eq flags) (Rv := @eq Z) (back := false) (lazy := false) (prev := prev)
    |eapply sim_starts with (okf := @eq flags) (Rv := @eq Z) (back := false) (lazy := false) (prev := prev)
    |eapply sim_search with (okf := @eq flags) (Rv := @eq Z) (back := false) (lazy := false) (prev := prev)];
    try exact Hr; try assumption; try (intros; subst; auto); intros H; discriminate.
Qed.
End Moved.

(** Well-formed text. *)
Section Text.
Variables (t : list Z).
Hypothesis wf : wf_text t.
Let Q (i j : nat) : Prop := j = offset t i /\ i <= length t.
Lemma text_sim : vsim Q eq false true (arr_view t) (utf8_view true (encode t) (length (encode t))).
Proof.
  assert (N : encode t = encode t ++ []) by (symmetry; apply app_nil_r).
  constructor; cbn [arr_view utf8_view vend vbeg vget vnext vprev vconv vsame]; try reflexivity; try discriminate; try (intros _).
  - intros i j [-> Hi]. constructor. destruct (Nat.eqb_spec i (length t)) as [->|Hn].
    + rewrite offset_all by lia. symmetry. apply Nat.leb_le. lia.
    + symmetry. apply Nat.leb_gt. rewrite <- (offset_all t (length t)) by lia. apply offset_mono; lia.
  - intros i j [-> Hi]. constructor. destruct i as [|i]; [reflexivity|]. symmetry. apply Nat.eqb_neq.
    pose proof (offset_mono t 0 (S i)). lia.
  - intros i j [-> Hi]. destruct (nth_error t i) as [c|] eqn:E; [|constructor].
    rewrite N at 1. rewrite (text_get t [] i c) by (assumption || lia). constructor. reflexivity.
  - intros i j [-> Hi]. destruct (Nat.ltb_spec i (length t)); [|constructor].
    destruct (nth_error t i) as [c|] eqn:E; [|apply nth_error_None in E; lia].
    rewrite N. rewrite (text_next t [] i c) by assumption. constructor. split; [reflexivity|lia].
  - intros i j [-> Hi]. destruct i as [|i]; [constructor|].
    rewrite N at 1. rewrite (text_prev t [] i) by (assumption || lia). constructor. split; [reflexivity|lia].
Qed.
Lemma inj_eqb : forall i j i' j', Q i i' -> Q j j' -> Nat.eqb i j = Nat.eqb i' j'.
Proof.
  intros i j i' j' [-> Hi] [-> Hj]. destruct (Nat.eqb_spec i j) as [->|Hn]; [symmetry; apply Nat.eqb_refl|].
  symmetry. apply Nat.eqb_neq. destruct (Nat.lt_ge_cases i j).
  - pose proof (offset_mono t i j). lia.
  - pose proof (offset_mono t j i). lia.
Qed.
Theorem text_same : forall a opt n f r, well_numbered r -> u8_ok true r = true ->
  on_u8 true a opt n (encode t) f r = move_res (offset t) (on_array a opt n t f r).
Proof.
  apply (u8_same Q); [intros i j [-> _]; reflexivity|exact inj_eqb|split; [reflexivity|lia]|exact text_sim].
Qed.
End Text.

(** Arbitrary bytes: every lead unit announces how many units belong together; what does not decode is
    U+FFFD. Unicode table 3-6 for the announced length; overlong forms and surrogates are not singled
    out, as in the library. *)
Definition announced (b : Z) : nat :=
  if (b <? 0xC0)%Z then 1 else if (b <? 0xE0)%Z then 2 else if (b <? 0xF0)%Z then 3 else if (b <? 0xF8)%Z then 4 else 1.
Fixpoint pieces_ (n : nat) (bs : list Z) : list (list Z) :=
  match n, bs with
  | S n', b :: _ => firstn (announced b) bs :: pieces_ n' (skipn (announced b) bs)
  | _, _ => []
  end.
Definition pieces (bs : list Z) : list (list Z) := pieces_ (length bs) bs.
Definition is_trail (b : Z) : bool := ((0x80 <=? b) && (b <? 0xC0))%Z.
Definition value (x : list Z) : Z :=
  (match x with
  | [a] => if a <? 0x80 then a else 0xFFFD
  | [a; b] => if (Nat.eqb (announced a) 2%nat) && is_trail b then (a - 0xC0) * 64 + (b - 0x80) else 0xFFFD
  | [a; b; c] => if (Nat.eqb (announced a) 3%nat) && is_trail b && is_trail c
                 then ((a - 0xE0) * 64 + (b - 0x80)) * 64 + (c - 0x80) else 0xFFFD
  | [a; b; c; d] => if (Nat.eqb (announced a) 4%nat) && is_trail b && is_trail c && is_trail d
                    then (((a - 0xF0) * 64 + (b - 0x80)) * 64 + (c - 0x80)) * 64 + (d - 0x80) else 0xFFFD
  | _ => 0xFFFD
  end)%Z.
Definition decode (bs : list Z) : list Z := map value (pieces bs).
(** Where the iterator is after [i] steps: the announced lengths add up. *)
Definition step_len (x : list Z) : nat := match x with b :: _ => announced b | [] => 0 end.
Definition reached (bs : list Z) (i : nat) : nat := fold_right (fun x n => step_len x + n) 0 (firstn i (pieces bs)).

Definition byte (b : Z) : Prop := (0 <= b < 256)%Z.
Lemma announced_extra : forall b, byte b -> Z.to_nat (utf8_extra b) + 1 = announced b /\ (0 <= utf8_extra b <= 3)%Z.
Proof.
  intros b Hb. assert (H := sweep (fun b => Nat.eqb (Z.to_nat (utf8_extra b) + 1) (announced b) &&
    ((0 <=? utf8_extra b) && (utf8_extra b <=? 3))%Z) 0 256 ltac:(vm_compute; reflexivity) b Hb). cbv beta in H. lia.
Qed.
Lemma trail_cont : forall b, byte b -> is_cont b = is_trail b /\ (is_trail b = true -> Z.land b 63 = (b - 128)%Z).
Proof.
  intros b Hb. assert (H := sweep (fun b => Bool.eqb (is_cont b) (is_trail b) && (negb (is_trail b) || (Z.land b 63 =? b - 128)%Z)) 0 256
    ltac:(vm_compute; reflexivity) b Hb). cbv beta in H.
  apply andb_true_iff in H as [H1 H2]. apply eqb_prop in H1. split; [assumption|]. intros E. rewrite E in H2. cbn in H2. lia.
Qed.
Lemma lead_bits : forall b, byte b -> (Z.land b 128 =? 0)%Z = (b <? 128)%Z /\
  (announced b = 2 -> Z.land b 31 = (b - 0xC0)%Z) /\ (announced b = 3 -> Z.land b 15 = (b - 0xE0)%Z) /\
  (announced b = 4 -> Z.land b 7 = (b - 0xF0)%Z).
Proof.
  intros b Hb. assert (H := sweep (fun b => Bool.eqb (Z.land b 128 =? 0)%Z (b <? 128)%Z &&
    (negb (Nat.eqb (announced b) 2) || (Z.land b 31 =? b - 0xC0)%Z) && (negb (Nat.eqb (announced b) 3) || (Z.land b 15 =? b - 0xE0)%Z) &&
    (negb (Nat.eqb (announced b) 4) || (Z.land b 7 =? b - 0xF0)%Z)) 0 256 ltac:(vm_compute; reflexivity) b Hb). cbv beta in H.
  apply andb_true_iff in H as [H H4]. apply andb_true_iff in H as [H H3]. apply andb_true_iff in H as [H1 H2].
  apply eqb_prop in H1. repeat split; [assumption| | |]; intros E; rewrite E in *; cbn in *; lia.
Qed.
Lemma announced_range : forall b, 1 <= announced b <= 4.
Proof. intros b. unfold announced. repeat destruct (Z.ltb _ _); lia. Qed.

(** The iterator at a piece. *)
Lemma get_piece : forall pre b l rest, Forall byte (b :: l) -> 
  (b :: l) = firstn (announced b) (b :: l ++ rest) -> (length (b :: l) < announced b -> rest = []) ->
  utf8_get (pre ++ (b :: l) ++ rest) (length (pre ++ (b :: l) ++ rest)) (length pre) = Some (value (b :: l)).
Proof.
  intros pre b l rest Hb Hx Hr. inversion Hb as [|? ? B L]; subst.
  destruct (announced_extra b B) as [E1 E2]. destruct (lead_bits b B) as (A1 & A2 & A3 & A4).
  unfold utf8_get. rewrite nth_pre0, !nth_pre. cbn [nth_error app]. rewrite A1.
  pose proof (announced_range b) as An.
  assert (Lx : length (b :: l) = announced b \/ (length (b :: l) < announced b /\ rest = [])).
  { destruct (Nat.lt_ge_cases (length (b :: l)) (announced b)); [right; auto|left].
    apply (f_equal (@length Z)) in Hx. rewrite firstn_length in Hx. lia. }
  destruct (Z.ltb_spec b 128) as [Hlt|Hge].
  { assert (announced b = 1) as An1 by (unfold announced; destruct (Z.ltb_spec b 0xC0); lia).
    destruct l as [|? ?]; [|cbn [length] in Lx; lia]. unfold value. destruct (Z.ltb_spec b 0x80); [reflexivity|lia]. }
  destruct (Z.eqb_spec (utf8_extra b) 0) as [E0|E0].
  { cbn iota zeta. assert (announced b = 1) as An1 by lia. destruct l as [|? ?]; [|cbn [length] in Lx; lia]. unfold value.
    destruct (Z.ltb_spec b 0x80); [lia|reflexivity]. }
  rewrite !app_length. cbn [length]. rewrite app_length. cbn zeta.
  assert (Vshort : length (b :: l) < announced b -> value (b :: l) = 0xFFFD%Z).
  { intros Hs. destruct l as [|b1 [|b2 [|b3 [|b4 l]]]]; cbn [length value] in *; try reflexivity; try lia.
    - destruct (Z.ltb_spec b 0x80); [lia|reflexivity].
    - destruct (Nat.eqb_spec (announced b) 2); [lia|reflexivity].
    - destruct (Nat.eqb_spec (announced b) 3); [lia|reflexivity]. }
  destruct Lx as [Lx|[Ls ->]].
  2:{ rewrite (Vshort Ls). change (length (@nil Z)) with 0. destruct (Nat.leb_spec (length pre + S (length l + 0)) (length pre + Z.to_nat (utf8_extra b))); [reflexivity|].
      cbn [length] in Ls. lia. }
  destruct (Nat.leb_spec (length pre + S (length l + length rest)) (length pre + Z.to_nat (utf8_extra b))); [cbn [length] in Lx; lia|].
  assert (TC : forall x, In x l -> is_cont x = is_trail x /\ (is_trail x = true -> Z.land x 63 = (x - 128)%Z)).
  { intros x Hi. apply trail_cont. eapply Forall_forall; eassumption. }
  assert (TR : forall x, is_trail x = true -> (0 <= x - 128 < 64)%Z) by (unfold is_trail; lia).
  destruct l as [|b1 [|b2 [|b3 [|b4 l]]]]; cbn [length app nth_error] in *; try lia.
  - assert (announced b = 2) as An2 by lia. assert (utf8_extra b = 1%Z) as Ex by lia. rewrite Ex in *.
    destruct (TC b1) as [T1 T2]; [left; reflexivity|]. rewrite T1.
    unfold value. rewrite An2. cbn [Nat.eqb andb]. destruct (is_trail b1) eqn:T; [|reflexivity]. cbn [negb].
    change (Z.shiftr 63 1) with 31%Z. rewrite A2, T2, join by auto. reflexivity.
  - assert (announced b = 3) as An2 by lia. assert (utf8_extra b = 2%Z) as Ex by lia. rewrite Ex in *.
    destruct (TC b1) as [T1 T2]; [left; reflexivity|]. destruct (TC b2) as [T3 T4]; [right; left; reflexivity|]. rewrite T1, T3.
    unfold value. rewrite An2. cbn [Nat.eqb andb]. destruct (is_trail b1) eqn:T; [|reflexivity]. cbn [negb andb].
    destruct (is_trail b2) eqn:T'; [|reflexivity].
    change (Z.shiftr 63 2) with 15%Z. rewrite A3, T2, T4 by auto. rewrite (join (b - 224)) by auto. rewrite join by auto. reflexivity.
  - assert (announced b = 4) as An2 by lia. assert (utf8_extra b = 3%Z) as Ex by lia. rewrite Ex in *.
    destruct (TC b1) as [T1 T2]; [left; reflexivity|]. destruct (TC b2) as [T3 T4]; [right; left; reflexivity|].
    destruct (TC b3) as [T5 T6]; [right; right; left; reflexivity|]. rewrite T1, T3, T5.
    unfold value. rewrite An2. cbn [Nat.eqb andb]. destruct (is_trail b1) eqn:T; [|reflexivity]. cbn [negb andb].
    destruct (is_trail b2) eqn:T'; [|reflexivity]. cbn [negb andb]. destruct (is_trail b3) eqn:T''; [|reflexivity].
    change (Z.shiftr 63 3) with 7%Z. rewrite A4, T2, T4, T6 by auto. rewrite (join (b - 240)) by auto.
    rewrite (join ((b - 240) * 64 + (b1 - 128))%Z) by auto. rewrite join by auto. reflexivity.
Qed.

Lemma pieces_fuel : forall n m bs, length bs <= n -> length bs <= m -> pieces_ n bs = pieces_ m bs.
Proof.
  induction n as [|n IH]; intros m bs Hn Hm; [destruct bs; [destruct m; reflexivity|cbn in Hn; lia]|].
  destruct bs as [|b bs]; [destruct m; reflexivity|]. destruct m as [|m]; [cbn in Hm; lia|].
  cbn [pieces_]. f_equal. pose proof (announced_range b). apply IH; rewrite skipn_length; cbn [length] in *; lia.
Qed.
Lemma pieces_cons : forall b bs, pieces (b :: bs) = firstn (announced b) (b :: bs) :: pieces (skipn (announced b) (b :: bs)).
Proof.
  intros b bs. unfold pieces at 1. cbn [length pieces_]. f_equal.
  pose proof (announced_range b). apply pieces_fuel; rewrite ?skipn_length; cbn [length]; lia.
Qed.

(** The piece with index [i]. *)
Lemma piece_at : forall i bs x, nth_error (pieces bs) i = Some x ->
  exists pre b l rest, bs = pre ++ (b :: l) ++ rest /\ x = b :: l /\ length pre = reached bs i /\
    (b :: l) = firstn (announced b) (b :: l ++ rest) /\ (length (b :: l) < announced b -> rest = []) /\
    reached bs (S i) = reached bs i + announced b.
Proof.
  induction i as [|i IH]; intros bs x H.
  - destruct bs as [|b bs]; [discriminate|]. rewrite pieces_cons in H. cbn [nth_error] in H. injection H as <-.
    pose proof (announced_range b) as An. destruct (announced b) as [|a] eqn:E; [lia|].
    exists [], b, (firstn a bs), (skipn a bs). rewrite E. cbn [app firstn length]. rewrite firstn_skipn.
    repeat split.
    + intros Hl. rewrite firstn_length in Hl. apply skipn_all2. lia.
    + unfold reached. rewrite pieces_cons, E. cbn [firstn fold_right step_len]. lia.
  - destruct bs as [|b bs]; [discriminate|]. pose proof (announced_range b) as An.
    assert (R : forall k, reached (b :: bs) (S k) = announced b + reached (skipn (announced b) (b :: bs)) k).
    { intros k. unfold reached. rewrite pieces_cons. cbn [firstn fold_right]. f_equal.
      destruct (announced b) eqn:E; [lia|]. cbn [firstn step_len]. exact E. }
    rewrite pieces_cons in H. cbn [nth_error] in H.
    destruct (IH _ _ H) as (pre & b' & l & rest & E1 & E2 & E3 & E4 & E5 & E6).
    exists (firstn (announced b) (b :: bs) ++ pre), b', l, rest. rewrite <- app_assoc, <- E1, firstn_skipn.
    rewrite app_length, E3, !R, E6. repeat split; auto; [|lia].
    f_equal. apply firstn_length_le.
    destruct (Nat.le_gt_cases (announced b) (length (b :: bs))) as [|G]; [assumption|].
    rewrite skipn_all2 in E1 by lia. destruct pre; discriminate.
Qed.
Lemma reached_all : forall bs, length bs <= reached bs (length (pieces bs)).
Proof.
  intros bs. remember (length bs) as n eqn:En. assert (H : length bs <= n) by lia. rewrite En. clear En. revert bs H.
  induction n as [|n IH]; intros bs H; [lia|]. destruct bs as [|b bs]; [cbn; lia|].
  pose proof (announced_range b) as An. specialize (IH (skipn (announced b) (b :: bs))).
  rewrite skipn_length in IH. cbn [length] in H. specialize (IH ltac:(cbn [length]; lia)).
  unfold reached in *. rewrite pieces_cons. cbn [length firstn fold_right]. cbn [length] in *.
  assert (step_len (firstn (announced b) (b :: bs)) = announced b) by (destruct (announced b) eqn:E; [lia|exact E]). lia.
Qed.
Lemma reached_mono : forall bs i j, i < j -> j <= length (pieces bs) -> reached bs i < reached bs j.
Proof.
  intros bs i j H. induction H as [|j H IH]; intros Hj.
  - destruct (nth_error (pieces bs) i) as [x|] eqn:E; [|apply nth_error_None in E; lia].
    destruct (piece_at _ _ _ E) as (pre & b & l & rest & _ & _ & _ & _ & _ & ->). pose proof (announced_range b). lia.
  - destruct (nth_error (pieces bs) j) as [x|] eqn:E; [|apply nth_error_None in E; lia].
    destruct (piece_at _ _ _ E) as (pre & b & l & rest & _ & _ & _ & _ & _ & ->). pose proof (announced_range b). lia.
Qed.
Lemma reached_bound : forall bs i, reached bs i <= length bs + 3.
Proof.
  intros bs i. destruct (Nat.lt_ge_cases 0 (length (pieces bs))) as [Hp|Hp].
  - assert (K : forall j, j <= length (pieces bs) -> reached bs j <= length bs + 3).
    { intros [|j] Hj; [unfold reached; cbn; lia|].
      destruct (nth_error (pieces bs) j) as [x|] eqn:E; [|apply nth_error_None in E; lia].
      destruct (piece_at _ _ _ E) as (pre & b & l & rest & E1 & _ & E3 & _ & _ & ->). pose proof (announced_range b).
      apply (f_equal (@length Z)) in E1. rewrite !app_length in E1. cbn [length] in E1. lia. }
    destruct (Nat.le_gt_cases i (length (pieces bs))); [auto|]. unfold reached. rewrite firstn_all2 by lia.
    specialize (K (length (pieces bs)) ltac:(lia)). unfold reached in K. rewrite firstn_all in K. assumption.
  - unfold reached. destruct (pieces bs); [|cbn in Hp; lia]. destruct i; cbn; lia.
Qed.

Section Bytes.
Variables (bs : list Z).
Hypothesis bytes : Forall byte bs.
Let Q (i j : nat) : Prop := j = reached bs i /\ i <= length (decode bs).
Lemma decode_length : length (decode bs) = length (pieces bs).
Proof. apply map_length. Qed.
Lemma bytes_sim : vsim Q eq false false (arr_view (decode bs)) (utf8_view false bs (length bs)).
Proof.
  constructor; cbn [arr_view utf8_view vend vbeg vget vnext vprev vconv vsame]; try reflexivity; try discriminate.
  - intros i j [-> Hi]. constructor. destruct (Nat.eqb_spec i (length (decode bs))) as [->|Hn].
    + rewrite decode_length. symmetry. apply Nat.leb_le, reached_all.
    + symmetry. apply Nat.leb_gt. rewrite decode_length in *.
      destruct (nth_error (pieces bs) i) as [x|] eqn:E; [|apply nth_error_None in E; lia].
      destruct (piece_at _ _ _ E) as (pre & b & l & rest & E1 & _ & E3 & _). apply (f_equal (@length Z)) in E1. rewrite !app_length in E1. cbn [length] in E1. lia.
  - intros i j [-> Hi]. constructor. destruct i as [|i]; [reflexivity|]. symmetry. apply Nat.eqb_neq.
    rewrite decode_length in Hi. pose proof (reached_mono bs 0 (S i)). lia.
  - intros i j [-> Hi]. unfold decode. rewrite nth_error_map. destruct (nth_error (pieces bs) i) as [x|] eqn:E; [|constructor].
    destruct (piece_at _ _ _ E) as (pre & b & l & rest & E1 & -> & E3 & E4 & E5 & _). cbn [option_map].
    rewrite <- E3. rewrite E1 at 1 2. rewrite get_piece; [constructor; reflexivity| |assumption|assumption].
    rewrite E1 in bytes. rewrite !Forall_app in bytes. tauto.
  - intros i j [-> Hi]. destruct (Nat.ltb_spec i (length (decode bs))); [|constructor].
    rewrite decode_length in *. destruct (nth_error (pieces bs) i) as [x|] eqn:E; [|apply nth_error_None in E; lia].
    destruct (piece_at _ _ _ E) as (pre & b & l & rest & E1 & _ & E3 & _ & _ & E6). unfold utf8_next.
    assert (N : nth_error bs (reached bs i) = Some b) by (rewrite <- E3; rewrite E1 at 1; apply nth_pre0).
    rewrite N. cbn [andb]. assert (B : byte b).
    { eapply Forall_forall; [exact bytes|]. eapply nth_error_In; eassumption. }
    destruct (announced_extra b B) as [X _]. constructor. split; [lia|rewrite decode_length; lia].
Qed.
Lemma bytes_eqb : forall i j i' j', Q i i' -> Q j j' -> Nat.eqb i j = Nat.eqb i' j'.
Proof.
  intros i j i' j' [-> Hi] [-> Hj]. rewrite decode_length in *. destruct (Nat.eqb_spec i j) as [->|Hn]; [symmetry; apply Nat.eqb_refl|].
  symmetry. apply Nat.eqb_neq. destruct (Nat.lt_ge_cases i j).
  - pose proof (reached_mono bs i j). lia.
  - pose proof (reached_mono bs j i). lia.
Qed.
Theorem bytes_same : forall a opt n f r, well_numbered r -> u8_ok false r = true ->
  on_u8 false a opt n bs f r = move_res (reached bs) (on_array a opt n (decode bs) f r).
Proof.
  apply (u8_same Q); [intros i j [-> _]; reflexivity|exact bytes_eqb|split; [reflexivity|lia]|exact bytes_sim].
Qed.
Corollary bytes_reads : forall a opt n f r, well_numbered r -> u8_ok false r = true -> on_u8 false a opt n bs f r <> UB.
Proof.
  intros a opt n f r Hw Hr. rewrite bytes_same by assumption. pose proof (on_array_no_ub a opt n (decode bs) f r Hw).
  destruct (on_array a opt n (decode bs) f r); cbn; congruence.
Qed.
End Bytes.

(** The iterator alone, at any offset inside the buffer. *)
Theorem get_reads : forall bs p, Forall byte bs -> p < length bs -> utf8_get bs (length bs) p <> None.
Proof.
  intros bs p Hb Hp. unfold utf8_get.
  destruct (nth_error bs p) as [b|] eqn:E; [|apply nth_error_None in E; lia].
  assert (B : byte b) by (eapply Forall_forall; [exact Hb|]; eapply nth_error_In; eassumption).
  destruct (announced_extra b B) as [_ R].
  destruct (Z.land b 128 =? 0)%Z; [discriminate|]. cbn zeta.
  destruct (Z.eqb_spec (utf8_extra b) 0); [discriminate|].
  destruct (Nat.leb_spec (length bs) (p + Z.to_nat (utf8_extra b))); [discriminate|].
  assert (N : forall k, k <= Z.to_nat (utf8_extra b) -> exists x, nth_error bs (p + k) = Some x).
  { intros k Hk. destruct (nth_error bs (p + k)) as [x|] eqn:Ek; [eauto|]. apply nth_error_None in Ek. lia. }
  destruct (N 1) as [b1 ->]; [lia|]. destruct (negb (is_cont b1)); [discriminate|].
  destruct (Z.eqb_spec (utf8_extra b) 1); [discriminate|].
  destruct (N 2) as [b2 ->]; [lia|]. destruct (negb (is_cont b2)); [discriminate|].
  destruct (Z.eqb_spec (utf8_extra b) 2); [discriminate|].
  destruct (N 3) as [b3 ->]; [lia|]. destruct (negb (is_cont b3)); discriminate.
Qed.
Theorem next_reads : forall bs p, Forall byte bs -> p < length bs ->
  exists q, utf8_next false bs p = Some q /\ p < q <= length bs + 3.
Proof.
  intros bs p Hb Hp. unfold utf8_next.
  destruct (nth_error bs p) as [b|] eqn:E; [|apply nth_error_None in E; lia].
  assert (B : byte b) by (eapply Forall_forall; [exact Hb|]; eapply nth_error_In; eassumption).
  destruct (announced_extra b B) as [_ R]. eexists. split; [reflexivity|lia].
Qed.
(** [--] stays inside exactly when a unit that is not a continuation precedes. *)
Theorem prev_reads : forall bs p, Forall byte bs -> p <= length bs ->
  (utf8_prev bs (length bs) p <> None <-> exists q b, q < p /\ nth_error bs q = Some b /\ is_trail b = false).
Proof.
  intros bs p Hb Hp. unfold utf8_prev. destruct (Nat.ltb_spec (length bs) p); [lia|]. destruct p as [|p].
  { split; [congruence|intros (q & b & H1 & _); lia]. }
  induction p as [|p IH].
  - destruct (nth_error bs 0) as [b|] eqn:E; [|apply nth_error_None in E; lia]. cbn [utf8_back]. rewrite E.
    assert (B : byte b) by (eapply Forall_forall; [exact Hb|]; eapply nth_error_In; eassumption).
    rewrite (proj1 (trail_cont b B)). destruct (is_trail b) eqn:T.
    + split; [congruence|]. intros (q & b' & H1 & H2 & H3). assert (q = 0) as -> by lia. congruence.
    + split; [|discriminate]. intros _. exists 0, b. auto with arith.
  - destruct (nth_error bs (S p)) as [b|] eqn:E; [|apply nth_error_None in E; lia]. cbn [utf8_back]. rewrite E.
    assert (B : byte b) by (eapply Forall_forall; [exact Hb|]; eapply nth_error_In; eassumption).
    rewrite (proj1 (trail_cont b B)). destruct (is_trail b) eqn:T.
    + rewrite IH by lia. split; intros (q & b' & H1 & H2 & H3); exists q, b'; (split; [|auto]); [lia|].
      assert (q <> S p) by congruence. lia.
    + split; [|discriminate]. intros _. exists (S p), b. auto with arith.
Qed.

(** * Letter case *)
Definition letters : list Z := map Z.of_nat (seq 65 26 ++ seq 97 26).
Lemma letters_in : forall v, is_alpha v = true <-> In v letters.
Proof.
  intros v. unfold letters. rewrite in_map_iff. unfold is_alpha, is_lower, is_upper. split.
  - intros H. exists (Z.to_nat v). split; [lia|]. apply in_app_iff. rewrite !in_seq. lia.
  - intros (k & <- & H). apply in_app_iff in H. rewrite !in_seq in H. lia.
Qed.
(** A class that does not tell the two cases of a letter apart when matched case-insensitively. *)
Definition folds (k : cls) : bool :=
  forallb (fun v => Bool.eqb (match_cls true k v) (match_cls true k (swap_case v))) letters.
(** A class for which the case-insensitive flag makes no difference. *)
Definition indifferent (k : cls) : bool :=
  forallb (fun v => Bool.eqb (match_cls true k v) (match_cls false k v)) letters.

Lemma lit_fold : forall l v, is_alpha v = true -> match_lit true l v = match_lit true l (swap_case v).
Proof.
  intros l v Hv. destruct (is_alpha l) eqn:Hl.
  - assert (H : forallb (fun l => forallb (fun v => Bool.eqb (match_lit true l v) (match_lit true l (swap_case v))) letters) letters = true)
      by (vm_compute; reflexivity).
    rewrite forallb_forall in H. specialize (H l (proj1 (letters_in l) Hl)).
    rewrite forallb_forall in H. specialize (H v (proj1 (letters_in v) Hv)). apply eqb_prop in H. assumption.
  - assert (N : forall x, is_alpha x = true -> lit_eq x l = false).
    { intros x Hx. apply Z.eqb_neq. intros E. unfold is_alpha, is_lower, is_upper, conv, u32 in *.
      destruct (Z.ltb_spec l 128); lia. }
    assert (S' : is_alpha (swap_case v) = true) by (unfold is_alpha, is_lower, is_upper, swap_case in *;
      destruct ((65 <=? v)%Z && (v <=? 90)%Z) eqn:E1; [lia|]; destruct ((97 <=? v)%Z && (v <=? 122)%Z) eqn:E2; lia).
    unfold match_lit. rewrite Hl. cbn [andb]. rewrite !N by assumption. reflexivity.
Qed.

(** The two subjects differ in the case of letters only. *)
Definition case_variant (x x' : Z) : Prop := x' = x \/ x' = swap_case x.

Lemma arr_sim : forall (Rv : Z -> Z -> Prop) back s s', Forall2 Rv s s' -> vsim eq Rv back true (arr_view s) (arr_view s').
Proof.
  intros Rv back s s' H. assert (L : length s = length s') by (induction H; cbn; congruence).
  constructor; cbn [arr_view vend vbeg vget vnext vprev vconv vsame]; try reflexivity; try (intros _); intros; subst.
  - rewrite L. constructor. reflexivity.
  - constructor. reflexivity.
  - clear L. revert p'. induction H as [|x x' s s' Hx Hs IH]; intros [|p]; cbn [nth_error]; try constructor; auto.
  - rewrite L. destruct (Nat.ltb p' (length s')); constructor. reflexivity.
  - destruct p'; constructor. reflexivity.
Qed.

Section Same.
Variables (Rv : Z -> Z -> Prop) (okf : flags -> flags -> Prop) (okc : cls -> bool) (okl : Z -> bool) (okm : mode -> bool) (back : bool).
Hypothesis okf_same : forall f f', okf f f' -> f_block f = f_block f' /\ f_ml f = f_ml f'.
Hypothesis okf_block : forall f f' b, okf f f' -> okf (consumed_something f b) (consumed_something f' b).
Hypothesis okf_ne : forall f f', okf f f' -> okf (not_empty_match f) (not_empty_match f').
Hypothesis okf_mode : forall f f' m, okf f f' -> okm m = true -> okf (add_mode f m) (add_mode f' m).
Hypothesis R_cls : forall f f' k x x', okf f f' -> okc k = true -> Rv x x' -> match_cls (f_ci f) k x = match_cls (f_ci f') k x'.
Hypothesis R_lit : forall f f' k x x', okf f f' -> okl k = true -> Rv x x' -> match_lit (f_ci f) k x = match_lit (f_ci f') k x'.
Hypothesis R_nl : forall x x', Rv x x' -> Z.eqb x 10 = Z.eqb x' 10.
Hypothesis R_eq : back = true -> forall x x' y y', Rv x x' -> Rv y y' -> Z.eqb x y = Z.eqb x' y'.
Theorem same_on : forall s s' f f' r, Forall2 Rv s s' -> okf f f' -> pok okc okl okm back true true r = true -> well_numbered r ->
  forall a opt n, on_array a opt n s' f' r = on_array a opt n s f r.
Proof.
  intros s s' f f' r Hs Hf Hr Hw a opt n. rewrite <- (move_res_id (on_array a opt n s f r)).
  apply (rrel_move eq); [auto| |apply on_array_no_ub; assumption].
  pose proof (arr_sim Rv back s s' Hs) as Hv. unfold on_array.
  destruct a; cbn [exec];
    [eapply sim_match with (okf := okf) (Rv := Rv) (back := back) (lazy := true) (prev := true)
    |eapply sim_starts with (okf := okf) (Rv := Rv) (back := back) (lazy := true) (prev := true)
    |eapply sim_search with (okf := okf) (Rv := Rv) (back := back) (lazy := true) (prev := true)];
    try exact Hr; try eassumption; try (intros; subst; auto; fail); try reflexivity; intros _; assumption.
Qed.
End Same.

(** No backreference, no switch back to case-sensitive, every class [folds]. *)
Definition folding (r : re) : bool :=
  pok folds (fun _ => true) (fun m => match m with ModeCS => false | _ => true end) false true true r.
Theorem flip_same : forall s s' f r, Forall2 case_variant s s' -> f_ci f = true -> folding r = true -> well_numbered r ->
  forall a opt n, on_array a opt n s' f r = on_array a opt n s f r.
Proof.
  intros s s' f r Hs Hf Hr Hw.
  apply (same_on case_variant (fun f f' => f = f' /\ f_ci f = true) folds (fun _ => true)
    (fun m => match m with ModeCS => false | _ => true end) false); auto.
  - intros g g' [-> _]. auto.
  - intros g g' b [-> H]. split; [reflexivity|]. destruct b; assumption.
  - intros g g' [-> H]. split; [reflexivity|assumption].
  - intros g g' m [-> H] Hm. split; [reflexivity|]. destruct m; try discriminate; auto.
  - intros g g' k x x' [-> H] Hk [-> | ->]; [reflexivity|]. rewrite H. destruct (is_alpha x) eqn:E; [|rewrite swap_other by assumption; reflexivity].
    apply eqb_prop. unfold folds in Hk. rewrite forallb_forall in Hk. apply Hk, letters_in. assumption.
  - intros g g' k x x' [-> H] Hk [-> | ->]; [reflexivity|]. rewrite H. destruct (is_alpha x) eqn:E; [|rewrite swap_other by assumption; reflexivity].
    apply lit_fold. assumption.
  - intros x x' [-> | ->]; [reflexivity|]. unfold swap_case.
    destruct ((65 <=? x)%Z && (x <=? 90)%Z) eqn:E1; [lia|]. destruct ((97 <=? x)%Z && (x <=? 122)%Z) eqn:E2; lia.
  - discriminate.
Qed.

(** Flags that differ in case folding only. *)
Definition same_but_case (f f' : flags) : Prop := f_block f = f_block f' /\ f_ml f = f_ml f'.
Lemma lit_plain : forall l v ci ci', is_alpha v = false -> match_lit ci l v = match_lit ci' l v.
Proof.
  intros l v ci ci' Hv. assert (H : forall c, match_lit c l v = lit_eq v l); [|rewrite !H; reflexivity].
  intros c. unfold match_lit. destruct (is_alpha l && c && lit_eq v (flip l)) eqn:E; [|reflexivity].
  apply andb_true_iff in E as [E E2]. apply andb_true_iff in E as [E _].
  assert (K : forallb (fun l => is_alpha (flip l)) letters = true) by (vm_compute; reflexivity).
  rewrite forallb_forall in K. specialize (K l (proj1 (letters_in l) E)).
  unfold lit_eq, conv in E2. assert (flip l <? 128 = true)%Z as F by (unfold is_alpha, is_lower, is_upper in K; lia).
  rewrite F in E2. apply Z.eqb_eq in E2. congruence.
Qed.
Lemma cls_plain : forall k v ci ci', is_alpha v = false -> match_cls ci k v = match_cls ci' k v.
Proof.
  intros k v ci ci' Hv. induction k as [l | a b | l IH | l IH | vs | l IH | tbl] using cls_ind2; cbn [match_cls]; try reflexivity.
  - apply lit_plain. assumption.
  - assert (H : forall c, match_range c a b v = lit_ge v a && lit_le v b); [|rewrite !H; reflexivity].
    intros c. unfold match_range.
    destruct (((is_lower a && is_lower b) || (is_upper a && is_upper b)) && c && (lit_ge v (flip a) && lit_le v (flip b))) eqn:E; [|reflexivity].
    exfalso. apply andb_true_iff in E as [E E2]. apply andb_true_iff in E as [E _]. apply andb_true_iff in E2 as [E2 E3].
    assert (K : forallb (fun l => Bool.eqb (is_lower (flip l)) (is_upper l) && Bool.eqb (is_upper (flip l)) (is_lower l)) letters = true)
      by (vm_compute; reflexivity).
    rewrite forallb_forall in K. pose proof (K a) as Ka. pose proof (K b) as Kb.
    assert (is_alpha a = true /\ is_alpha b = true) as [A B] by (unfold is_alpha; destruct (is_lower a), (is_upper a), (is_lower b), (is_upper b); cbn in *; auto; discriminate).
    specialize (Ka (proj1 (letters_in a) A)). specialize (Kb (proj1 (letters_in b) B)).
    apply andb_true_iff in Ka as [Ka1 Ka2]. apply andb_true_iff in Kb as [Kb1 Kb2].
    apply eqb_prop in Ka1, Ka2, Kb1, Kb2. rewrite <- Ka1, <- Ka2, <- Kb1, <- Kb2 in E.
    unfold lit_ge, lit_le, conv in E2, E3. unfold is_alpha, is_lower, is_upper in E, Hv. 
    destruct (Z.ltb_spec (flip a) 128); destruct (Z.ltb_spec (flip b) 128); lia.
  - induction IH as [|x l Hx Hl IH]; [reflexivity|]. cbn [existsb]. rewrite Hx, IH. reflexivity.
  - f_equal. induction IH as [|x l Hx Hl IH]; [reflexivity|]. cbn [existsb]. rewrite Hx, IH. reflexivity.
  - induction vs as [|x l IH]; [reflexivity|]. cbn [existsb]. rewrite (lit_plain x v ci ci') by assumption. rewrite IH. reflexivity.
  - f_equal. induction IH as [|x l Hx Hl IH]; [reflexivity|]. cbn [existsb]. rewrite Hx, IH. reflexivity.
Qed.
(** Subjects without ASCII letters: every pattern. *)
Theorem no_letter_subject : forall s f f' r, forallb (fun v => negb (is_alpha v)) s = true -> same_but_case f f' -> well_numbered r ->
  forall a opt n, on_array a opt n s f' r = on_array a opt n s f r.
Proof.
  intros s f f' r Hs Hf Hw.
  apply (same_on (fun x x' => x' = x /\ is_alpha x = false) same_but_case (fun _ => true) (fun _ => true) (fun _ => true) true); auto.
  - intros g g' b [H1 H2]. destruct b; split; assumption || reflexivity.
  - intros g g' [H1 H2]. split; [reflexivity|assumption].
  - intros g g' m [H1 H2] _. destruct m; split; assumption || reflexivity.
  - intros g g' k x x' _ _ [-> H]. apply cls_plain. assumption.
  - intros g g' k x x' _ _ [-> H]. apply lit_plain. assumption.
  - intros x x' [-> _]. reflexivity.
  - intros _ x x' y y' [-> _] [-> _]. reflexivity.
  - clear Hf. induction s as [|v s IH]; constructor; cbn [forallb] in Hs; apply andb_true_iff in Hs as [H1 H2]; auto.
    split; [reflexivity|]. destruct (is_alpha v); [discriminate|reflexivity].
  - apply any_pok.
Qed.
(** Patterns without letters: no literal letter, every class [indifferent]. *)
Definition caseless (r : re) : bool := pok indifferent (fun l => negb (is_alpha l)) (fun _ => true) true true true r.
Theorem no_letter_pattern : forall s f f' r, caseless r = true -> same_but_case f f' -> well_numbered r ->
  forall a opt n, on_array a opt n s f' r = on_array a opt n s f r.
Proof.
  intros s f f' r Hr Hf Hw.
  apply (same_on eq same_but_case indifferent (fun l => negb (is_alpha l)) (fun _ => true) true); auto.
  - intros g g' b [H1 H2]. destruct b; split; assumption || reflexivity.
  - intros g g' [H1 H2]. split; [reflexivity|assumption].
  - intros g g' m [H1 H2] _. destruct m; split; assumption || reflexivity.
  - intros g g' k x x' _ Hk <-. destruct (is_alpha x) eqn:E; [|apply cls_plain; assumption].
    unfold indifferent in Hk. rewrite forallb_forall in Hk. specialize (Hk x (proj1 (letters_in x) E)). apply eqb_prop in Hk.
    destruct (f_ci g), (f_ci g'); congruence.
  - intros g g' k x x' _ Hk <-. unfold match_lit. apply negb_true_iff in Hk. rewrite Hk. reflexivity.
  - intros x x' <-. reflexivity.
  - intros _ x x' y y' <- <-. reflexivity.
  - induction s; constructor; auto.
Qed.
(** Classes written without letters or with one-case ranges only, and no Unicode property. *)
Fixpoint no_prop (k : cls) : bool :=
  match k with CProp _ => false | CSet l | CNeg l | CNegate l => forallb no_prop l | _ => true end.
Lemma has_fold : forall k v, no_prop k = true -> cls_has true k v = cls_has true k (swap_case v).
Proof.
  assert (F : forall Q v, fold_test true Q v = fold_test true Q (swap_case v)) by (intros; symmetry; apply fold_swap).
  intros k v. induction k as [l | a b | l IH | l IH | vs | l IH | tbl] using cls_ind2; cbn [cls_has no_prop]; intros H.
  - apply F.
  - apply F.
  - induction IH as [|x l Hx Hl IH]; [reflexivity|]. cbn [existsb forallb] in *. apply andb_true_iff in H as [H1 H2].
    rewrite Hx, IH by assumption. reflexivity.
  - f_equal. induction IH as [|x l Hx Hl IH]; [reflexivity|]. cbn [existsb forallb] in *. apply andb_true_iff in H as [H1 H2].
    rewrite Hx, IH by assumption. reflexivity.
  - clear H. induction vs as [|x l IH]; [reflexivity|]. cbn [existsb]. rewrite IH. f_equal. apply F.
  - f_equal. induction IH as [|x l Hx Hl IH]; [reflexivity|]. cbn [existsb forallb] in *. apply andb_true_iff in H as [H1 H2].
    rewrite Hx, IH by assumption. reflexivity.
  - discriminate.
Qed.
Theorem ok_folds : forall k, cls_ok true k = true -> no_prop k = true -> folds k = true.
Proof.
  intros k Hk Hp. unfold folds. apply forallb_forall. intros v Hv. apply letters_in in Hv.
  assert (V : val_ok v = true) by (unfold val_ok, is_alpha, is_lower, is_upper in *; lia).
  rewrite !match_cls_spec by (auto using swap_val). rewrite (has_fold k v Hp). apply eqb_reflx.
Qed.

Theorem pointer_no_ub : forall s, ~ In 0%Z s -> forall a opt n f r, well_numbered r -> on_pointer a opt n (s ++ [0%Z]) f r <> UB.
Proof. intros s Hs a opt n f r Hw. rewrite pointer_same by assumption. apply on_array_no_ub. assumption. Qed.
Theorem text_steps : forall t, wf_text t -> forall i c, nth_error t i = Some c -> let mem := encode t in let len := length mem in
  utf8_get mem len (offset t i) = Some c /\ utf8_next true mem (offset t i) = Some (offset t (S i)) /\
  utf8_prev mem len (offset t (S i)) = Some (offset t i).
Proof.
  intros t Hw i c E mem len. assert (N : mem = encode t ++ []) by (symmetry; apply app_nil_r).
  rewrite N. split; [|split].
  - apply text_get; auto.
  - eapply text_next; eassumption.
  - apply text_prev; [assumption|apply nth_error_Some; congruence|reflexivity].
Qed.
Definition numbered (r : re) : bool := ids_ok [] r && ids_distinct r.
Lemma numbered_spec : forall r, numbered r = true -> well_numbered r.
Proof.
  intros r H. unfold numbered in H. apply andb_true_iff in H as [H1 H2]. split; [assumption|].
  apply nodup_nat_spec. assumption.
Qed.

(** A view of the first [len] code units of a larger storage. *)
Definition on_u8_part (strict : bool) (a : method) (opt : bool) (n : nat) (mem : list Z) (len : nat) (f : flags) (r : re) : res caps :=
  exec a opt n (utf8_view strict mem len) (raw8_view mem) f r 0.
Lemma on_u8_whole : forall strict a opt n mem f r, on_u8 strict a opt n mem f r = on_u8_part strict a opt n mem (length mem) f r.
Proof. reflexivity. Qed.

(** ASCII text followed by a NUL: lazy quantifiers too. *)
Definition u8_lazy_ok (r : re) : bool := pok (fun _ => true) (fun _ => true) (fun _ => true) false true true r.
Definition ascii_text (t : list Z) : Prop := Forall (fun c => 0 < c < 128)%Z t.
Section Ascii.
Variables (t rest : list Z).
Hypothesis asc : ascii_text t.
Let mem := t ++ 0%Z :: rest.
Let Q (p q : nat) : Prop := p = q /\ p <= length t.
Lemma ascii_at : forall p c, nth_error t p = Some c -> nth_error mem p = Some c /\ (0 < c < 128)%Z.
Proof.
  intros p c E. split.
  - unfold mem. rewrite nth_error_app1; [assumption|]. apply nth_error_Some. congruence.
  - refine (proj1 (Forall_forall _ _) asc c _). eapply nth_error_In; eassumption.
Qed.
Lemma ascii_nul : nth_error mem (length t) = Some 0%Z.
Proof. unfold mem. rewrite nth_error_app2 by lia. rewrite Nat.sub_diag. reflexivity. Qed.
Lemma ascii_len : length t < length mem.
Proof. unfold mem. rewrite app_length. cbn. lia. Qed.
Lemma ascii_sim : vsim Q eq false true (arr_view t) (utf8_view true mem (length t)).
Proof.
  pose proof ascii_len as Hlen.
  constructor; cbn [arr_view utf8_view vend vbeg vget vnext vprev vconv vsame]; try reflexivity; try discriminate; try (intros _).
  - intros p q [<- Hp]. constructor. destruct (Nat.eqb_spec p (length t)), (Nat.leb_spec (length t) p); lia || reflexivity.
  - intros p q [<- Hp]. constructor. reflexivity.
  - intros p q [<- Hp]. destruct (nth_error t p) as [c|] eqn:E; [|constructor]. destruct (ascii_at p c E) as [E' R].
    unfold utf8_get. rewrite E'. destruct (ascii c) as (_ & _ & ->); [lia|]. constructor. reflexivity.
  - intros p q [<- Hp]. destruct (Nat.ltb_spec p (length t)); [|constructor].
    destruct (nth_error t p) as [c|] eqn:E; [|apply nth_error_None in E; lia]. destruct (ascii_at p c E) as [E' R].
    unfold utf8_next. rewrite E'. destruct (ascii c) as (-> & _); [lia|]. cbn [Z.to_nat].
    rewrite (proj2 (Nat.leb_le _ _)) by lia. cbn [negb andb]. constructor. split; lia.
  - intros p q [<- Hp]. destruct p as [|p]; [constructor|].
    destruct (nth_error t p) as [c|] eqn:E; [|apply nth_error_None in E; lia]. destruct (ascii_at p c E) as [E' R].
    unfold utf8_prev. rewrite (proj2 (Nat.ltb_ge _ _)) by lia.
    rewrite (back_stop mem p c E') by (apply ascii; lia). constructor. split; lia.
Qed.
Lemma ascii_raw_sim : vsim Q eq false true (arr_view t) (raw8_view mem).
Proof.
  pose proof ascii_len as Hlen.
  constructor; cbn [arr_view raw8_view vend vbeg vget vnext vprev vconv vsame]; try reflexivity; try discriminate; try (intros _).
  - intros p q [<- Hp]. destruct (Nat.eqb_spec p (length t)) as [->|]; [rewrite ascii_nul; constructor; reflexivity|].
    destruct (nth_error t p) as [c|] eqn:E; [|apply nth_error_None in E; lia]. destruct (ascii_at p c E) as [-> R].
    constructor. symmetry. apply Z.eqb_neq. lia.
  - intros p q [<- Hp]. constructor. reflexivity.
  - intros p q [<- Hp]. destruct (nth_error t p) as [c|] eqn:E; [|constructor]. destruct (ascii_at p c E) as [-> R].
    constructor. reflexivity.
  - intros p q [<- Hp]. destruct (Nat.ltb_spec p (length t)); [|constructor].
    rewrite (proj2 (Nat.ltb_lt _ _)) by lia. constructor. split; lia.
  - intros p q [<- Hp]. destruct p; constructor. split; lia.
Qed.
Theorem ascii_same : forall a opt n f r, well_numbered r -> u8_lazy_ok r = true ->
  on_u8_part true a opt n mem (length t) f r = on_array a opt n t f r.
Proof.
  intros a opt n f r Hw Hr. rewrite <- (move_res_id (on_array a opt n t f r)).
  apply (rrel_move Q); [intros i j [-> _]; reflexivity| |apply on_array_no_ub; assumption].
  assert (Q_eqb : forall a b a' b', Q a a' -> Q b b' -> Nat.eqb a b = Nat.eqb a' b') by (intros ? ? ? ? [-> _] [-> _]; reflexivity).
  assert (Q0 : Q 0 0) by (split; [reflexivity|lia]).
  pose proof ascii_sim as Hv. pose proof ascii_raw_sim as Hw'.
  unfold on_u8_part, on_array.
  destruct a; cbn [exec];
    [eapply sim_match with (okf := @eq flags) (Rv := @eq Z) (back := false) (lazy := true) (prev := true)
    |eapply sim_starts with (okf := @eq flags) (Rv := @eq Z) (back := false) (lazy := true) (prev := true)
    |eapply sim_search with (okf := @eq flags) (Rv := @eq Z) (back := false) (lazy := true) (prev := true)];
    try exact Hr; try assumption; try (intros; subst; auto; fail); try discriminate; intros _; assumption.
Qed.
End Ascii.
