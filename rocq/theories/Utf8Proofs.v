(** The UTF-8 iterator on well-formed text (C11), on arbitrary bytes (C12), and matching on UTF-8
    subjects (C10). *)
From Coq Require Import List ZArith NArith Bool Lia Arith ZifyBool ZifyNat.
From Verif Require Import Chars Syntax First Utf8 View Eval Api Sim.
Import ListNotations.
Ltac Zify.zify_post_hook ::= Z.div_mod_to_equations.

(** * UTF-8, by the book (Unicode table 3-6) *)
Definition scalar (c : Z) : Prop := (0 <= c < 0xD800 \/ 0xE000 <= c < 0x110000)%Z.
Definition encode1 (c : Z) : list Z :=
  (if c <? 0x80 then [c]
   else if c <? 0x800 then [192 + c / 64; 128 + c mod 64]
   else if c <? 0x10000 then [224 + c / 4096; 128 + c / 64 mod 64; 128 + c mod 64]
   else [240 + c / 262144; 128 + c / 4096 mod 64; 128 + c / 64 mod 64; 128 + c mod 64])%Z.
Definition encode (t : list Z) : list Z := flat_map encode1 t.

(** * Bytes *)
Lemma sweep : forall (g : Z -> bool) lo n, forallb (fun k => g (lo + Z.of_nat k)%Z) (seq 0 n) = true ->
  forall x, (lo <= x < lo + Z.of_nat n)%Z -> g x = true.
Proof.
  intros g lo n H x Hx. rewrite forallb_forall in H.
  specialize (H (Z.to_nat (x - lo)%Z)). rewrite Z2Nat.id in H by lia.
  replace (lo + (x - lo))%Z with x in H by lia. apply H. apply in_seq. lia.
Qed.
Lemma extra1 : forall x, (0 <= x < 32)%Z -> utf8_extra (192 + x) = 1%Z /\ is_cont (192 + x) = false /\
  Z.land (192 + x) 128 <> 0%Z /\ Z.land (192 + x) 31 = x.
Proof.
  intros x Hx. assert (H := sweep (fun x => (utf8_extra (192 + x) =? 1)%Z && negb (is_cont (192 + x)) &&
    negb (Z.land (192 + x) 128 =? 0)%Z && (Z.land (192 + x) 31 =? x)%Z) 0 32 ltac:(vm_compute; reflexivity) x Hx). cbv beta in H. rewrite ?andb_true_iff, ?negb_true_iff, ?Z.eqb_eq, ?Z.eqb_neq in H. tauto.
Qed.
Lemma extra2 : forall x, (0 <= x < 16)%Z -> utf8_extra (224 + x) = 2%Z /\ is_cont (224 + x) = false /\
  Z.land (224 + x) 128 <> 0%Z /\ Z.land (224 + x) 15 = x.
Proof.
  intros x Hx. assert (H := sweep (fun x => (utf8_extra (224 + x) =? 2)%Z && negb (is_cont (224 + x)) &&
    negb (Z.land (224 + x) 128 =? 0)%Z && (Z.land (224 + x) 15 =? x)%Z) 0 16 ltac:(vm_compute; reflexivity) x Hx). cbv beta in H. rewrite ?andb_true_iff, ?negb_true_iff, ?Z.eqb_eq, ?Z.eqb_neq in H. tauto.
Qed.
Lemma extra3 : forall x, (0 <= x < 8)%Z -> utf8_extra (240 + x) = 3%Z /\ is_cont (240 + x) = false /\
  Z.land (240 + x) 128 <> 0%Z /\ Z.land (240 + x) 7 = x.
Proof.
  intros x Hx. assert (H := sweep (fun x => (utf8_extra (240 + x) =? 3)%Z && negb (is_cont (240 + x)) &&
    negb (Z.land (240 + x) 128 =? 0)%Z && (Z.land (240 + x) 7 =? x)%Z) 0 8 ltac:(vm_compute; reflexivity) x Hx). cbv beta in H. rewrite ?andb_true_iff, ?negb_true_iff, ?Z.eqb_eq, ?Z.eqb_neq in H. tauto.
Qed.
Lemma ascii : forall x, (0 <= x < 128)%Z -> utf8_extra x = 0%Z /\ is_cont x = false /\ Z.land x 128 = 0%Z.
Proof.
  intros x Hx. assert (H := sweep (fun x => (utf8_extra x =? 0)%Z && negb (is_cont x) && (Z.land x 128 =? 0)%Z) 0 128
    ltac:(vm_compute; reflexivity) x Hx). cbv beta in H. rewrite ?andb_true_iff, ?negb_true_iff, ?Z.eqb_eq, ?Z.eqb_neq in H. tauto.
Qed.
Lemma cont : forall x, (0 <= x < 64)%Z -> is_cont (128 + x) = true /\ Z.land (128 + x) 63 = x.
Proof.
  intros x Hx. assert (H := sweep (fun x => is_cont (128 + x) && (Z.land (128 + x) 63 =? x)%Z) 0 64
    ltac:(vm_compute; reflexivity) x Hx). cbv beta in H. rewrite ?andb_true_iff, ?negb_true_iff, ?Z.eqb_eq, ?Z.eqb_neq in H. tauto.
Qed.
Lemma join : forall a d, (0 <= d < 64)%Z -> Z.lor (Z.shiftl a 6) d = (a * 64 + d)%Z.
Proof.
  intros a d Hd. rewrite Z.shiftl_mul_pow2 by lia. change (2 ^ 6)%Z with 64%Z.
  symmetry. rewrite <- Z.lxor_lor.
  - apply Z.add_nocarry_lxor. 
    apply Z.bits_inj'. intros i Hi. rewrite Z.land_spec, Z.bits_0.
    destruct (Z.lt_ge_cases i 6) as [H|H].
    + change 64%Z with (2 ^ 6)%Z. rewrite Z.mul_pow2_bits_low by lia. reflexivity.
    + rewrite (Z.bits_above_log2 d i); [apply andb_false_r|lia|].
      destruct (Z.eq_dec d 0) as [->|]; [cbn; lia|].
      apply Z.lt_le_trans with 6%Z; [|lia]. apply Z.log2_lt_pow2; cbn; lia.
  - apply Z.bits_inj'. intros i Hi. rewrite Z.land_spec, Z.bits_0.
    destruct (Z.lt_ge_cases i 6) as [H|H].
    + change 64%Z with (2 ^ 6)%Z. rewrite Z.mul_pow2_bits_low by lia. reflexivity.
    + rewrite (Z.bits_above_log2 d i); [apply andb_false_r|lia|].
      destruct (Z.eq_dec d 0) as [->|]; [cbn; lia|].
      apply Z.lt_le_trans with 6%Z; [|lia]. apply Z.log2_lt_pow2; cbn; lia.
Qed.

(** The four shapes of an encoding. *)
Inductive shape (c : Z) : list Z -> Prop :=
| sh1 : (0 <= c < 128)%Z -> shape c [c]
| sh2 : forall a b, (0 <= a < 32)%Z -> (0 <= b < 64)%Z -> c = (a * 64 + b)%Z -> shape c [192 + a; 128 + b]%Z
| sh3 : forall a b d, (0 <= a < 16)%Z -> (0 <= b < 64)%Z -> (0 <= d < 64)%Z -> c = ((a * 64 + b) * 64 + d)%Z ->
    shape c [224 + a; 128 + b; 128 + d]%Z
| sh4 : forall a b d e, (0 <= a < 8)%Z -> (0 <= b < 64)%Z -> (0 <= d < 64)%Z -> (0 <= e < 64)%Z ->
    c = (((a * 64 + b) * 64 + d) * 64 + e)%Z -> shape c [240 + a; 128 + b; 128 + d; 128 + e]%Z.
Lemma encode_shape : forall c, scalar c -> shape c (encode1 c).
Proof.
  intros c Hc. unfold scalar in Hc. unfold encode1.
  destruct (Z.ltb_spec c 0x80); [constructor; lia|].
  destruct (Z.ltb_spec c 0x800); [constructor; lia|].
  destruct (Z.ltb_spec c 0x10000); [constructor; lia|]. constructor; lia.
Qed.

Lemma nth_pre : forall A (pre l : list A) k, nth_error (pre ++ l) (length pre + k) = nth_error l k.
Proof. intros. rewrite nth_error_app2 by lia. f_equal. lia. Qed.
Lemma nth_pre0 : forall A (pre l : list A), nth_error (pre ++ l) (length pre) = nth_error l 0.
Proof. intros. rewrite <- (nth_pre A pre l 0). f_equal. lia. Qed.

(** * Decoding and stepping *)
Theorem get_encoded : forall c pre post len, scalar c -> length pre + length (encode1 c) <= len ->
  utf8_get (pre ++ encode1 c ++ post) len (length pre) = Some c.
Proof.
  intros c pre post len Hc Hl. unfold utf8_get. rewrite nth_pre0, !nth_pre.
  destruct (encode_shape c Hc) as [H|a b Ha Hb E|a b d Ha Hb Hd E|a b d e Ha Hb Hd He E];
    cbn [nth_error app length] in *.
  - destruct (ascii c H) as (_ & _ & E3). rewrite E3. reflexivity.
  - destruct (extra1 a Ha) as (E1 & _ & E3 & E4). destruct (cont b Hb) as [C1 C2].
    rewrite (proj2 (Z.eqb_neq _ _) E3), E1. change (1 =? 0)%Z with false. cbn iota zeta.
    destruct (Nat.leb_spec len (length pre + Z.to_nat 1)); [lia|]. rewrite C1. cbn [negb].
    change (Z.shiftr 63 1) with 31%Z. rewrite E4, C2, join by lia. change (1 =? 1)%Z with true. cbn iota. congruence.
  - destruct (extra2 a Ha) as (E1 & _ & E3 & E4). destruct (cont b Hb) as [C1 C2]. destruct (cont d Hd) as [C3 C4].
    rewrite (proj2 (Z.eqb_neq _ _) E3), E1. change (2 =? 0)%Z with false. cbn iota zeta.
    destruct (Nat.leb_spec len (length pre + Z.to_nat 2)); [lia|]. rewrite C1, C3. cbn [negb].
    change (Z.shiftr 63 2) with 15%Z. rewrite E4, C2, C4. rewrite (join a b) by lia. rewrite join by lia.
    change (2 =? 1)%Z with false. change (2 =? 2)%Z with true. cbn iota. congruence.
  - destruct (extra3 a Ha) as (E1 & _ & E3 & E4). destruct (cont b Hb) as [C1 C2]. destruct (cont d Hd) as [C3 C4].
    destruct (cont e He) as [C5 C6].
    rewrite (proj2 (Z.eqb_neq _ _) E3), E1. change (3 =? 0)%Z with false. cbn iota zeta.
    destruct (Nat.leb_spec len (length pre + Z.to_nat 3)); [lia|]. rewrite C1, C3, C5. cbn [negb].
    change (Z.shiftr 63 3) with 7%Z. rewrite E4, C2, C4, C6. rewrite (join a b) by lia.
    rewrite (join (a * 64 + b) d) by lia. rewrite join by lia.
    change (3 =? 1)%Z with false. change (3 =? 2)%Z with false. cbn iota. congruence.
Qed.

Theorem next_encoded : forall c pre post strict, scalar c ->
  utf8_next strict (pre ++ encode1 c ++ post) (length pre) = Some (length pre + length (encode1 c)).
Proof.
  intros c pre post strict Hc. unfold utf8_next. rewrite nth_pre0, !app_length.
  assert (K : forall k b n, utf8_extra b = Z.of_nat k -> n = k + 1 ->
    (if strict && negb (Nat.leb (length pre + Z.to_nat (utf8_extra b) + 1) (length pre + (n + length post)))
     then None else Some (length pre + Z.to_nat (utf8_extra b) + 1)) = Some (length pre + n)).
  { intros k b n -> ->. rewrite Nat2Z.id. rewrite (proj2 (Nat.leb_le _ _)) by lia. rewrite andb_false_r. f_equal. lia. }
  destruct (encode_shape c Hc) as [H|a b Ha Hb E|a b d Ha Hb Hd E|a b d e Ha Hb Hd He E]; cbn [nth_error app length].
  - apply (K 0); [apply ascii; assumption|reflexivity].
  - apply (K 1); [apply extra1; assumption|reflexivity].
  - apply (K 2); [apply extra2; assumption|reflexivity].
  - apply (K 3); [apply extra3; assumption|reflexivity].
Qed.

Lemma back_stop : forall mem p b, nth_error mem p = Some b -> is_cont b = false -> utf8_back mem p = Some p.
Proof. intros mem p b H1 H2. destruct p; cbn [utf8_back]; rewrite H1, H2; reflexivity. Qed.
Lemma back_step : forall mem p b, nth_error mem (S p) = Some b -> is_cont b = true -> utf8_back mem (S p) = utf8_back mem p.
Proof. intros mem p b H1 H2. cbn [utf8_back]. rewrite H1, H2. reflexivity. Qed.

Theorem prev_encoded : forall c pre post len, scalar c -> length pre + length (encode1 c) <= len ->
  utf8_prev (pre ++ encode1 c ++ post) len (length pre + length (encode1 c)) = Some (length pre).
Proof.
  intros c pre post len Hc Hl. unfold utf8_prev.
  rewrite (proj2 (Nat.ltb_ge _ _)) by lia.
  assert (N0 : forall l, nth_error (pre ++ l) (length pre) = nth_error l 0) by (intros; apply nth_pre0).
  assert (NS : forall l k, nth_error (pre ++ l) (length pre + k) = nth_error l k) by (intros; apply nth_pre).
  destruct (encode_shape c Hc) as [H|a b Ha Hb E|a b d Ha Hb Hd E|a b d e Ha Hb Hd He E]; cbn [length app].
  - replace (length pre + 1) with (S (length pre)) by lia. eapply back_stop; [rewrite N0; reflexivity|apply ascii; assumption].
  - destruct (extra1 a Ha) as (_ & E2 & _). destruct (cont b Hb) as [C1 _].
    replace (length pre + 2) with (S (S (length pre))) by lia.
    rewrite (back_step _ _ (128 + b)%Z) by (assumption || (replace (S (length pre)) with (length pre + 1) by lia; rewrite NS; reflexivity)).
    eapply back_stop; [rewrite N0; reflexivity|assumption].
  - destruct (extra2 a Ha) as (_ & E2 & _). destruct (cont b Hb) as [C1 _]. destruct (cont d Hd) as [C2 _].
    replace (length pre + 3) with (S (S (S (length pre)))) by lia.
    rewrite (back_step _ _ (128 + d)%Z) by (assumption || (replace (S (S (length pre))) with (length pre + 2) by lia; rewrite NS; reflexivity)).
    rewrite (back_step _ _ (128 + b)%Z) by (assumption || (replace (S (length pre)) with (length pre + 1) by lia; rewrite NS; reflexivity)).
    eapply back_stop; [rewrite N0; reflexivity|assumption].
  - destruct (extra3 a Ha) as (_ & E2 & _). destruct (cont b Hb) as [C1 _]. destruct (cont d Hd) as [C2 _]. destruct (cont e He) as [C3 _].
    replace (length pre + 4) with (S (S (S (S (length pre))))) by lia.
    rewrite (back_step _ _ (128 + e)%Z) by (assumption || (replace (S (S (S (length pre)))) with (length pre + 3) by lia; rewrite NS; reflexivity)).
    rewrite (back_step _ _ (128 + d)%Z) by (assumption || (replace (S (S (length pre))) with (length pre + 2) by lia; rewrite NS; reflexivity)).
    rewrite (back_step _ _ (128 + b)%Z) by (assumption || (replace (S (length pre)) with (length pre + 1) by lia; rewrite NS; reflexivity)).
    eapply back_stop; [rewrite N0; reflexivity|assumption].
Qed.

(** * Whole texts *)
(** Code unit offset of the code point with index [i]. *)
Definition offset (t : list Z) (i : nat) : nat := length (encode (firstn i t)).
Lemma encode_app : forall a b, encode (a ++ b) = encode a ++ encode b.
Proof. intros. apply flat_map_app. Qed.
Lemma encode1_pos : forall c, 1 <= length (encode1 c) <= 4.
Proof. intros c. unfold encode1. repeat destruct (Z.ltb _ _); cbn; lia. Qed.

Lemma nth_split3 : forall A (t : list A) i c, nth_error t i = Some c -> t = firstn i t ++ c :: skipn (S i) t.
Proof.
  induction t as [|x t IH]; intros [|i] c H; cbn in *; try discriminate.
  - congruence.
  - f_equal. apply IH. assumption.
Qed.
Lemma offset_S : forall t i c, nth_error t i = Some c -> offset t (S i) = offset t i + length (encode1 c).
Proof.
  intros t i c H. unfold offset. rewrite (nth_split3 _ t i c H) at 1.
  assert (L : length (firstn i t) = i) by (apply firstn_length_le; apply Nat.lt_le_incl, nth_error_Some; congruence).
  rewrite firstn_app, firstn_all2, L by lia. replace (S i - i) with 1 by lia. cbn [firstn].
  rewrite encode_app, app_length. cbn [encode flat_map app]. rewrite app_nil_r. reflexivity.
Qed.
Lemma encode_at : forall t i c, nth_error t i = Some c ->
  encode t = encode (firstn i t) ++ encode1 c ++ encode (skipn (S i) t).
Proof. intros t i c H. rewrite (nth_split3 _ t i c H) at 1. rewrite encode_app. reflexivity. Qed.
Lemma offset_all : forall t i, length t <= i -> offset t i = length (encode t).
Proof. intros. unfold offset. rewrite firstn_all2 by assumption. reflexivity. Qed.
Lemma offset_mono : forall t i j, i < j -> j <= length t -> offset t i < offset t j.
Proof.
  intros t i j H. induction H as [|j H IH]; intros Hj.
  - destruct (nth_error t i) as [c|] eqn:E; [|apply nth_error_None in E; lia].
    rewrite (offset_S t i c E). pose proof (encode1_pos c). lia.
  - destruct (nth_error t j) as [c|] eqn:E; [|apply nth_error_None in E; lia].
    rewrite (offset_S t j c E). pose proof (encode1_pos c). lia.
Qed.

Definition wf_text (t : list Z) : Prop := Forall scalar t.
Lemma wf_nth : forall t i c, wf_text t -> nth_error t i = Some c -> scalar c.
Proof. intros t i c H E. eapply Forall_forall; [exact H|]. eapply nth_error_In; eassumption. Qed.
Lemma offset_le : forall t i, offset t i <= length (encode t).
Proof.
  intros t i. unfold offset. rewrite <- (firstn_skipn i t) at 2. rewrite encode_app, app_length. lia.
Qed.

(** [++], [*] and [--] on an encoded text (C11). *)
Theorem text_get : forall t post i c len, wf_text t -> nth_error t i = Some c -> length (encode t) <= len ->
  utf8_get (encode t ++ post) len (offset t i) = Some c.
Proof.
  intros t post i c len Hw E Hl. rewrite (encode_at t i c E), <- !app_assoc. unfold offset.
  apply get_encoded; [eapply wf_nth; eassumption|].
  pose proof (offset_S t i c E). pose proof (offset_le t (S i)). unfold offset in *. lia.
Qed.
Theorem text_next : forall t post i c strict, wf_text t -> nth_error t i = Some c ->
  utf8_next strict (encode t ++ post) (offset t i) = Some (offset t (S i)).
Proof.
  intros t post i c strict Hw E. rewrite (offset_S t i c E), (encode_at t i c E), <- !app_assoc. unfold offset.
  apply next_encoded. eapply wf_nth; eassumption.
Qed.
Theorem text_prev : forall t post i len, wf_text t -> i < length t -> length (encode t) <= len ->
  utf8_prev (encode t ++ post) len (offset t (S i)) = Some (offset t i).
Proof.
  intros t post i len Hw Hi Hl. destruct (nth_error t i) as [c|] eqn:E; [|apply nth_error_None in E; lia].
  pose proof (offset_le t (S i)) as Ho.
  rewrite (offset_S t i c E) in *. rewrite (encode_at t i c E), <- !app_assoc. unfold offset in *.
  apply prev_encoded; [eapply wf_nth; eassumption|]. lia.
Qed.

(** * Matching on encoded text (C10) *)
(** Result with every position moved by [g]. *)
Definition move_slot (g : nat -> nat) (x : slot) : slot := mkSlot (option_map g (s_beg x)) (option_map g (s_end x)) (s_m x).
Definition move (g : nat -> nat) (c : caps) : caps :=
  mkCaps (move_slot g (c0 c)) (map (fun e : entry => (fst e, move_slot g (snd e))) (cl c)).
Definition move_res (g : nat -> nat) (x : res caps) : res caps :=
  match x with Ok c => Ok (move g c) | No => No | Fuel => Fuel | UB => UB | Ill => Ill end.

Lemma crel_move : forall (P : nat -> nat -> Prop) g, (forall i j, P i j -> j = g i) ->
  forall c c', crel P c c' -> c' = move g c.
Proof.
  intros P g H c c' [H1 H2].
  assert (O : forall a b, opos P a b -> b = option_map g a).
  { intros [a|] [b|] Hab; cbn in *; try contradiction; [|reflexivity]. f_equal. auto. }
  assert (L : forall a b, srel P a b -> b = move_slot g a).
  { intros [a1 a2 a3] [b1 b2 b3] (E1 & E2 & E3). unfold move_slot. cbn in *.
    apply O in E1. apply O in E2. subst. reflexivity. }
  destruct c as [c0 cl], c' as [c0' cl']. unfold move. cbn in *. rewrite (L _ _ H1). f_equal.
  induction H2 as [|[e x] [e' x'] l l' [He Hs] Hl IH]; [reflexivity|]. cbn in *. subst e'. rewrite (L _ _ Hs). f_equal. assumption.
Qed.
Lemma rrel_move : forall (P : nat -> nat -> Prop) g, (forall i j, P i j -> j = g i) ->
  forall x y, rrel (crel P) x y -> x <> UB -> y = move_res g x.
Proof.
  intros P g H x y Hxy Hx. destruct x, y; cbn in *; try contradiction; try reflexivity; try congruence.
  f_equal. eapply crel_move; eassumption.
Qed.
Lemma move_id : forall c, move (fun i => i) c = c.
Proof.
  assert (O : forall x : option nat, option_map (fun i => i) x = x) by (intros []; reflexivity).
  assert (L : forall x, move_slot (fun i => i) x = x) by (intros [a b c]; unfold move_slot; cbn; rewrite !O; reflexivity).
  intros [c l]. unfold move. cbn. rewrite L. f_equal. rewrite <- (map_id l) at 2. apply map_ext. intros [e x]. cbn. rewrite L. reflexivity.
Qed.
Lemma move_res_id : forall x, move_res (fun i => i) x = x.
Proof. intros []; cbn; try reflexivity. rewrite move_id. reflexivity. Qed.
