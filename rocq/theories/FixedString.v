(** Pattern strings. Source: /repo/include/ctll/fixed_string.hpp.
    A literal is the list of its [N] code units; [content] holds the first [real_size] characters of
    the array of the same name (the others are zero and never read: parser.hpp lines 78 and 94 test
    against [size()]). *)
From Coq Require Import List ZArith Bool Lia.
From Verif Require Import Chars Syntax Grammar Actions Parser Utf8 Utf8Proofs.
Import ListNotations.
Local Open Scope Z_scope.

(** lines 16-19: [length_value_t]; [value] is a [uint32_t]. *)
Definition wrap32 (v : Z) : Z := v mod 2 ^ 32.

(** lines 21-29: [length_and_value_of_utf8_code_point]: value and length of the first unit. *)
Definition lead8 (b : Z) : Z * nat :=
  if Z.land b 128 =? 0 then (b, 1%nat)
  else if Z.land b 224 =? 192 then (Z.land b 31, 2%nat)
  else if Z.land b 240 =? 224 then (Z.land b 15, 3%nat)
  else if Z.land b 248 =? 240 then (Z.land b 7, 4%nat)
  else if Z.land b 252 =? 248 then (Z.land b 3, 5%nat)
  else if Z.land b 252 =? 252 then (Z.land b 1, 6%nat)
  else (0, 0%nat).

(** lines 31-37: [value_of_trailing_utf8_code_point], with the new state of [correct]. *)
Definition trail8 (b : Z) (correct : bool) : Z * bool :=
  if Z.land b 192 =? 128 then (Z.land b 63, correct) else (0, false).

(** lines 63-79: [k] cases of the switch falling through; each one is
    [if (++i < N) info.value = ...]. The rest of the units stands for [i]. *)
Fixpoint rest8 (k : nat) (value : Z) (l : list Z) (correct : bool) : Z * list Z * bool :=
  match k with
  | O => (value, l, correct)
  | S k' =>
      match l with
      | [] => rest8 k' value [] correct
      | b :: l' => let (t, correct') := trail8 b correct in rest8 k' (Z.lor (wrap32 (Z.shiftl value 6)) t) l' correct'
      end
  end.

Record fixed := mkFixed { content : list Z; correct_flag : bool }.
Definition put (c : Z) (x : fixed) : fixed := mkFixed (c :: content x) (correct_flag x).

(** lines 60-87 (and 95-122, the same text for [char8_t]): the loop over the units. [None]: fuel
    exhausted ([utf8_total]: never with one unit of fuel per code unit). *)
Fixpoint loop8 (fuel : nat) (l : list Z) (correct : bool) : option fixed :=
  match l with
  | [] => Some (mkFixed [] correct)
  | b :: l' =>
      match fuel with
      | O => None
      | S n =>
          match lead8 b with
          | (_, O) => Some (mkFixed [] false)
          | (v, S k) =>
              let '(v', l'', correct') := rest8 k v l' correct in
              option_map (put v') (loop8 n l'' correct')
          end
      end
  end.
(** [char8_t] literals, and [char] literals with CTRE_STRING_IS_UTF8. *)
Definition from_utf8 (l : list Z) : option fixed := loop8 (length l) l true.

(** lines 88-92: [char] literals otherwise: one character per unit. *)
Definition from_char (l : list Z) : fixed := mkFixed (map (fun c => c mod 256) l) true.

(** lines 39-42: [length_and_value_of_utf16_code_point]: is it a lead surrogate? *)
Definition lead16 (u : Z) : bool := Z.land u 64512 =? 55296.
Definition trail16 (u : Z) : bool := Z.land u 64512 =? 56320.

(** lines 124-142: the loop over UTF-16 units. A lead surrogate as the last unit leaves nothing. *)
Fixpoint loop16 (l : list Z) : fixed :=
  match l with
  | [] => mkFixed [] true
  | u :: l' =>
      if lead16 u
      then match l' with
           | [] => mkFixed [] true
           | t :: l'' =>
               if trail16 t
               then put (Z.lor (wrap32 (Z.shiftl (Z.land u 1023) 10)) (Z.land t 1023) + 65536) (loop16 l'')
               else mkFixed [] false
           end
      else put u (loop16 l')
  end.
Definition from_utf16 (l : list Z) : fixed := loop16 l.

(** lines 143-148: [wchar_t] and [char32_t] literals. *)
Definition from_utf32 (l : list Z) : fixed := mkFixed (map wrap32 l) true.

(** lines 172-178: [is_same_as]. *)
Fixpoint same_chars (a b : list Z) : bool :=
  match a, b with x :: a', y :: b' => (x =? y) && same_chars a' b' | _, _ => true end.
Definition is_same_as (a b : fixed) : bool :=
  Nat.eqb (length (content a)) (length (content b)) && same_chars (content a) (content b).

(** wrapper.hpp lines 296-305: [regex_builder]. [correct()] is not consulted. *)
Definition build props (x : fixed) : compiled := compile props (content x).

(** * Proofs *)
Lemma rest8_length : forall k v l c v' l' c', rest8 k v l c = (v', l', c') -> (length l' <= length l)%nat.
Proof.
  induction k as [|k IH]; intros v l c v' l' c' H; cbn [rest8] in H.
  - injection H as <- <- <-. lia.
  - destruct l as [|b l].
    + apply IH in H. assumption.
    + destruct (trail8 b c) as [t c1]. apply IH in H. cbn [length]. lia.
Qed.
Lemma loop8_total : forall n l c, (length l <= n)%nat -> loop8 n l c <> None.
Proof.
  induction n as [|n IH]; intros [|b l] c H; cbn [loop8 length] in *; try discriminate; [lia|].
  destruct (lead8 b) as [v [|k]]; [discriminate|].
  destruct (rest8 k v l c) as [[v' l'] c'] eqn:E. apply rest8_length in E.
  specialize (IH l' c' ltac:(lia)). destruct (loop8 n l' c'); [discriminate|congruence].
Qed.
(** Decoding always ends within one step per code unit. *)
Theorem utf8_total : forall l, exists x, from_utf8 l = Some x.
Proof.
  intros l. unfold from_utf8. pose proof (loop8_total (length l) l true (le_n _)) as H.
  destruct (loop8 (length l) l true) as [x|]; [exists x; reflexivity|congruence].
Qed.
Lemma loop8_mono : forall n m l c x, (n <= m)%nat -> loop8 n l c = Some x -> loop8 m l c = Some x.
Proof.
  induction n as [|n IH]; intros m [|b l] c x Hm H; cbn [loop8] in H; try discriminate;
    try (destruct m; exact H).
  destruct m as [|m]; [lia|]. cbn [loop8]. destruct (lead8 b) as [v [|k]]; [assumption|].
  destruct (rest8 k v l c) as [[v' l'] c']. destruct (loop8 n l' c') as [y|] eqn:E; [|discriminate].
  rewrite (IH m l' c' y ltac:(lia) E). assumption.
Qed.

(** ** Lead and trailing units *)
Ltac sweeping f lo n x Hx :=
  let H := fresh in assert (H := sweep f lo n ltac:(vm_compute; reflexivity) x Hx); cbv beta in H;
  rewrite ?andb_true_iff, ?negb_true_iff, ?Z.eqb_eq, ?Z.eqb_neq, ?Nat.eqb_eq in H.
Lemma lead8_1 : forall x, 0 <= x < 128 -> lead8 x = (x, 1%nat).
Proof.
  intros x Hx. sweeping (fun x => (fst (lead8 x) =? x) && Nat.eqb (snd (lead8 x)) 1) 0 128%nat x Hx.
  destruct (lead8 x); cbn [fst snd] in *. destruct H as [-> ->]. reflexivity.
Qed.
Lemma lead8_2 : forall x, 0 <= x < 32 -> lead8 (192 + x) = (x, 2%nat).
Proof.
  intros x Hx. sweeping (fun x => (fst (lead8 (192 + x)) =? x) && Nat.eqb (snd (lead8 (192 + x))) 2) 0 32%nat x Hx.
  destruct (lead8 (192 + x)); cbn [fst snd] in *. destruct H as [-> ->]. reflexivity.
Qed.
Lemma lead8_3 : forall x, 0 <= x < 16 -> lead8 (224 + x) = (x, 3%nat).
Proof.
  intros x Hx. sweeping (fun x => (fst (lead8 (224 + x)) =? x) && Nat.eqb (snd (lead8 (224 + x))) 3) 0 16%nat x Hx.
  destruct (lead8 (224 + x)); cbn [fst snd] in *. destruct H as [-> ->]. reflexivity.
Qed.
Lemma lead8_4 : forall x, 0 <= x < 8 -> lead8 (240 + x) = (x, 4%nat).
Proof.
  intros x Hx. sweeping (fun x => (fst (lead8 (240 + x)) =? x) && Nat.eqb (snd (lead8 (240 + x))) 4) 0 8%nat x Hx.
  destruct (lead8 (240 + x)); cbn [fst snd] in *. destruct H as [-> ->]. reflexivity.
Qed.
Lemma trail8_ok : forall x c, 0 <= x < 64 -> trail8 (128 + x) c = (x, c).
Proof.
  intros x c Hx. destruct (cont x Hx) as [H1 H2]. unfold trail8. unfold is_cont in H1. rewrite H1, H2. reflexivity.
Qed.
Lemma wrap32_id : forall v, 0 <= v < 2 ^ 32 -> wrap32 v = v.
Proof. intros. apply Z.mod_small. assumption. Qed.
Lemma join32 : forall a d, 0 <= a < 2 ^ 26 -> 0 <= d < 64 -> Z.lor (wrap32 (Z.shiftl a 6)) d = a * 64 + d.
Proof.
  intros a d Ha Hd. rewrite wrap32_id; [apply join; assumption|].
  rewrite Z.shiftl_mul_pow2 by lia. lia.
Qed.

(** ** C13 *)
Lemma loop8_encode1 : forall c l n k, scalar c ->
  loop8 (S n) (encode1 c ++ l) k = option_map (put c) (loop8 n l k).
Proof.
  intros c l n k Hc. destruct (encode_shape c Hc) as [H|a b Ha Hb E|a b d Ha Hb Hd E|a b d e Ha Hb Hd He E];
    cbn [app loop8].
  - rewrite lead8_1 by assumption. reflexivity.
  - rewrite lead8_2 by assumption. cbn [rest8]. rewrite trail8_ok by assumption. rewrite join32 by lia. congruence.
  - rewrite lead8_3 by assumption. cbn [rest8]. rewrite !trail8_ok by assumption.
    rewrite (join32 a b) by lia. rewrite join32 by lia. congruence.
  - rewrite lead8_4 by assumption. cbn [rest8]. rewrite !trail8_ok by assumption.
    rewrite (join32 a b) by lia. rewrite (join32 _ d) by lia. rewrite join32 by lia. congruence.
Qed.
Lemma loop8_encode : forall t n, wf_text t -> (length t <= n)%nat ->
  loop8 n (encode t) true = Some (mkFixed t true).
Proof.
  induction t as [|c t IH]; intros n Ht Hn; [destruct n; reflexivity|].
  inversion Ht; subst. destruct n as [|n]; [cbn in Hn; lia|]. change (encode (c :: t)) with (encode1 c ++ encode t).
  rewrite loop8_encode1 by assumption. rewrite IH by (try assumption; cbn in Hn; lia). reflexivity.
Qed.
Theorem utf8_decodes : forall t, wf_text t -> from_utf8 (encode t) = Some (mkFixed t true).
Proof.
  intros t Ht. apply (loop8_mono (length t)); [|apply loop8_encode; auto].
  induction t as [|c t IH]; [reflexivity|]. inversion Ht; subst.
  change (encode (c :: t)) with (encode1 c ++ encode t). rewrite app_length. pose proof (encode1_pos c).
  specialize (IH H2). cbn [length]. lia.
Qed.
Theorem utf32_decodes : forall t, wf_text t -> from_utf32 t = mkFixed t true.
Proof.
  intros t Ht. unfold from_utf32. f_equal. rewrite <- (map_id t) at 2. apply map_ext_in. intros c Hc.
  apply wrap32_id. unfold wf_text in Ht. rewrite Forall_forall in Ht. specialize (Ht c Hc). unfold scalar in Ht. lia.
Qed.
(** Plain [char] literals: the same for ASCII, one character per byte otherwise. *)
Theorem char_decodes : forall t, Forall (fun c => 0 <= c < 128) t ->
  from_char t = mkFixed t true /\ from_utf8 t = Some (mkFixed t true).
Proof.
  intros t Ht. split.
  - unfold from_char. f_equal. rewrite <- (map_id t) at 2. apply map_ext_in. intros c Hc.
    rewrite Forall_forall in Ht. specialize (Ht c Hc). cbv beta in Ht. apply Z.mod_small. lia.
  - assert (E : encode t = t).
    { induction Ht as [|c t Hc Ht IH]; [reflexivity|]. change (encode (c :: t)) with (encode1 c ++ encode t).
      rewrite IH. unfold encode1. destruct (Z.ltb_spec c 128); [reflexivity|lia]. }
    rewrite <- E at 1. apply utf8_decodes. eapply Forall_impl; [|eassumption]. unfold scalar. cbv beta. intros; lia.
Qed.

(** ** What the flag says about UTF-8 *)
(** [chunk l v]: a lead unit followed by as many continuation units as it announces; [v] is the
    number they spell. Longer forms than necessary, surrogates and values up to 2^31 are not excluded. *)
Inductive chunk : list Z -> Z -> Prop :=
| chunk_intro : forall b v k ts, lead8 b = (v, S k) -> length ts = k -> Forall (fun t => 128 <= t < 192) ts ->
    chunk (b :: ts) (fold_left (fun a t => a * 64 + (t - 128)) ts v).
(** [spelled l vs tl]: [l] is a row of chunks and [tl] the last one cut short. *)
Inductive spelled : list Z -> list Z -> Prop :=
| sp_nil : spelled [] []
| sp_cons : forall u v l vs, chunk u v -> spelled l vs -> spelled (u ++ l) (v :: vs)
| sp_cut : forall b v k ts, lead8 b = (v, S k) -> (length ts < k)%nat -> Forall (fun t => 128 <= t < 192) ts ->
    spelled (b :: ts) [fold_left (fun a t => a * 64 + (t - 128)) ts v].

Lemma is_trail : forall b, 0 <= b < 256 -> (Z.land b 192 =? 128) = true -> 128 <= b < 192 /\ Z.land b 63 = b - 128.
Proof.
  intros b Hb H. sweeping (fun b => negb (Z.land b 192 =? 128) || ((128 <=? b) && (b <? 192) && (Z.land b 63 =? b - 128))) 0 256%nat b Hb.
  rewrite H in *. cbn [negb orb] in *. rewrite !andb_true_iff, Z.eqb_eq, Z.leb_le, Z.ltb_lt in *. tauto.
Qed.
Lemma lead8_bound : forall b v k, 0 <= b < 256 -> lead8 b = (v, S k) -> (k <= 5)%nat /\ 0 <= v < 2 ^ (31 - 6 * Z.of_nat k).
Proof.
  intros b v k Hb H.
  sweeping (fun b => match lead8 b with (_, O) => true | (v, S k) => Nat.leb k 5 && ((0 <=? v) && (v <? 2 ^ (31 - 6 * Z.of_nat k))) end) 0 256%nat b Hb.
  rewrite H in *. rewrite !andb_true_iff, Nat.leb_le, Z.leb_le, Z.ltb_lt in *. assumption.
Qed.
Lemma rest8_flag : forall k v l v' l' c', rest8 k v l false = (v', l', c') -> c' = false.
Proof.
  induction k as [|k IH]; intros v l v' l' c' H; cbn [rest8] in H; [injection H as <- <- <-; reflexivity|].
  destruct l as [|b l]; [apply IH in H; assumption|]. unfold trail8 in H. destruct (_ =? _) in H; apply IH in H; assumption.
Qed.
Lemma rest8_nil : forall k v c, rest8 k v [] c = (v, [], c).
Proof. induction k as [|k IH]; intros; [reflexivity|apply IH]. Qed.
Lemma rest8_true : forall k v l v' l', 0 <= v < 2 ^ (31 - 6 * Z.of_nat k) -> (k <= 5)%nat -> Forall (fun b => 0 <= b < 256) l ->
  rest8 k v l true = (v', l', true) ->
  exists ts, l = ts ++ l' /\ Forall (fun t => 128 <= t < 192) ts /\ v' = fold_left (fun a t => a * 64 + (t - 128)) ts v /\
    (length ts = k \/ (length ts < k)%nat /\ l' = []).
Proof.
  induction k as [|k IH]; intros v l v' l' Hv Hk Hl H.
  - cbn [rest8] in H. injection H as <- <-. exists []. cbn. auto.
  - cbn [rest8] in H. destruct l as [|b l].
    + rewrite rest8_nil in H. injection H as <- <-. exists []. cbn [length app fold_left]. repeat split; auto. right. split; [lia|reflexivity].
    + inversion Hl as [|? ? Hb Hl']; subst. unfold trail8 in H. destruct (Z.land b 192 =? 128) eqn:E.
      * destruct (is_trail b Hb E) as [H1 H2]. rewrite H2 in H.
        rewrite Nat2Z.inj_succ in Hv.
        assert (HB : 2 ^ (31 - 6 * Z.of_nat k) = 64 * 2 ^ (31 - 6 * Z.succ (Z.of_nat k))).
        { replace (31 - 6 * Z.of_nat k) with (6 + (31 - 6 * Z.succ (Z.of_nat k))) by lia.
          rewrite Z.pow_add_r by lia. reflexivity. }
        assert (HC : 2 ^ (31 - 6 * Z.succ (Z.of_nat k)) <= 2 ^ 25) by (apply Z.pow_le_mono_r; lia).
        rewrite join32 in H by lia.
        apply IH in H; [|lia|lia|assumption]. destruct H as (ts & -> & K1 & K2 & K3).
        exists (b :: ts). cbn [app length fold_left]. repeat split; auto. destruct K3 as [K3|[K3 K4]]; [left; lia|right; split; [lia|assumption]].
      * apply rest8_flag in H. discriminate.
Qed.
Lemma loop8_false : forall n l x, loop8 n l false = Some x -> correct_flag x = false.
Proof.
  induction n as [|n IH]; intros [|b l] x H; cbn [loop8] in H; try discriminate; try (injection H as <-; reflexivity).
  destruct (lead8 b) as [v [|k]]; [injection H as <-; reflexivity|].
  destruct (rest8 k v l false) as [[v' l'] c'] eqn:E. apply rest8_flag in E. subst c'.
  destruct (loop8 n l' false) as [y|] eqn:E; [|discriminate]. injection H as <-. apply IH in E. assumption.
Qed.
Lemma loop8_spelled : forall n l x, Forall (fun b => 0 <= b < 256) l -> loop8 n l true = Some x ->
  correct_flag x = true -> spelled l (content x).
Proof.
  induction n as [|n IH]; intros [|b l] x Hl H Hc; cbn [loop8] in H; try discriminate; try (injection H as <-; constructor).
  destruct (lead8 b) as [v [|k]] eqn:EL; [injection H as <-; discriminate|].
  destruct (rest8 k v l true) as [[v' l'] c'] eqn:E.
  inversion Hl as [|? ? Hb Hl']; subst. destruct (lead8_bound b v k Hb EL) as [B1 B2].
  destruct c'; [|destruct (loop8 n l' false) as [y|] eqn:E2; [|discriminate]; injection H as <-; apply loop8_false in E2;
    cbn [put correct_flag] in Hc; congruence].
  destruct (rest8_true k v l v' l' B2 B1 Hl' E) as (ts & -> & K1 & -> & K3).
  apply Forall_app in Hl' as [_ Hl'].
  destruct (loop8 n l' true) as [y|] eqn:E2; [|discriminate]. injection H as <-. cbn [put content correct_flag] in *.
  apply IH in E2; auto. destruct K3 as [K3|[K3 ->]].
  - change (b :: ts ++ l') with ((b :: ts) ++ l'). constructor; [|assumption]. apply (chunk_intro b v k); assumption.
  - rewrite app_nil_r. inversion E2; subst; [|].
    + apply (sp_cut b v k); assumption.
    + match goal with H : chunk _ _ |- _ => inversion H; subst; discriminate end.
Qed.
(** Whenever the flag stays true, the units were chunks, except that the last one may be cut short. *)
Theorem utf8_accepted : forall l x, Forall (fun b => 0 <= b < 256) l -> from_utf8 l = Some x ->
  correct_flag x = true -> spelled l (content x).
Proof. intros l x Hl. apply loop8_spelled. assumption. Qed.

(** ** C14 *)
Definition encode16_1 (c : Z) : list Z :=
  if c <? 65536 then [c] else [55296 + (c - 65536) / 1024; 56320 + (c - 65536) mod 1024].
Definition encode16 (t : list Z) : list Z := flat_map encode16_1 t.

Lemma sweep16 : forall (g : Z -> bool), forallb (fun h => forallb (fun k => g (256 * Z.of_nat h + Z.of_nat k)) (seq 0 256)) (seq 0 256) = true ->
  forall x, 0 <= x < 65536 -> g x = true.
Proof.
  intros g H x Hx. pose proof (Z.mod_pos_bound x 256 ltac:(lia)) as M. pose proof (Z.div_mod x 256 ltac:(lia)) as D.
  pose proof (Z.div_pos x 256 ltac:(lia) ltac:(lia)) as P.
  assert (Q : x / 256 < 256) by (apply Z.div_lt_upper_bound; lia).
  rewrite forallb_forall in H. specialize (H (Z.to_nat (x / 256)) ltac:(apply in_seq; lia)).
  rewrite forallb_forall in H. specialize (H (Z.to_nat (x mod 256)) ltac:(apply in_seq; lia)).
  rewrite !Z2Nat.id in H by lia. rewrite <- D in H. assumption.
Qed.
Lemma lead16_spec : forall u, 0 <= u < 65536 -> lead16 u = ((55296 <=? u) && (u <? 56320)) /\
  trail16 u = ((56320 <=? u) && (u <? 57344)) /\ Z.land u 1023 = u mod 1024.
Proof.
  intros u Hu. assert (H := sweep16 (fun u => Bool.eqb (lead16 u) ((55296 <=? u) && (u <? 56320)) &&
    Bool.eqb (trail16 u) ((56320 <=? u) && (u <? 57344)) && (Z.land u 1023 =? u mod 1024)) ltac:(vm_compute; reflexivity) u Hu).
  cbv beta in H. rewrite !andb_true_iff in H. destruct H as [[H1 H2] H3].
  apply Bool.eqb_prop in H1. apply Bool.eqb_prop in H2. apply Z.eqb_eq in H3. auto.
Qed.
Lemma join10 : forall a d, 0 <= a < 1024 -> 0 <= d < 1024 -> Z.lor (wrap32 (Z.shiftl a 10)) d = a * 1024 + d.
Proof.
  intros a d Ha Hd. assert (E : Z.shiftl a 10 = a * 2 ^ 10) by (apply Z.shiftl_mul_pow2; lia).
  rewrite wrap32_id by lia.
  assert (L : Z.land (Z.shiftl a 10) d = 0).
  { apply Z.bits_inj'. intros i Hi. rewrite Z.land_spec, Z.bits_0. destruct (Z.lt_ge_cases i 10) as [H|H].
    - rewrite Z.shiftl_spec_low by lia. reflexivity.
    - rewrite (Z.bits_above_log2 d i); [apply andb_false_r|lia|].
      destruct (Z.eq_dec d 0) as [->|]; [cbn; lia|]. apply Z.lt_le_trans with 10; [|lia]. apply Z.log2_lt_pow2; cbn; lia. }
  rewrite <- Z.lxor_lor by assumption. rewrite <- Z.add_nocarry_lxor by assumption. rewrite E. lia.
Qed.
(** [unit16 c]: what one character of the decoded text may be: a scalar value or a lone trail surrogate. *)
Definition unit16 (c : Z) : Prop := 0 <= c < 1114112 /\ ~ (55296 <= c < 56320).
Lemma loop16_encode1 : forall c l, unit16 c -> loop16 (encode16_1 c ++ l) = put c (loop16 l).
Proof.
  intros c l [Hc Hl]. unfold encode16_1. destruct (Z.ltb_spec c 65536).
  - cbn [app loop16]. destruct (lead16_spec c ltac:(lia)) as (-> & _ & _).
    destruct (Z.leb_spec 55296 c), (Z.ltb_spec c 56320); cbn [andb]; try reflexivity. lia.
  - pose proof (Z.mod_pos_bound (c - 65536) 1024 ltac:(lia)).
    pose proof (Z.div_mod (c - 65536) 1024 ltac:(lia)).
    set (a := (c - 65536) / 1024) in *. set (d := (c - 65536) mod 1024) in *.
    assert (0 <= a < 1024) by lia.
    cbn [app loop16]. destruct (lead16_spec (55296 + a) ltac:(lia)) as (-> & _ & ->).
    destruct (lead16_spec (56320 + d) ltac:(lia)) as (_ & -> & ->).
    destruct (Z.leb_spec 55296 (55296 + a)), (Z.ltb_spec (55296 + a) 56320); try lia.
    destruct (Z.leb_spec 56320 (56320 + d)), (Z.ltb_spec (56320 + d) 57344); try lia. cbn [andb].
    replace ((55296 + a) mod 1024) with a; [|symmetry; replace (55296 + a) with (a + 54 * 1024) by lia; rewrite Z.mod_add by lia; apply Z.mod_small; lia].
    replace ((56320 + d) mod 1024) with d; [|symmetry; replace (56320 + d) with (d + 55 * 1024) by lia; rewrite Z.mod_add by lia; apply Z.mod_small; lia].
    rewrite join10 by lia. f_equal. lia.
Qed.
Lemma loop16_encode : forall t l, Forall unit16 t -> loop16 (encode16 t ++ l) = mkFixed (t ++ content (loop16 l)) (correct_flag (loop16 l)).
Proof.
  induction t as [|c t IH]; intros l Ht; [cbn; destruct (loop16 l); reflexivity|].
  inversion Ht; subst. change (encode16 (c :: t)) with (encode16_1 c ++ encode16 t). rewrite <- app_assoc.
  rewrite loop16_encode1 by assumption. rewrite IH by assumption. reflexivity.
Qed.
Theorem utf16_decodes : forall t, wf_text t -> from_utf16 (encode16 t) = mkFixed t true.
Proof.
  intros t Ht. unfold from_utf16. rewrite <- (app_nil_r (encode16 t)), loop16_encode; [cbn; rewrite app_nil_r; reflexivity|].
  eapply Forall_impl; [|exact Ht]. unfold scalar, unit16. intros; lia.
Qed.
(** Every sequence of units is characters, followed by nothing, by a lone last lead surrogate (dropped
    without flag), or by a lead surrogate before something else (flagged; all the rest is dropped). *)
Lemma utf16_cases : forall n l, (length l <= n)%nat -> Forall (fun u => 0 <= u < 65536) l ->
  exists t tl, l = encode16 t ++ tl /\ Forall unit16 t /\
    (tl = [] \/ (exists u, tl = [u] /\ 55296 <= u < 56320) \/
     (exists u w tl', tl = u :: w :: tl' /\ 55296 <= u < 56320 /\ ~ (56320 <= w < 57344))).
Proof.
  induction n as [|n IH]; intros [|u l] Hn Hl; cbn [length] in Hn; try lia; try (exists [], []; cbn; auto; fail).
  inversion Hl as [|? ? Hu Hl']; subst.
  destruct (Z_le_gt_dec 55296 u) as [H1|H1]; [destruct (Z_lt_le_dec u 56320) as [H2|H2]|].
  - destruct l as [|w l].
    + exists [], [u]. cbn [encode16 flat_map app]. repeat split; auto. right; left. exists u. auto.
    + inversion Hl' as [|? ? Hw Hl'']; subst.
      destruct (Z_le_gt_dec 56320 w) as [H3|H3]; [destruct (Z_lt_le_dec w 57344) as [H4|H4]|].
      * destruct (IH l ltac:(cbn in Hn; lia) Hl'') as (t & tl & -> & Ht & Hc).
        exists (((u - 55296) * 1024 + (w - 56320) + 65536) :: t), tl. split; [|split; [constructor; [unfold unit16; lia|assumption]|assumption]].
        cbn [encode16 flat_map]. unfold encode16_1 at 1. destruct (Z.ltb_spec ((u - 55296) * 1024 + (w - 56320) + 65536) 65536); [lia|].
        replace ((u - 55296) * 1024 + (w - 56320) + 65536 - 65536) with ((w - 56320) + (u - 55296) * 1024) by lia.
        rewrite Z.div_add, Z.mod_add by lia. rewrite Z.div_small, Z.mod_small by lia. cbn [app].
        replace (55296 + (0 + (u - 55296))) with u by lia. replace (56320 + (w - 56320)) with w by lia. reflexivity.
      * exists [], (u :: w :: l). cbn [encode16 flat_map app]. repeat split; auto. right; right. exists u, w, l. repeat split; auto; lia.
      * exists [], (u :: w :: l). cbn [encode16 flat_map app]. repeat split; auto. right; right. exists u, w, l. repeat split; auto; lia.
  - destruct (IH l ltac:(lia) Hl') as (t & tl & -> & Ht & Hc). exists (u :: t), tl.
    split; [|split; [constructor; [unfold unit16; lia|assumption]|assumption]].
    cbn [encode16 flat_map]. unfold encode16_1 at 1. destruct (Z.ltb_spec u 65536); [reflexivity|lia].
  - destruct (IH l ltac:(lia) Hl') as (t & tl & -> & Ht & Hc). exists (u :: t), tl.
    split; [|split; [constructor; [unfold unit16; lia|assumption]|assumption]].
    cbn [encode16 flat_map]. unfold encode16_1 at 1. destruct (Z.ltb_spec u 65536); [reflexivity|lia].
Qed.
Lemma loop16_lead : forall u tl, 55296 <= u < 56320 ->
  loop16 (u :: tl) = match tl with [] => mkFixed [] true | t :: l'' => if trail16 t
    then put (Z.lor (wrap32 (Z.shiftl (Z.land u 1023) 10)) (Z.land t 1023) + 65536) (loop16 l'') else mkFixed [] false end.
Proof.
  intros u tl Hu. cbn [loop16]. destruct (lead16_spec u ltac:(lia)) as (-> & _ & _).
  destruct (Z.leb_spec 55296 u), (Z.ltb_spec u 56320); try lia. reflexivity.
Qed.
(** The flag is false exactly if a lead surrogate is followed by something that is no trail surrogate. *)
Theorem utf16_flag : forall l, Forall (fun u => 0 <= u < 65536) l ->
  (correct_flag (from_utf16 l) = false <->
   exists t u w tl, l = encode16 t ++ u :: w :: tl /\ Forall unit16 t /\ 55296 <= u < 56320 /\ ~ (56320 <= w < 57344)).
Proof.
  intros l Hl. split.
  - intros H. destruct (utf16_cases (length l) l (le_n _) Hl) as (t & tl & -> & Ht & Hc).
    unfold from_utf16 in H. rewrite loop16_encode in H by assumption. cbn [correct_flag] in H.
    destruct Hc as [-> | [(u & -> & Hu) | (u & w & tl' & -> & Hu & Hw)]].
    + discriminate.
    + rewrite loop16_lead in H by assumption. discriminate.
    + exists t, u, w, tl'. auto.
  - intros (t & u & w & tl & -> & Ht & Hu & Hw). unfold from_utf16. rewrite loop16_encode by assumption. cbn [correct_flag].
    rewrite loop16_lead by assumption. apply Forall_app in Hl as [_ Hl]. inversion Hl as [|? ? _ Hl']; subst.
    inversion Hl' as [|? ? Hw' _]; subst. destruct (lead16_spec w Hw') as (_ & -> & _).
    destruct (Z.leb_spec 56320 w), (Z.ltb_spec w 57344); try lia; reflexivity.
Qed.
(** An unflagged sequence: its characters, and possibly a lone lead surrogate at the end. *)
Theorem utf16_accepted : forall l, Forall (fun u => 0 <= u < 65536) l -> correct_flag (from_utf16 l) = true ->
  Forall unit16 (content (from_utf16 l)) /\
  (l = encode16 (content (from_utf16 l)) \/ exists u, 55296 <= u < 56320 /\ l = encode16 (content (from_utf16 l)) ++ [u]).
Proof.
  intros l Hl H. destruct (utf16_cases (length l) l (le_n _) Hl) as (t & tl & -> & Ht & Hc).
  unfold from_utf16 in *. rewrite loop16_encode in * by assumption. cbn [correct_flag content] in *.
  destruct Hc as [-> | [(u & -> & Hu) | (u & w & tl' & -> & Hu & Hw)]].
  - cbn [loop16 content]. rewrite !app_nil_r. auto.
  - rewrite loop16_lead by assumption. cbn [content]. rewrite !app_nil_r. eauto.
  - rewrite loop16_lead in H by assumption. apply Forall_app in Hl as [_ Hl]. inversion Hl as [|? ? _ Hl']; subst.
    inversion Hl' as [|? ? Hw' _]; subst. destruct (lead16_spec w Hw') as (_ & E & _). rewrite E in H.
    destruct (Z.leb_spec 56320 w), (Z.ltb_spec w 57344); try lia; discriminate.
Qed.

(** ** is_same_as *)
Theorem same_spec : forall a b, is_same_as a b = true <-> content a = content b.
Proof.
  intros [a fa] [b fb]. unfold is_same_as. cbn [content]. revert b. induction a as [|x a IH]; intros [|y b]; cbn [length same_chars].
  - split; reflexivity.
  - split; discriminate.
  - split; discriminate.
  - specialize (IH b). rewrite !andb_true_iff in *. rewrite Nat.eqb_eq, Z.eqb_eq in *. split.
    + intros (H1 & -> & H2). f_equal. apply IH. split; [lia|assumption].
    + intros H. injection H as -> H. apply IH in H. destruct H. repeat split; try assumption. lia.
Qed.
