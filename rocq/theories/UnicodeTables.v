(** The Unicode lookups are constant between finitely many code points, so they are decided for every code
    point by evaluating them there; and they never read outside of their tables. *)
From Coq Require Import ZArith List Bool Lia ZifyBool ZifyNat.
From Verif Require Import Eval UnicodeData Unicode UnicodeSearch UnicodeRef.
Import ListNotations.
Open Scope Z_scope.

Definition top : Z := 0x10FFFF.

(** * Functions that change only at the code points of a list *)
Definition pw {A} (B : list Z) (f : Z -> A) : Prop :=
  forall x y, 0 <= x <= y -> y <= top -> (forall b, In b B -> ~ (x < b <= y)) -> f x = f y.

Lemma pw_const : forall A B (a : A), pw B (fun _ => a).
Proof. intros A B a x y _ _ _. reflexivity. Qed.
Lemma pw_map : forall A C B (f : Z -> A) (g : A -> C), pw B f -> pw B (fun c => g (f c)).
Proof. intros A C B f g H x y H1 H2 H3. rewrite (H x y H1 H2 H3). reflexivity. Qed.
Lemma pw_map2 : forall A C D B (f : Z -> A) (g : Z -> C) (h : A -> C -> D), pw B f -> pw B g ->
  pw B (fun c => h (f c) (g c)).
Proof. intros A C D B f g h H1 H2 x y H3 H4 H5. rewrite (H1 x y H3 H4 H5), (H2 x y H3 H4 H5). reflexivity. Qed.
Lemma pw_bind : forall A C B (f : Z -> res A) (k : Z -> A -> res C), pw B f -> (forall a, pw B (fun c => k c a)) ->
  pw B (fun c => bind (f c) (k c)).
Proof.
  intros A C B f k H1 H2 x y H3 H4 H5. rewrite (H1 x y H3 H4 H5). destruct (f y); cbn [bind]; try reflexivity.
  apply (H2 a x y); assumption.
Qed.
Lemma pw_orelse : forall B f g, pw B f -> pw B g -> pw B (fun c => f c ||| g c).
Proof. intros. apply (pw_map2 _ _ _ B f g orelse); assumption. Qed.
Lemma pw_andthen : forall B f g, pw B f -> pw B g -> pw B (fun c => f c &&& g c).
Proof. intros. apply (pw_map2 _ _ _ B f g andthen); assumption. Qed.
Lemma pw_mono : forall A B B' (f : Z -> A), (forall b, In b B -> In b B') -> pw B f -> pw B' f.
Proof. intros A B B' f Hs H x y H1 H2 H3. apply H; auto. Qed.
Lemma pw_le : forall B k, In k B -> pw B (fun c => k <=? c).
Proof. intros B k Hk x y H1 H2 H3. specialize (H3 k Hk). lia. Qed.
Lemma pw_lt : forall B k, In (k + 1) B -> pw B (fun c => c <=? k).
Proof. intros B k Hk x y H1 H2 H3. specialize (H3 (k + 1) Hk). lia. Qed.
Lemma pw_gt : forall B k, top <= k -> pw B (fun c => k <? c).
Proof. intros B k Hk x y H1 H2 H3. lia. Qed.

(** It is enough to look at neighbours. *)
Lemma pw_steps : forall A B (f : Z -> A), (forall u, 0 < u <= top -> f (u - 1) = f u \/ In u B) -> pw B f.
Proof.
  intros A B f H x y H1 H2 H3.
  replace y with (x + Z.of_nat (Z.to_nat (y - x))) in * by lia.
  remember (Z.to_nat (y - x)) as n eqn:En. clear En. induction n as [|n IH]; [f_equal; lia|].
  rewrite IH; [| |lia|].
  - destruct (H (x + Z.of_nat (S n)) ltac:(lia)) as [E|E].
    + rewrite <- E. f_equal. lia.
    + exfalso. apply (H3 _ E). lia.
  - lia.
  - intros b Hb Hb'. apply (H3 b Hb). lia.
Qed.

Lemma floor_in : forall l b0 u, ascending (b0 :: l) = true -> b0 <= u ->
  exists b, In b (b0 :: l) /\ b <= u /\ forall b', In b' (b0 :: l) -> ~ (b < b' <= u).
Proof.
  induction l as [|b1 l IH]; intros b0 u Ha Hu.
  - exists b0. split; [left; reflexivity|]. split; [exact Hu|]. intros b' [<-|[]]. lia.
  - destruct (Z_le_gt_dec b1 u) as [Hle|Hgt].
    + destruct (IH b1 u (ascending_tail _ _ Ha) Hle) as (b & H1 & H2 & H3). exists b. split; [right; exact H1|].
      split; [exact H2|]. intros b' [<-|Hb']; [|exact (H3 b' Hb')].
      destruct (ascending_le _ _ b Ha H1) || pose proof (ascending_le _ _ b Ha H1). lia.
    + exists b0. split; [left; reflexivity|]. split; [exact Hu|]. intros b' [<-|Hb']; [lia|].
      destruct Hb' as [<-|Hb']; [lia|]. pose proof (ascending_le _ _ b' (ascending_tail _ _ Ha) Hb'). lia.
Qed.

(** A function that changes only at [B] is known everywhere from its values at [B]. *)
Lemma pw_floor : forall A B (f : Z -> A) u, ascending B = true -> hd 1 B = 0 -> pw B f -> 0 <= u <= top ->
  exists b, In b B /\ b <= u /\ f u = f b.
Proof.
  intros A B f u Ha Hh Hf Hu. destruct B as [|b0 l]; [discriminate|]. cbn in Hh. subst b0.
  destruct (floor_in l 0 u Ha ltac:(lia)) as (b & H1 & H2 & H3). exists b. split; [exact H1|]. split; [exact H2|].
  symmetry. apply Hf; [|lia|exact H3]. split; [|exact H2].
  destruct H1 as [<-|H1]; [lia|]. pose proof (ascending_le _ _ b Ha H1). lia.
Qed.
Lemma pw_check : forall B (f : Z -> bool), ascending B = true -> hd 1 B = 0 -> pw B f -> forallb f B = true ->
  forall u, 0 <= u <= top -> f u = true.
Proof.
  intros B f Ha Hh Hf Hc u Hu. destruct (pw_floor bool B f u Ha Hh Hf Hu) as (b & H1 & _ & H2). rewrite H2.
  apply (proj1 (forallb_forall f B) Hc b H1).
Qed.

(** * Packed, flat and keyed tables *)
Lemma pw_packed : forall data, pw (map key data) (packed data).
Proof.
  intros data x y H1 H2 H3. unfold packed. apply bound_ext. intros v Hv.
  specialize (H3 (key v) (in_map key _ _ Hv)). f_equal. lia.
Qed.
Lemma pw_range_value : forall data d, pw (map key data) (fun c => range_value data c d).
Proof. intros data d. unfold range_value. apply (pw_bind nat Z); [apply pw_packed|intros a; apply pw_const]. Qed.
Lemma pw_range_lookup : forall data, pw (map key data) (range_lookup data).
Proof. intros data. unfold range_lookup. apply (pw_bind nat bool); [apply pw_packed|intros a; apply pw_const]. Qed.

Definition flat_breaks (data : list Z) : list Z := data ++ map (fun x => x + 1) data.
Lemma flat_breaks_spec : forall data x y v, 0 <= x <= y -> (forall b, In b (flat_breaks data) -> ~ (x < b <= y)) ->
  In v data -> x = y \/ (x < v /\ y < v) \/ (v < x /\ v < y).
Proof.
  intros data x y v H1 H3 Hv. pose proof (H3 v) as Ha. pose proof (H3 (v + 1)) as Hb.
  unfold flat_breaks in Ha, Hb. specialize (Ha ltac:(apply in_or_app; left; exact Hv)).
  specialize (Hb ltac:(apply in_or_app; right; apply (in_map (fun x => x + 1)); exact Hv)). lia.
Qed.
Lemma pw_lower : forall data, pw (flat_breaks data) (fun c => bound data (fun x => x <? c)).
Proof.
  intros data x y H1 H2 H3. apply bound_ext. intros v Hv. pose proof (flat_breaks_spec data x y v H1 H3 Hv). lia.
Qed.
Lemma pw_flat_lookup : forall data, pw (flat_breaks data) (flat_lookup data).
Proof.
  intros data x y H1 H2 H3. unfold flat_lookup. destruct (Nat.ltb _ _).
  - f_equal. assert (E : forall l, (forall v, In v l -> In v data) ->
      existsb (fun v => v =? x) l = existsb (fun v => v =? y) l); [|apply E; auto].
    induction l as [|v l IH]; intros Hl; [reflexivity|]. cbn [existsb]. rewrite IH by (intros; apply Hl; right; assumption).
    f_equal. pose proof (flat_breaks_spec data x y v H1 H3 (Hl v (or_introl eq_refl))). lia.
  - unfold binary_search. rewrite (pw_lower data x y H1 H2 H3).
    destruct (bound data (fun x0 => x0 <? y)) as [i| | | |]; cbn [bind]; try reflexivity.
    destruct (Nat.eqb i _); [reflexivity|]. destruct (nth_error data i) as [v|] eqn:E; [|reflexivity].
    do 2 f_equal. pose proof (flat_breaks_spec data x y v H1 H3 (nth_error_In _ _ E)). lia.
Qed.
Lemma pw_numeric : forall data, pw (flat_breaks (map fst data)) (numeric data).
Proof.
  intros data x y H1 H2 H3. unfold numeric. rewrite (pw_lower (map fst data) x y H1 H2 H3).
  destruct (bound _ _) as [i| | | |]; cbn [bind]; try reflexivity.
  destruct (Nat.eqb i _); [reflexivity|]. destruct (nth_error data i) as [[k v]|] eqn:E; [|reflexivity].
  apply nth_error_In in E. apply (in_map fst) in E.
  pose proof (flat_breaks_spec _ x y k H1 H3 E). replace (k =? x) with (k =? y) by lia. reflexivity.
Qed.
Lemma pw_list_value : forall data d, pw (flat_breaks (map key data)) (fun c => list_value data c d).
Proof.
  intros data d x y H1 H2 H3. unfold list_value.
  assert (Hv : forall v, In v data -> x = y \/ (x < key v /\ y < key v) \/ (key v < x /\ key v < y)).
  { intros v Hv. apply (flat_breaks_spec (map key data) x y); auto. apply in_map. exact Hv. }
  rewrite (bound_ext data (fun v => key v <? x) (fun v => key v <? y)).
  2:{ intros v Hin. specialize (Hv v Hin). lia. }
  destruct (bound _ _) as [i| | | |]; cbn [bind]; try reflexivity.
  destruct (Nat.eqb i _); [reflexivity|]. destruct (nth_error data i) as [v|] eqn:E; [|reflexivity].
  specialize (Hv v (nth_error_In _ _ E)). replace (key v =? x) with (key v =? y) by lia. reflexivity.
Qed.

(** * Tries *)
(** The word of 64 bits that speaks of the code points [64k], ..., [64k+63]. *)
Definition trie_word (t : bool_trie) (k : Z) : res Z :=
  if k <? 0x20 then
    if t_r1s t =? 0 then Ok 0 else rd (t_r1 t) 32 k
  else if k <? 0x400 then
    if t_r3s t =? 0 then Ok 0
    else
      let i := k - 0x20 in
      bind (if (t_r2f t <=? i) && (i <? t_r2f t + t_r2s t) then rd (t_r2 t) (t_r2s t) (i - t_r2f t) else Ok 0)
        (fun child => rd (t_r3 t) (t_r3s t) child)
  else
    if t_r6s t =? 0 then Ok 0
    else
      let i4 := Z.shiftr k 6 - 0x10 in
      bind (if (0 <? t_r4s t) && ((t_r4f t <=? i4) && (i4 <? t_r4f t + t_r4s t))
            then rd (t_r4 t) (t_r4s t) (i4 - t_r4f t) else Ok 0) (fun child =>
      let i5 := Z.shiftl child 6 + Z.land k 63 in
      bind (if negb (t_r5s t =? 0) && ((t_r5f t <=? i5) && (i5 <? t_r5f t + t_r5s t))
            then rd (t_r5 t) (t_r5s t) (i5 - t_r5f t) else Ok 0) (fun leaf =>
      rd (t_r6 t) (t_r6s t) leaf)).

Lemma leaf_testbit : forall c x, 0 <= c -> trie_range_leaf c x = Z.testbit x (c mod 64).
Proof.
  intros c x Hc. unfold trie_range_leaf. change 63 with (Z.ones 6). rewrite Z.land_ones by lia.
  change (2 ^ 6) with 64. rewrite Z.shiftr_spec by lia. f_equal.
Qed.
Lemma bind_assoc : forall A B C (x : res A) (f : A -> res B) (g : B -> res C),
  bind (bind x f) g = bind x (fun a => bind (f a) g).
Proof. intros A B C [] f g; reflexivity. Qed.
Lemma bind_eq : forall A B (x : res A) (f g : A -> res B), (forall a, f a = g a) -> bind x f = bind x g.
Proof. intros A B [] f g H; cbn [bind]; auto. Qed.

Lemma trie_lookup_word : forall t c, 0 <= c ->
  trie_lookup t c = bind (trie_word t (c / 64)) (fun x => Ok (Z.testbit x (c mod 64))).
Proof.
  intros t c Hc. unfold trie_lookup, trie_word.
  pose proof (Z.div_mod c 64 ltac:(lia)) as Hd. pose proof (Z.mod_pos_bound c 64 ltac:(lia)) as Hm.
  assert (E6 : Z.shiftr c 6 = c / 64) by (rewrite Z.shiftr_div_pow2 by lia; reflexivity).
  assert (E12 : Z.shiftr c 12 = Z.shiftr (c / 64) 6).
  { rewrite <- E6, Z.shiftr_shiftr by lia. reflexivity. }
  assert (H1 : (c <? 0x800) = (c / 64 <? 0x20)) by lia.
  assert (H2 : (c <? 0x10000) = (c / 64 <? 0x400)) by lia.
  rewrite H1, H2, E6, E12.
  destruct (c / 64 <? 0x20).
  { destruct (t_r1s t =? 0); cbn [bind]; [rewrite Z.bits_0; reflexivity|].
    apply bind_eq. intros a. rewrite leaf_testbit by lia. reflexivity. }
  destruct (c / 64 <? 0x400).
  { destruct (t_r3s t =? 0); cbn [bind]; [rewrite Z.bits_0; reflexivity|]. rewrite bind_assoc.
    apply bind_eq. intros a. apply bind_eq. intros b. rewrite leaf_testbit by lia. reflexivity. }
  destruct (t_r6s t =? 0); cbn [bind]; [rewrite Z.bits_0; reflexivity|]. rewrite bind_assoc.
  apply bind_eq. intros a. rewrite bind_assoc. apply bind_eq. intros b. apply bind_eq. intros d.
  rewrite leaf_testbit by lia. reflexivity.
Qed.

(** The indices stored in the trie point into it. *)
Definition within (n : Z) (l : list Z) : bool := forallb (fun x => (0 <=? x) && (x <? n)) l.
Definition trie_ok (t : bool_trie) : bool :=
  ((t_r3s t =? 0) || ((0 <? t_r3s t) && within (t_r3s t) (t_r2 t))) &&
  ((t_r6s t =? 0) || ((0 <? t_r6s t) && within (t_r6s t) (t_r5 t))).

Lemma within_nth : forall n l i, 0 < n -> within n l = true -> 0 <= nth i l 0 < n.
Proof.
  intros n l i Hn H. destruct (nth_in_or_default i l 0) as [Hin| ->]; [|lia].
  pose proof (proj1 (forallb_forall _ _) H _ Hin) as H'. cbn beta in H'. lia.
Qed.
Lemma rd_ok : forall a n i, 0 <= i < n -> rd a n i = Ok (nth (Z.to_nat i) a 0).
Proof. intros a n i H. unfold rd. destruct (_ && _) eqn:E; [reflexivity|]. lia. Qed.

Lemma trie_word_ok : forall t k, trie_ok t = true -> 0 <= k -> exists x, trie_word t k = Ok x.
Proof.
  intros t k H Hk. unfold trie_ok in H. apply andb_true_iff in H as [H3 H6]. unfold trie_word.
  destruct (Z.ltb_spec k 0x20).
  { destruct (t_r1s t =? 0); [eauto|]. rewrite rd_ok by lia. eauto. }
  destruct (Z.ltb_spec k 0x400).
  { destruct (t_r3s t =? 0); [eauto|]. cbn [orb] in H3. apply andb_true_iff in H3 as [H3 H3']. cbv zeta.
    destruct ((t_r2f t <=? k - 32) && (k - 32 <? t_r2f t + t_r2s t)) eqn:E.
    - rewrite rd_ok by lia. cbn [bind].
      pose proof (within_nth (t_r3s t) (t_r2 t) (Z.to_nat (k - 32 - t_r2f t)) ltac:(lia) H3') as Hr.
      rewrite rd_ok by exact Hr. eauto.
    - cbn [bind]. rewrite rd_ok by lia. eauto. }
  destruct (t_r6s t =? 0); [eauto|]. cbn [orb] in H6. apply andb_true_iff in H6 as [H6 H6']. cbv zeta.
  set (i4 := Z.shiftr k 6 - 16).
  assert (Hleaf : forall i5, exists x, bind (if negb (t_r5s t =? 0) && ((t_r5f t <=? i5) && (i5 <? t_r5f t + t_r5s t))
            then rd (t_r5 t) (t_r5s t) (i5 - t_r5f t) else Ok 0) (fun leaf => rd (t_r6 t) (t_r6s t) leaf) = Ok x).
  { intros i5. destruct (negb (t_r5s t =? 0) && ((t_r5f t <=? i5) && (i5 <? t_r5f t + t_r5s t))) eqn:E.
    - rewrite rd_ok by lia. cbn [bind].
      pose proof (within_nth (t_r6s t) (t_r5 t) (Z.to_nat (i5 - t_r5f t)) ltac:(lia) H6') as Hr.
      rewrite rd_ok by exact Hr. eauto.
    - cbn [bind]. rewrite rd_ok by lia. eauto. }
  destruct ((0 <? t_r4s t) && ((t_r4f t <=? i4) && (i4 <? t_r4f t + t_r4s t))) eqn:E.
  - rewrite rd_ok by lia. cbn [bind]. apply Hleaf.
  - cbn [bind]. apply Hleaf.
Qed.
Theorem trie_lookup_ok : forall t c, trie_ok t = true -> 0 <= c -> exists b, trie_lookup t c = Ok b.
Proof.
  intros t c H Hc. rewrite trie_lookup_word by exact Hc.
  destruct (trie_word_ok t (c / 64) H ltac:(apply Z.div_pos; lia)) as (x & ->). cbn [bind]. eauto.
Qed.

Definition word (t : bool_trie) (k : Z) : Z := match trie_word t k with Ok x => x | _ => 0 end.
Definition upto (n : nat) : list Z := map Z.of_nat (seq 0 n).
(** The places of the set bits of [x], as numbers from [k] on. *)
Fixpoint set_bits (x : positive) (k : Z) : list Z :=
  match x with
  | xH => [k]
  | xO x' => set_bits x' (k + 1)
  | xI x' => k :: set_bits x' (k + 1)
  end.
(** The code points of word [k] that differ from the one before; [p] is the word before. *)
Definition word_breaks (p x k : Z) : list Z :=
  match Z.land (Z.lxor x (Z.lor (Z.shiftl x 1) (Z.b2z (Z.testbit p 63)))) (Z.ones 64) with
  | Zpos d => set_bits d (64 * k)
  | _ => []
  end.
Fixpoint words_breaks (ws : list Z) (k p : Z) : list Z :=
  match ws with
  | [] => []
  | x :: ws' => (if (x =? 0) && (p =? 0) then [] else word_breaks p x k) ++ words_breaks ws' (k + 1) x
  end.
(** The words of all code points. In the upper part they come in blocks of 64, and there are few different blocks. *)
Definition leaf_word (t : bool_trie) (i5 : Z) : Z :=
  match bind (if negb (t_r5s t =? 0) && ((t_r5f t <=? i5) && (i5 <? t_r5f t + t_r5s t))
              then rd (t_r5 t) (t_r5s t) (i5 - t_r5f t) else Ok 0) (fun leaf => rd (t_r6 t) (t_r6s t) leaf) with
  | Ok x => x
  | _ => 0
  end.
Definition block_words (t : bool_trie) (child : Z) : list Z :=
  map (fun j => leaf_word t (Z.shiftl child 6 + j)) (upto 64).
Definition high_words (t : bool_trie) : list Z :=
  let blocks := map (block_words t) (upto (S (Z.to_nat (fold_right Z.max 0 (t_r4 t))))) in
  flat_map (fun i4 =>
    let child := if (0 <? t_r4s t) && ((t_r4f t <=? i4) && (i4 <? t_r4f t + t_r4s t))
                 then nth (Z.to_nat (i4 - t_r4f t)) (t_r4 t) 0 else 0 in
    if child <? 0 then block_words t child else nth (Z.to_nat child) blocks (block_words t child)) (upto 256).
Definition all_words (t : bool_trie) : list Z :=
  map (word t) (upto 1024) ++ (if t_r6s t =? 0 then repeat 0 (Z.to_nat 16384) else high_words t).
Definition trie_breaks (t : bool_trie) : list Z := words_breaks (all_words t) 0 0.

Lemma set_bits_in : forall x k i, 0 <= i -> Z.testbit (Zpos x) i = true -> In (k + i) (set_bits x k).
Proof.
  induction x as [x IH|x IH|]; intros k i Hi H; cbn [set_bits].
  - destruct (Z.eq_dec i 0) as [->|Hne]; [left; lia|right]. replace (k + i) with (k + 1 + (i - 1)) by lia. apply IH; [lia|].
    replace i with (Z.succ (i - 1)) in H by lia. change (Zpos x~1) with (2 * Zpos x + 1) in H.
    rewrite Z.testbit_odd_succ in H by lia. exact H.
  - destruct (Z.eq_dec i 0) as [->|Hne]; [discriminate|]. replace (k + i) with (k + 1 + (i - 1)) by lia. apply IH; [lia|].
    replace i with (Z.succ (i - 1)) in H by lia. change (Zpos x~0) with (2 * Zpos x) in H.
    rewrite Z.testbit_even_succ in H by lia. exact H.
  - destruct (Z.eq_dec i 0) as [->|Hne]; [left; lia|]. exfalso.
    replace i with (Z.succ (i - 1)) in H by lia. change 1 with (2 * 0 + 1) in H at 1.
    rewrite Z.testbit_odd_succ, Z.bits_0 in H by lia. discriminate.
Qed.
Lemma word_breaks_in : forall p x k i, 0 <= i < 64 ->
  Z.testbit x i <> (if i =? 0 then Z.testbit p 63 else Z.testbit x (i - 1)) -> In (64 * k + i) (word_breaks p x k).
Proof.
  intros p x k i Hi H. unfold word_breaks.
  set (d := Z.land _ _).
  assert (Hd : Z.testbit d i = true).
  { unfold d. rewrite Z.land_spec, Z.ones_spec_low by lia. rewrite andb_true_r, Z.lxor_spec, Z.lor_spec, Z.shiftl_spec by lia.
    destruct (Z.eqb_spec i 0) as [->|Hne].
    - rewrite (Z.testbit_neg_r x (0 - 1)) by lia. cbn [orb]. rewrite Z.b2z_bit0.
      destruct (Z.testbit x 0), (Z.testbit p 63); cbn; congruence.
    - assert (E : Z.testbit (Z.b2z (Z.testbit p 63)) i = false).
      { destruct (Z.testbit p 63); cbn [Z.b2z]; [|apply Z.bits_0]. replace i with (Z.succ (i - 1)) by lia.
        change 1 with (2 * 0 + 1) at 1. rewrite Z.testbit_odd_succ by lia. apply Z.bits_0. }
      rewrite E, orb_false_r. destruct (Z.testbit x i), (Z.testbit x (i - 1)); cbn; congruence. }
  assert (Hp : 0 <= d) by (apply Z.land_nonneg; right; vm_compute; discriminate).
  destruct d as [|d|d]; [rewrite Z.bits_0 in Hd; discriminate| |lia]. apply set_bits_in; [lia|exact Hd].
Qed.

Lemma length_upto : forall n, length (upto n) = n.
Proof. intros n. unfold upto. rewrite map_length, seq_length. reflexivity. Qed.
Lemma nth_map_default : forall A C (f : A -> C) l i a, nth i (map f l) (f a) = f (nth i l a).
Proof. intros. apply map_nth. Qed.
Lemma nth_upto : forall n i d, (i < n)%nat -> nth i (upto n) d = Z.of_nat i.
Proof.
  intros n i d Hi. unfold upto. rewrite (nth_indep _ d (Z.of_nat 0)) by (rewrite map_length, seq_length; exact Hi).
  rewrite map_nth, seq_nth by exact Hi. reflexivity.
Qed.
Lemma blocks_nth : forall t n child, 0 <= child ->
  nth (Z.to_nat child) (map (block_words t) (upto n)) (block_words t child) = block_words t child.
Proof.
  intros t n child Hc. rewrite map_nth. destruct (Nat.lt_ge_cases (Z.to_nat child) n) as [H|H].
  - rewrite nth_upto by exact H. f_equal. lia.
  - rewrite nth_overflow by (rewrite length_upto; exact H). reflexivity.
Qed.
Lemma flat_map_nth : forall (f : Z -> list Z) m l i j, (forall x, length (f x) = m) -> (i < length l)%nat -> (j < m)%nat ->
  nth (i * m + j) (flat_map f l) 0 = nth j (f (nth i l 0)) 0.
Proof.
  intros f m. induction l as [|a l IH]; intros i j Hf Hi Hj; [cbn in Hi; lia|]. cbn [flat_map]. destruct i as [|i].
  - cbn [Nat.mul Nat.add nth]. rewrite app_nth1 by (rewrite Hf; exact Hj). reflexivity.
  - rewrite app_nth2 by (rewrite Hf; lia). rewrite Hf. replace (S i * m + j - m)%nat with (i * m + j)%nat by lia.
    cbn [nth]. apply IH; [exact Hf|cbn in Hi; lia|exact Hj].
Qed.
Lemma flat_map_len : forall (f : Z -> list Z) m l, (forall x, length (f x) = m) -> length (flat_map f l) = (length l * m)%nat.
Proof. intros f m. induction l as [|a l IH]; intros Hf; [reflexivity|]. cbn [flat_map]. rewrite app_length, Hf, IH by exact Hf. reflexivity. Qed.
Lemma length_block : forall t c, length (block_words t c) = 64%nat.
Proof. intros. unfold block_words. rewrite map_length. apply length_upto. Qed.
Lemma high_words_eq : forall t, high_words t = flat_map (fun i4 =>
  block_words t (if (0 <? t_r4s t) && ((t_r4f t <=? i4) && (i4 <? t_r4f t + t_r4s t))
                 then nth (Z.to_nat (i4 - t_r4f t)) (t_r4 t) 0 else 0)) (upto 256).
Proof.
  intros t. unfold high_words. cbv zeta. rewrite !flat_map_concat_map. f_equal. apply map_ext. intros i4.
  match goal with |- (if ?c <? 0 then _ else _) = _ => set (child := c) end. destruct (Z.ltb_spec child 0); [reflexivity|]. apply blocks_nth. exact H.
Qed.
Lemma length_all_words : forall t, length (all_words t) = Z.to_nat 17408.
Proof.
  intros t. unfold all_words. rewrite app_length, map_length, length_upto. destruct (t_r6s t =? 0).
  - rewrite repeat_length. lia.
  - rewrite high_words_eq, (flat_map_len _ 64) by (intros; apply length_block). rewrite length_upto. lia.
Qed.
Lemma all_words_nth : forall t k, 0 <= k < 17408 -> nth (Z.to_nat k) (all_words t) 0 = word t k.
Proof.
  intros t k Hk. unfold all_words. destruct (Z_lt_le_dec k 1024) as [Hlt|Hge].
  - rewrite app_nth1 by (rewrite map_length, length_upto; lia).
    rewrite (nth_indep _ 0 (word t 0)) by (rewrite map_length, length_upto; lia). rewrite map_nth, nth_upto by lia.
    f_equal. lia.
  - rewrite app_nth2 by (rewrite map_length, length_upto; lia). rewrite map_length, length_upto.
    unfold word, trie_word. destruct (Z.ltb_spec k 0x20); [lia|]. destruct (Z.ltb_spec k 0x400); [lia|].
    destruct (t_r6s t =? 0) eqn:E6.
    { destruct (nth_in_or_default (Z.to_nat k - 1024) (repeat 0 (Z.to_nat 16384)) 0) as [H'|H']; [|exact H'].
      exact (repeat_spec _ _ _ H'). }
    rewrite high_words_eq. cbv zeta.
    assert (Es : Z.shiftr k 6 = k / 64) by (rewrite Z.shiftr_div_pow2 by lia; reflexivity).
    assert (El : Z.land k 63 = k mod 64) by (change 63 with (Z.ones 6); rewrite Z.land_ones by lia; reflexivity).
    pose proof (Z.div_mod k 64 ltac:(lia)) as Hd. pose proof (Z.mod_pos_bound k 64 ltac:(lia)) as Hm.
    replace (Z.to_nat k - 1024)%nat with (Z.to_nat (k / 64 - 16) * 64 + Z.to_nat (k mod 64))%nat by lia.
    rewrite flat_map_nth; [|intros; apply length_block|rewrite length_upto; lia|lia].
    rewrite nth_upto by lia. rewrite Es, El. set (i4 := k / 64 - 16).
    replace (Z.of_nat (Z.to_nat i4)) with i4 by (unfold i4; lia).
    assert (Hb : forall c, nth (Z.to_nat (k mod 64)) (block_words t c) 0 = leaf_word t (Z.shiftl c 6 + k mod 64)).
    { intros c. unfold block_words.
      rewrite (nth_indep _ 0 (leaf_word t (Z.shiftl c 6 + 0))) by (rewrite map_length, length_upto; lia).
      rewrite (map_nth (fun j => leaf_word t (Z.shiftl c 6 + j))), nth_upto by lia. f_equal. lia. }
    rewrite Hb. unfold leaf_word.
    destruct ((0 <? t_r4s t) && ((t_r4f t <=? i4) && (i4 <? t_r4f t + t_r4s t))) eqn:E4; [|reflexivity].
    rewrite (rd_ok (t_r4 t)) by lia. reflexivity.
Qed.

Lemma in_upto : forall n i, 0 <= i < Z.of_nat n -> In i (upto n).
Proof.
  intros n i Hi. unfold upto. apply in_map_iff. exists (Z.to_nat i). split; [lia|]. apply in_seq. lia.
Qed.
Definition bit (t : bool_trie) (u : Z) : bool := Z.testbit (word t (u / 64)) (u mod 64).
Lemma words_breaks_in : forall f ws k p u, 0 <= k -> (forall i, 0 <= i < Z.of_nat (length ws) -> nth (Z.to_nat i) ws 0 = f (k + i)) ->
  (0 < k -> p = f (k - 1)) -> 0 < u -> 64 * k <= u < 64 * (k + Z.of_nat (length ws)) ->
  Z.testbit (f ((u - 1) / 64)) ((u - 1) mod 64) <> Z.testbit (f (u / 64)) (u mod 64) -> In u (words_breaks ws k p).
Proof.
  intros f. induction ws as [|x ws IH]; intros k p u Hk Hw Hp Hu Hr Hb; [cbn [length] in Hr; lia|]. cbn [words_breaks]. apply in_or_app.
  assert (Hx : x = f k) by (specialize (Hw 0 ltac:(cbn [length]; lia)); change (nth (Z.to_nat 0) (x :: ws) 0) with x in Hw; rewrite Hw; f_equal; lia).
  cbn [length] in Hr, Hw. destruct (Z_lt_le_dec u (64 * (k + 1))) as [Hlt|Hge].
  2:{ right. apply IH; [lia| |intros _; rewrite Hx; f_equal; lia|lia|lia|exact Hb].
      intros i Hi. specialize (Hw (i + 1) ltac:(lia)). replace (Z.to_nat (i + 1)) with (S (Z.to_nat i)) in Hw by lia. cbn [nth] in Hw.
      rewrite Hw. f_equal. lia. }
  left.
  assert (Eu : u / 64 = k) by (symmetry; apply Z.div_unique with (u - 64 * k); lia).
  assert (Em : u mod 64 = u - 64 * k) by (rewrite Z.mod_eq by lia; lia).
  rewrite Eu, Em, <- Hx in Hb.
  assert (Hprev : Z.testbit (f ((u - 1) / 64)) ((u - 1) mod 64) =
                  if u - 64 * k =? 0 then Z.testbit p 63 else Z.testbit x (u - 64 * k - 1)).
  { destruct (Z.eqb_spec (u - 64 * k) 0) as [E0|E0].
    - rewrite Hp by lia. f_equal; [f_equal|].
      + symmetry. apply Z.div_unique with 63; lia.
      + symmetry. apply Z.mod_unique with (k - 1); lia.
    - rewrite Hx. f_equal; [f_equal|].
      + symmetry. apply Z.div_unique with (u - 1 - 64 * k); lia.
      + symmetry. apply Z.mod_unique with k; lia. }
  rewrite Hprev in Hb.
  destruct ((x =? 0) && (p =? 0)) eqn:E.
  { exfalso. apply Hb. assert (E1 : x = 0) by lia. assert (E2 : p = 0) by lia. rewrite E1, E2.
    rewrite !Z.bits_0. destruct (_ =? 0); reflexivity. }
  replace u with (64 * k + (u - 64 * k)) at 1 by lia. apply word_breaks_in; [lia|]. congruence.
Qed.

Lemma pw_trie : forall t, trie_ok t = true -> pw (trie_breaks t) (trie_lookup t).
Proof.
  intros t Ht. assert (E : forall c, 0 <= c -> trie_lookup t c = Ok (bit t c)).
  { intros c Hc. rewrite trie_lookup_word by exact Hc. unfold bit, word.
    destruct (trie_word_ok t (c / 64) Ht ltac:(apply Z.div_pos; lia)) as (x & ->). reflexivity. }
  assert (H : pw (trie_breaks t) (bit t)).
  { apply pw_steps. intros u Hu. destruct (bool_dec (bit t (u - 1)) (bit t u)) as [He|Hne]; [left; exact He|right].
    unfold trie_breaks. unfold top in Hu.
    apply (words_breaks_in (word t)); rewrite ?length_all_words; [lia| |lia|lia|lia|exact Hne].
    intros i Hi. apply all_words_nth. lia. }
  intros x y H1 H2 H3. rewrite !E by lia. f_equal. apply H; assumption.
Qed.

(** * All places where a lookup can change *)
Fixpoint merge (l1 : list Z) : list Z -> list Z :=
  match l1 with
  | [] => fun l2 => l2
  | a :: l1' => fix inner (l2 : list Z) : list Z :=
      match l2 with
      | [] => a :: l1'
      | b :: l2' => if a <? b then a :: merge l1' (b :: l2') else if b <? a then b :: inner l2' else a :: merge l1' l2'
      end
  end.
Lemma merge_in : forall l1 l2 x, In x l1 \/ In x l2 -> In x (merge l1 l2).
Proof.
  induction l1 as [|a l1 IH]; intros l2 x; [intros [[]|H]; exact H|].
  induction l2 as [|b l2 IH2]; [intros [H|[]]; exact H|]. intros H.
  change (merge (a :: l1) (b :: l2)) with
    (if a <? b then a :: merge l1 (b :: l2) else if b <? a then b :: merge (a :: l1) l2 else a :: merge l1 l2).
  destruct (Z.ltb_spec a b); [|destruct (Z.ltb_spec b a)].
  - destruct H as [[->|H]|H]; [left; reflexivity| |]; right; apply IH; [left|right]; exact H.
  - destruct H as [H|[->|H]]; [right; apply IH2; left; exact H|left; reflexivity|right; apply IH2; right; exact H].
  - destruct H as [[->|H]|[->|H]]; [left; reflexivity|right; apply IH; left; exact H|left; lia|right; apply IH; right; exact H].
Qed.
Definition sorted_of (l : list Z) : list Z := fold_right (fun x acc => merge [x] acc) [] l.
Lemma sorted_of_in : forall l x, In x l -> In x (sorted_of l).
Proof.
  induction l as [|a l IH]; intros x H; [exact H|]. cbn [sorted_of fold_right]. apply merge_in.
  destruct H as [->|H]; [left; left; reflexivity|right; apply IH; exact H].
Qed.
Definition sorted_breaks (data : list Z) : list Z := merge (sorted_of data) (sorted_of (map (fun x => x + 1) data)).
Lemma sorted_breaks_in : forall data x, In x (flat_breaks data) -> In x (sorted_breaks data).
Proof.
  intros data x H. apply merge_in. apply in_app_or in H as [H|H]; [left|right]; apply sorted_of_in; exact H.
Qed.
Definition merge_all (ls : list (list Z)) : list Z := fold_right merge [] ls.
Lemma merge_all_in : forall ls l x, In l ls -> In x l -> In x (merge_all ls).
Proof.
  induction ls as [|a ls IH]; intros l x Hl Hx; [contradiction|]. cbn [merge_all fold_right]. apply merge_in.
  destruct Hl as [->|Hl]; [left; exact Hx|right; apply (IH l); assumption].
Qed.

Definition tries : list bool_trie :=
  [cat_lo; cat_so; cat_ll; cat_mn; cat_lu; cat_sm; cat_no; cat_nd; cat_po; cat_mc; cat_lm; cat_sk; cat_ps; cat_pe;
   prop_alpha_data; prop_bidi_m_data; prop_dia_data; prop_emoji_data; prop_emoji_modifier_base_data;
   prop_emoji_presentation_data; prop_extended_pictographic_data; prop_gr_base_data; prop_pat_syn_data;
   prop_sterm_data; prop_term_data; prop_xidc_data; prop_xids_data; prop_omath_data; prop_ogr_ext_data; prop_oalpha_data;
   prop_assigned].
Definition ranges : list (list Z) :=
  [cat_co; cat_cs; cat_nl; cat_cf; cat_cc; cat_sc; cat_lt; cat_zs; cat_me;
   prop_ahex_data; prop_bidi_c_data; prop_emoji_component_data; prop_emoji_modifier_data; prop_hex_data; prop_ideo_data;
   prop_idsb_data; prop_loe_data; prop_qmark_data; prop_radical_data; prop_ri_data; prop_uideo_data; prop_vs_data;
   prop_wspace_data; prop_olower_data; prop_oupper_data; prop_oidc_data; age_data; block_data] ++ script_data.
Definition flats : list (list Z) :=
  [cat_pd; cat_pi; cat_pf; cat_pc; cat_zp; cat_zl; prop_dash_data; prop_dep_data; prop_ext_data; prop_idst_data;
   prop_join_c_data; prop_pat_ws_data; prop_pcm_data; prop_sd_data; prop_odi_data; prop_oids_data;
   map fst numeric_data64; map fst numeric_data32; map fst numeric_data16; map fst numeric_data_d; map key numeric_data8].
Definition constants : list Z :=
  [0; 0x80; 0xFDD0; 0xFDF0; 0xFFF9; 0xFFFC; 0x13430; 0x13439] ++ map (fun k => k * 65536) (upto 17) ++
  map (fun k => k * 65536 + 65534) (upto 17).
Definition all_breaks : list Z :=
  merge_all ([sorted_of constants] ++ map trie_breaks tries ++ map (map key) ranges ++
             map sorted_breaks flats).

Definition B : list Z := Eval vm_compute in all_breaks.
Lemma B_eq : all_breaks = B.
Proof. vm_cast_no_check (eq_refl B). Qed.
Lemma B_ascending : ascending B = true.
Proof. vm_compute. reflexivity. Qed.
Lemma B_zero : hd 1 B = 0.
Proof. vm_compute. reflexivity. Qed.
