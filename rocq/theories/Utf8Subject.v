(** A [ctre::utf8_range] as the subject, and captures that hold [utf8_iterator]s.
    Source: /repo/include/ctre/utf8.hpp lines 233-245, /repo/include/ctre/wrapper.hpp lines 67-76, 175-177, 201-203,
    /repo/include/ctre/return_type.hpp lines 80-124, 163-174.

    [std::u8string_view] subjects keep [const char8_t *] in the result (wrapper.hpp lines 190-194, [on_u8]); here the iterator of the
    subject is the iterator of the result. *)
From Coq Require Import List ZArith NArith Bool Lia Arith.
From Verif Require Import Chars Syntax First Utf8 View Eval Api Spec CharProofs EvalInv ApiProofs Match Sim Utf8Proofs Utf8Iter Iter Views RangeSim.
Import ListNotations.

(** As [utf8_view], with the same iterator in the result: back references compare code points (evaluation.hpp lines 445-455) and
    [lazy_repeat] goes on from a [utf8_iterator] (line 300). *)
Definition utf8_range_view (strict : bool) (mem : list Z) (len : nat) : view := {|
  vend := fun p => Some (Nat.leb len p);
  vbeg := fun p => Some (Nat.eqb p 0);
  vget := fun p => utf8_get mem len p;
  vnext := fun p => utf8_next strict mem p;
  vprev := fun p => utf8_prev mem len p;
  vconv := true; vsame := true |}.
(** wrapper.hpp lines 201-203, 175-177. *)
Definition on_utf8_range (strict : bool) (a : method) (opt : bool) (n : nat) (mem : list Z) (f : flags) (r : re) : res caps :=
  exec a opt n (utf8_range_view strict mem (length mem)) (utf8_range_view strict mem (length mem)) f r 0.
Definition range_utf8_range (strict : bool) (a : range_method) (opt : bool) (n : nat) (mem : list Z) (f : flags) (r : re) : res (list caps) :=
  range_of a opt n (utf8_range_view strict mem (length mem)) (utf8_range_view strict mem (length mem)) f r.

(** * Captures *)
(** [std::distance] on iterators that are not random access: [++] until equal (utf8.hpp line 81-83). *)
Fixpoint utf8_distance (mem : list Z) (fuel p e : nat) : res nat :=
  if Nat.eqb p e then Ok 0
  else match fuel with
       | O => Fuel
       | S fuel' =>
           match utf8_next false mem p with
           | None => UB
           | Some q => match utf8_distance mem fuel' q e with Ok n => Ok (S n) | x => x end
           end
       end.
(** return_type.hpp lines 110-112. Value-initialised iterators are equal. *)
Definition u8_size (mem : list Z) (fuel : nat) (sl : slot) : res nat :=
  match s_beg sl, s_end sl with
  | Some b, Some e => utf8_distance mem fuel b e
  | None, None => Ok 0
  | _, _ => UB
  end.
(** lines 114-124: the distance of the pointers. *)
Definition u8_unit_size (sl : slot) : res nat :=
  match s_beg sl, s_end sl with
  | Some b, Some e => if Nat.leb b e then Ok (e - b) else UB
  | None, None => Ok 0
  | _, _ => UB
  end.
(** lines 163-168: [basic_string(data_unsafe(), unit_size())]; reading beyond the storage is undefined. *)
Definition u8_string (mem : list Z) (sl : slot) : res (list Z) :=
  match u8_unit_size sl with
  | Ok n => match s_beg sl with
            | Some b => if Nat.leb (b + n) (length mem) then Ok (firstn n (skipn b mem)) else UB
            | None => Ok []
            end
  | No => No | Fuel => Fuel | UB => UB | Ill => Ill
  end.

(** * The calls *)
Definition u8_range_ok (prev : bool) (r : re) : bool := pok (fun _ => true) (fun _ => true) (fun _ => true) true true prev r.
Section Moved.
Variables (P : nat -> nat -> Prop) (g : nat -> nat) (prev : bool) (t mem : list Z) (strict : bool).
Hypothesis P_g : forall i j, P i j -> j = g i.
Hypothesis P_eqb : forall a b a' b', P a a' -> P b b' -> Nat.eqb a b = Nat.eqb a' b'.
Hypothesis P_0 : P 0 0.
Hypothesis sim : vsim P eq false prev (arr_view t) (utf8_view strict mem (length mem)).
Lemma range_sim : vsim P eq true prev (arr_view t) (utf8_range_view strict mem (length mem)).
Proof. destruct sim as [H1 H2 H3 H4 H5 H6 H7]. constructor; auto. Qed.
Theorem utf8_range_same : forall a opt n f r, well_numbered r -> u8_range_ok prev r = true ->
  on_utf8_range strict a opt n mem f r = move_res g (on_array a opt n t f r).
Proof.
  intros a opt n f r Hw Hr. pose proof range_sim as Hv.
  apply (rrel_move P); [assumption| |apply on_array_no_ub; assumption].
  unfold on_utf8_range, on_array.
  destruct a; cbn [exec];
    [eapply sim_match with (okf := @eq flags) (Rv := @eq Z) (back := true) (lazy := true) (prev := prev)
    |eapply sim_starts with (okf := @eq flags) (Rv := @eq Z) (back := true) (lazy := true) (prev := prev)
    |eapply sim_search with (okf := @eq flags) (Rv := @eq Z) (back := true) (lazy := true) (prev := prev)];
    try exact Hr; try assumption; try (intros; subst; auto); intros _; assumption.
Qed.
Theorem range_utf8_range_same : forall a opt n f r, well_numbered r -> u8_range_ok prev r = true ->
  range_utf8_range strict a opt n mem f r = move_list g (range_array a opt n t f r).
Proof.
  intros a opt n f r Hw Hr. pose proof range_sim as Hv. apply (list_move P); [assumption| |apply range_no_ub; assumption].
  unfold range_utf8_range, range_array.
  eapply sim_range with (okf := @eq flags) (Rv := @eq Z) (back := true) (lazy := true) (prev := prev);
    try exact Hr; try assumption; try (intros; subst; auto; fail); intros _; assumption.
Qed.
End Moved.
(** On well-formed text every pattern works on code points. *)
Theorem utf8_range_text : forall t, wf_text t -> forall a opt n f r, well_numbered r ->
  on_utf8_range true a opt n (encode t) f r = move_res (offset t) (on_array a opt n t f r).
Proof.
  intros t wf a opt n f r Hw. apply (utf8_range_same (fun i j => j = offset t i /\ i <= length t) (offset t) true);
    [intros i j [-> _]; reflexivity|exact (inj_eqb t)|split; [reflexivity|lia]|exact (text_sim t wf)|exact Hw|apply any_pok].
Qed.
Theorem range_utf8_range_text : forall t, wf_text t -> forall a opt n f r, well_numbered r ->
  range_utf8_range true a opt n (encode t) f r = move_list (offset t) (range_array a opt n t f r).
Proof.
  intros t wf a opt n f r Hw. apply (range_utf8_range_same (fun i j => j = offset t i /\ i <= length t) (offset t) true);
    [intros i j [-> _]; reflexivity|exact (inj_eqb t)|split; [reflexivity|lia]|exact (text_sim t wf)|exact Hw|apply any_pok].
Qed.
(** On any bytes, those that do not look back. *)
Theorem utf8_range_bytes : forall bs, Forall byte bs -> forall a opt n f r, well_numbered r -> u8_range_ok false r = true ->
  on_utf8_range false a opt n bs f r = move_res (reached bs) (on_array a opt n (decode bs) f r).
Proof.
  intros bs B a opt n f r Hw Hr. apply (utf8_range_same (fun i j => j = reached bs i /\ i <= length (decode bs)) (reached bs) false);
    [intros i j [-> _]; reflexivity|exact (bytes_eqb bs)|split; [reflexivity|lia]|exact (bytes_sim bs B)|exact Hw|exact Hr].
Qed.
Theorem range_utf8_range_bytes : forall bs, Forall byte bs -> forall a opt n f r, well_numbered r -> u8_range_ok false r = true ->
  range_utf8_range false a opt n bs f r = move_list (reached bs) (range_array a opt n (decode bs) f r).
Proof.
  intros bs B a opt n f r Hw Hr. apply (range_utf8_range_same (fun i j => j = reached bs i /\ i <= length (decode bs)) (reached bs) false);
    [intros i j [-> _]; reflexivity|exact (bytes_eqb bs)|split; [reflexivity|lia]|exact (bytes_sim bs B)|exact Hw|exact Hr].
Qed.

(** * What the captures say *)
Lemma distance_steps : forall mem (g : nat -> nat) top, (forall i, i < top -> utf8_next false mem (g i) = Some (g (S i))) ->
  (forall i j, i < j -> j <= top -> g i < g j) -> forall k i fuel, i + k <= top -> k <= fuel -> utf8_distance mem fuel (g i) (g (i + k)) = Ok k.
Proof.
  intros mem g top H M. induction k as [|k IH]; intros i fuel L F.
  - rewrite Nat.add_0_r. destruct fuel; cbn [utf8_distance]; rewrite Nat.eqb_refl; reflexivity.
  - destruct fuel as [|fuel]; [lia|]. cbn [utf8_distance]. pose proof (M i (i + S k) ltac:(lia) L).
    destruct (Nat.eqb_spec (g i) (g (i + S k))); [lia|]. rewrite H by lia.
    replace (i + S k) with (S i + k) by lia. rewrite IH by lia. reflexivity.
Qed.
Section Slots.
Variables (mem : list Z) (g : nat -> nat) (top : nat).
Hypothesis steps : forall i, i < top -> utf8_next false mem (g i) = Some (g (S i)).
Hypothesis mono : forall i j, i < j -> j <= top -> g i < g j.
Lemma slot_sizes : forall sl b e, s_beg sl = Some b -> s_end sl = Some e -> b <= e <= top ->
  (forall fuel, e - b <= fuel -> u8_size mem fuel (move_slot g sl) = Ok (e - b)) /\ u8_unit_size (move_slot g sl) = Ok (g e - g b).
Proof.
  intros sl b e Hb He L. unfold u8_size, u8_unit_size, move_slot. cbn [s_beg s_end]. rewrite Hb, He. cbn [option_map]. split.
  - intros fuel F. replace e with (b + (e - b)) at 1 by lia. apply (distance_steps mem g top steps mono); lia.
  - assert (g b <= g e) by (destruct (Nat.eq_dec b e); [subst; lia|apply Nat.lt_le_incl, mono; lia]).
    destruct (Nat.leb_spec (g b) (g e)); [reflexivity|lia].
Qed.
End Slots.
Lemma get_moved : forall g c id sl, get_id id c = Some sl -> get_id id (move g c) = Some (move_slot g sl).
Proof.
  intros g c id sl. unfold get_id. destruct (Nat.eqb id 0); [intros H; injection H as <-; reflexivity|]. unfold move. cbn [cl].
  induction (cl c) as [|[[i nm] x] l IH]; [discriminate|]. cbn [map find_id fst snd].
  destruct (Nat.eqb i id); [intros H; injection H as <-; reflexivity|exact IH].
Qed.
Lemma get_unmoved : forall g c id sl, get_id id (move g c) = Some sl -> exists sl0, get_id id c = Some sl0 /\ sl = move_slot g sl0.
Proof.
  intros g c id sl. unfold get_id. destruct (Nat.eqb id 0); [intros H; injection H as <-; eexists; split; reflexivity|]. unfold move. cbn [cl].
  induction (cl c) as [|[[i nm] x] l IH]; [discriminate|]. cbn [map find_id fst snd].
  destruct (Nat.eqb i id); [intros H; injection H as <-; eexists; split; reflexivity|exact IH].
Qed.
Lemma text_steps : forall t, wf_text t -> forall i, i < length t -> utf8_next false (encode t) (offset t i) = Some (offset t (S i)).
Proof.
  intros t wf i L. destruct (nth_error t i) as [c|] eqn:E; [|apply nth_error_None in E; lia].
  pose proof (text_next t [] i c false wf E) as H. rewrite app_nil_r in H. exact H.
Qed.
Lemma bytes_steps : forall bs, Forall byte bs -> forall i, i < length (decode bs) -> utf8_next false bs (reached bs i) = Some (reached bs (S i)).
Proof.
  intros bs B i L.
  assert (Q : (fun i j => j = reached bs i /\ i <= length (decode bs)) i (reached bs i)) by (split; [reflexivity|lia]).
  pose proof (sim_next _ _ _ _ _ _ (bytes_sim bs B) i (reached bs i) Q) as H. cbn [arr_view utf8_view vnext] in H.
  destruct (Nat.ltb_spec i (length (decode bs))); [|lia]. inversion H as [|? ? [-> _] E1 E2]. reflexivity.
Qed.

Lemma group_moved : forall g c id b e, group c id = Some (b, e) -> group (move g c) id = Some (g b, g e).
Proof.
  intros g c id b e H. unfold group in *. destruct (get_id id c) as [sl|] eqn:E; [|discriminate]. rewrite (get_moved _ _ _ _ E).
  destruct sl as [[x|] [y|] []]; try discriminate. injection H as -> ->. reflexivity.
Qed.

(** Captures of a call on a text: [size] counts code points, [unit_size] code units, [to_string] is the encoding. *)
Theorem captures_text : forall t, wf_text t -> forall a opt n f r c id sl, well_numbered r -> on_utf8_range true a opt n (encode t) f r = Ok c ->
  matched c = true -> get_id id c = Some sl -> s_m sl = true ->
  exists b e, b <= e <= length t /\ group c id = Some (offset t b, offset t e) /\
    (forall fuel, length t <= fuel -> u8_size (encode t) fuel sl = Ok (length (text t b e))) /\
    u8_unit_size sl = Ok (length (encode (text t b e))) /\ u8_string (encode t) sl = Ok (encode (text t b e)).
Proof.
  intros t wf a opt n f r c id sl Hw H Hc Hg Hm. rewrite utf8_range_text in H by assumption.
  destruct (on_array a opt n t f r) as [c'| | | |] eqn:E; try discriminate. cbn [move_res] in H. injection H as <-.
  apply get_unmoved in Hg as (sl' & Hg & ->).
  assert (X : exists b e, group c' id = Some (b, e) /\ b <= e <= length t).
  { destruct a; [apply (call_groups ctre_match opt n t f r c' id sl')|apply (call_groups ctre_starts_with opt n t f r c' id sl')|apply (call_groups ctre_search opt n t f r c' id sl')];
      unfold entry_point; auto. }
  destruct X as (b & e & G & L). exists b, e. split; [exact L|]. split; [apply group_moved; exact G|].
  assert (S1 : s_beg sl' = Some b /\ s_end sl' = Some e).
  { unfold group in G. rewrite Hg in G. destruct sl' as [[x|] [y|] []]; try discriminate. injection G as -> ->. split; reflexivity. }
  destruct S1 as [S1 S2].
  destruct (slot_sizes (encode t) (offset t) (length t) (text_steps t wf) (fun i j => offset_mono t i j) sl' b e S1 S2 L) as [K1 K2].
  assert (Lt : length (text t b e) = e - b) by (unfold text; rewrite firstn_length, skipn_length; lia).
  assert (Te : text (encode t) (offset t b) (offset t e) = encode (text t b e)) by apply text_encode.
  assert (Ob : offset t b <= offset t e) by (destruct (Nat.eq_dec b e); [subst; lia|apply Nat.lt_le_incl, offset_mono; lia]).
  pose proof (offset_le t e) as Oe.
  assert (Le : length (encode (text t b e)) = offset t e - offset t b).
  { rewrite <- Te. unfold text at 1. rewrite firstn_length, skipn_length. lia. }
  split; [intros fuel F; rewrite Lt; apply K1; lia|]. split; [rewrite Le; exact K2|].
  unfold u8_string. rewrite K2. cbn [move_slot s_beg]. rewrite S1. cbn [option_map].
  destruct (Nat.leb_spec (offset t b + (offset t e - offset t b)) (length (encode t))); [|lia]. f_equal. exact Te.
Qed.
(** On any bytes [size] still counts what the decoder reads; [to_string] stays inside the bytes unless the last piece is cut short. *)
Theorem captures_bytes : forall bs, Forall byte bs -> forall a opt n f r c id sl, well_numbered r -> u8_range_ok false r = true ->
  on_utf8_range false a opt n bs f r = Ok c -> matched c = true -> get_id id c = Some sl -> s_m sl = true ->
  exists b e, b <= e <= length (decode bs) /\ group c id = Some (reached bs b, reached bs e) /\
    (forall fuel, length (decode bs) <= fuel -> u8_size bs fuel sl = Ok (e - b)) /\
    u8_unit_size sl = Ok (reached bs e - reached bs b) /\
    u8_string bs sl = (if Nat.leb (reached bs e) (length bs) then Ok (text bs (reached bs b) (reached bs e)) else UB).
Proof.
  intros bs B a opt n f r c id sl Hw Hr H Hc Hg Hm. rewrite utf8_range_bytes in H by assumption.
  destruct (on_array a opt n (decode bs) f r) as [c'| | | |] eqn:E; try discriminate. cbn [move_res] in H. injection H as <-.
  apply get_unmoved in Hg as (sl' & Hg & ->).
  assert (X : exists b e, group c' id = Some (b, e) /\ b <= e <= length (decode bs)).
  { destruct a; [apply (call_groups ctre_match opt n (decode bs) f r c' id sl')|apply (call_groups ctre_starts_with opt n (decode bs) f r c' id sl')
      |apply (call_groups ctre_search opt n (decode bs) f r c' id sl')]; unfold entry_point; auto. }
  destruct X as (b & e & G & L). exists b, e. split; [exact L|]. split; [apply group_moved; exact G|].
  assert (S1 : s_beg sl' = Some b /\ s_end sl' = Some e).
  { unfold group in G. rewrite Hg in G. destruct sl' as [[x|] [y|] []]; try discriminate. injection G as -> ->. split; reflexivity. }
  destruct S1 as [S1 S2].
  assert (M : forall i j, i < j -> j <= length (decode bs) -> reached bs i < reached bs j).
  { intros i j H1 H2. apply reached_mono; [exact H1|]. rewrite <- decode_length. exact H2. }
  destruct (slot_sizes bs (reached bs) (length (decode bs)) (bytes_steps bs B) M sl' b e S1 S2 L) as [K1 K2].
  split; [intros fuel F; apply K1; lia|]. split; [exact K2|].
  assert (Ob : reached bs b <= reached bs e) by (destruct (Nat.eq_dec b e); [subst; lia|apply Nat.lt_le_incl, M; lia]).
  unfold u8_string. rewrite K2. cbn [move_slot s_beg]. rewrite S1. cbn [option_map].
  replace (reached bs b + (reached bs e - reached bs b)) with (reached bs e) by lia. reflexivity.
Qed.
