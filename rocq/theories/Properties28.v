(** utf8_iterator and utf8_range by themselves (C58); the answers of C47 and C48 on UTF-8 and NUL-terminated subjects. *)
From Coq Require Import List ZArith NArith Bool Lia String.
From Verif Require Import Chars Syntax First Utf8 View Eval Api Actions Parser Spec CharProofs EvalInv ApiProofs Checks Match Term Anchor
  Utf8Proofs Views Utf8Iter Mode ModeSem ModeCalls ModeTop Compiles Total Numbering Fusion Pattern Lang Textbook Properties2 Properties10 Properties15.
Import ListNotations.
Local Open Scope string_scope.
Local Open Scope list_scope.

(** * C58 *)
(** Steps of several code points over the encoding of a text, whatever follows it in memory. *)
Theorem C58_plus : forall t post, wf_text t -> forall k i strict, i + k <= List.length t ->
  utf8_plus strict (encode t ++ post) k (offset t i) = Some (offset t (i + k)).
Proof. exact plus_text. Qed.
Print Assumptions C58_plus.
Theorem C58_minus : forall t post, wf_text t -> forall k i len, k <= i -> i <= List.length t -> List.length (encode t) <= len ->
  utf8_minus (encode t ++ post) len k (offset t i) = Some (offset t (i - k)).
Proof. exact minus_text. Qed.
Print Assumptions C58_minus.
Theorem C58_back_again : forall t post, wf_text t -> forall k i len, i + k <= List.length t -> List.length (encode t) <= len ->
  exists q, utf8_plus true (encode t ++ post) k (offset t i) = Some q /\ utf8_minus (encode t ++ post) len k q = Some (offset t i).
Proof.
  intros t post Hw k i len Hk Hl. exists (offset t (i + k)). split; [apply plus_text; assumption|].
  rewrite minus_text by (assumption || lia). f_equal. f_equal. lia.
Qed.
Print Assumptions C58_back_again.
(** The postfix forms: the value is where the iterator was, the iterator goes to the next (previous) code point. *)
Theorem C58_postfix : forall t post, wf_text t -> forall i strict len, List.length (encode t) <= len ->
  (i < List.length t -> utf8_post_next strict (encode t ++ post) (offset t i) = Some (offset t i, offset t (S i))) /\
  (S i <= List.length t -> utf8_post_prev (encode t ++ post) len (offset t (S i)) = Some (offset t (S i), offset t i)).
Proof.
  intros t post Hw i strict len Hl. unfold utf8_post_next, utf8_post_prev. split; intros Hi.
  - pose proof (plus_text t post Hw 1 i strict ltac:(lia)) as P. cbn [utf8_plus] in P.
    destruct (utf8_next strict _ _) as [q|]; [|discriminate]. injection P as ->. do 3 f_equal. lia.
  - pose proof (minus_text t post Hw 1 (S i) len ltac:(lia) Hi Hl) as P. cbn [utf8_minus] in P.
    destruct (utf8_prev _ _ _) as [q|]; [|discriminate]. injection P as ->. do 3 f_equal. lia.
Qed.
Print Assumptions C58_postfix.
(** A range-for over utf8_range visits the code points of the text, backwards from the end in reverse. *)
Theorem C58_range : forall t, wf_text t -> forall n, List.length t < n -> utf8_for true (encode t) n 0 = Walked t.
Proof. exact for_text. Qed.
Print Assumptions C58_range.
Theorem C58_reverse : forall t, wf_text t -> forall n, List.length t < n ->
  utf8_rfor (encode t) n (List.length (encode t)) = Walked (rev t).
Proof. exact rfor_text. Qed.
Print Assumptions C58_reverse.
(** On any units the loop ends and reads only units of the view. *)
Theorem C58_bytes : forall bs, Forall byte bs -> forall n, List.length bs < n -> utf8_for false bs n 0 = Walked (decode bs).
Proof. exact for_bytes. Qed.
Print Assumptions C58_bytes.
(** The comparisons written out for compilers without [<=>] are those that C++20 derives, apart from one. *)
Theorem C58_equal : forall mem a b, eq17 mem a b = eq20 mem a b.
Proof. exact same_equal. Qed.
Print Assumptions C58_equal.
Theorem C58_unequal : forall mem a b, sound_pair a b = true -> ne17 mem a b = ne20 mem a b.
Proof. exact same_unequal. Qed.
Print Assumptions C58_unequal.
(** [pointer != iterator] says what [pointer == iterator] says. *)
Theorem C58_unequal_refuted : exists mem a b, eq17 mem a b = Some true /\ ne17 mem a b = Some true /\ ne20 mem a b = Some false.
Proof. exists [97]%Z, (OPtr 0), (OIter 0 1). vm_compute. repeat split. Qed.
Print Assumptions C58_unequal_refuted.
(** On malformed units [--] does not undo [++], and going back may read before the buffer. *)
Theorem C58_back_again_refuted : exists bs p q q', Forall byte bs /\ utf8_next true bs p = Some q /\
  utf8_prev bs (List.length bs) q = Some q' /\ q' <> p.
Proof. exists [0xC3; 0x28]%Z, 0, 2, 1. split; [repeat constructor; unfold byte; lia|]. vm_compute. repeat split. discriminate. Qed.
Print Assumptions C58_back_again_refuted.
Theorem C58_reverse_refuted : exists bs n, Forall byte bs /\ utf8_rfor bs n (List.length bs) = Outside.
Proof. exists [0x80; 0x61]%Z, 5. split; [repeat constructor; unfold byte; lia|]. vm_compute. reflexivity. Qed.
Print Assumptions C58_reverse_refuted.
(** What is read need not be a Unicode scalar value, and units that encode no text are read as if they did: a surrogate, a value
    beyond U+10FFFF, an overlong slash. *)
Theorem C58_scalar_refuted : exists bs c, Forall byte bs /\ decode bs = [c] /\ ~ scalar c.
Proof. exists [0xED; 0xA0; 0x80]%Z, 0xD800%Z. split; [repeat constructor; unfold byte; lia|]. split; [vm_compute; reflexivity|unfold scalar; lia]. Qed.
Print Assumptions C58_scalar_refuted.
Theorem C58_beyond_refuted : exists bs c, Forall byte bs /\ decode bs = [c] /\ (0x10FFFF < c)%Z.
Proof. exists [0xF7; 0xBF; 0xBF; 0xBF]%Z, 0x1FFFFF%Z. split; [repeat constructor; unfold byte; lia|]. split; [vm_compute; reflexivity|lia]. Qed.
Print Assumptions C58_beyond_refuted.
Theorem C58_overlong_refuted : exists bs t, Forall byte bs /\ wf_text t /\ decode bs = t /\ bs <> encode t /\
  forall opt, exists n c, on_u8 true MMatch opt n bs plain_mode (rx "/") = Ok c /\ matched c = true.
Proof.
  exists [0xC0; 0xAF]%Z, [47]%Z. split; [repeat constructor; unfold byte; lia|]. split; [repeat constructor; unfold scalar; lia|].
  split; [vm_compute; reflexivity|]. split; [discriminate|]. intros []; exists 50; eexists; vm_compute; split; reflexivity.
Qed.
Print Assumptions C58_overlong_refuted.
Definition signs : list Z := [0x61; 0xE9; 0x20AC; 0x1F600]%Z.
Example C58_ex : wf_text signs /\ encode signs = [0x61; 0xC3; 0xA9; 0xE2; 0x82; 0xAC; 0xF0; 0x9F; 0x98; 0x80]%Z /\
  map (fun k => utf8_plus true (encode signs) k 0) [0; 1; 2; 3; 4; 5] = [Some 0; Some 1; Some 3; Some 6; Some 10; None] /\
  map (fun k => utf8_minus (encode signs) 10 k 10) [0; 1; 2; 3; 4; 5] = [Some 10; Some 6; Some 3; Some 1; Some 0; None] /\
  utf8_for true (encode signs) 9 0 = Walked signs /\ utf8_rfor (encode signs) 9 10 = Walked (rev signs) /\
  utf8_for false [0xC3; 0x28; 0x61; 0xE2; 0x82]%Z 9 0 = Walked [0xFFFD; 0x61; 0xFFFD]%Z /\
  utf8_for true [0x61; 0xE2]%Z 9 0 = Outside /\
  map (fun p => ne17 [97; 0]%Z (OIter p 2) OEnd) [0; 1; 2; 3] = [Some true; Some true; Some false; Some false] /\
  map (fun p => ne17 [97; 0]%Z OEnd (OPtr p)) [0; 1; 2] = [Some true; Some false; None].
Proof. split; [repeat constructor; unfold scalar; lia|]. vm_compute. repeat split. Qed.

(** * C47 on other subjects *)
Definition move_span (g : nat -> nat) (x : nat * nat) : nat * nat := (g (fst x), g (snd x)).
Lemma moved : forall g c, matched (move g c) = matched c /\ forall id, group (move g c) id = option_map (move_span g) (group c id).
Proof.
  intros g c. split; [reflexivity|]. intros id. unfold group, get_id.
  assert (E : forall x, match move_slot g x with mkSlot (Some b) (Some e) true => Some (b, e) | _ => None end =
    option_map (move_span g) match x with mkSlot (Some b) (Some e) true => Some (b, e) | _ => None end).
  { intros [[b|] [e|] []]; reflexivity. }
  destruct (Nat.eqb id 0); [apply E|]. unfold move. cbn [cl].
  induction (cl c) as [|[[i nm] sl] l IH]; [reflexivity|]. cbn [map find_id fst snd].
  destruct (Nat.eqb i id); [apply E|apply IH].
Qed.
(** A result on the code points of a text carries over to its encoding ... *)
Theorem C47_utf8 : forall t, wf_text t -> forall a opt f r c, well_numbered r -> u8_ok true r = true ->
  answers (fun n => on_array a opt n t f r) c ->
  exists c', answers (fun n => on_u8 true a opt n (encode t) f r) c' /\ matched c' = matched c /\
    forall id, group c' id = option_map (move_span (offset t)) (group c id).
Proof.
  intros t Ht a opt f r c Hw Hu (N & H). exists (move (offset t) c). split; [|apply moved]. exists N. intros m Hm.
  rewrite text_same by assumption. rewrite H by exact Hm. reflexivity.
Qed.
Print Assumptions C47_utf8.
(** ... and a result on what any units are read as, to the units ... *)
Theorem C47_bytes : forall bs, Forall byte bs -> forall a opt f r c, well_numbered r -> u8_ok false r = true ->
  answers (fun n => on_array a opt n (decode bs) f r) c ->
  exists c', answers (fun n => on_u8 false a opt n bs f r) c' /\ matched c' = matched c /\
    forall id, group c' id = option_map (move_span (reached bs)) (group c id).
Proof.
  intros bs Hb a opt f r c Hw Hu (N & H). exists (move (reached bs) c). split; [|apply moved]. exists N. intros m Hm.
  rewrite bytes_same by assumption. rewrite H by exact Hm. reflexivity.
Qed.
Print Assumptions C47_bytes.
(** ... and to the NUL-terminated string. *)
Theorem C47_pointer : forall s rest, ~ In 0%Z s -> forall a opt f r c, well_numbered r ->
  answers (fun n => on_array a opt n s f r) c -> answers (fun n => on_pointer a opt n (s ++ 0%Z :: rest) f r) c.
Proof.
  intros s rest Hs a opt f r c Hw (N & H). exists N. intros m Hm. rewrite pointer_same by assumption. apply H. exact Hm.
Qed.
Print Assumptions C47_pointer.

(** * C48 on other subjects *)
Lemma scalars_ok : forall t, wf_text t -> forallb val_ok t = true.
Proof. intros t H. apply forallb_forall. intros c Hc. eapply Forall_forall in Hc; [|exact H]. unfold scalar in Hc. unfold val_ok. lia. Qed.
Lemma decode_ok : forall bs, Forall byte bs -> forallb val_ok (decode bs) = true.
Proof.
  intros bs H. apply forallb_forall. intros c Hc. unfold decode in Hc. apply in_map_iff in Hc as (x & <- & Hx).
  assert (B : Forall byte x).
  { apply In_nth_error in Hx as [i Hi]. destruct (piece_at _ _ _ Hi) as (pre & b & l & rest & E1 & -> & _).
    rewrite E1 in H. rewrite !Forall_app in H. tauto. }
  clear Hx. assert (P : forall (b : bool) u, (b = true -> val_ok u = true) -> val_ok (if b then u else 65533%Z) = true) by (intros []; auto).
  unfold byte in B. destruct x as [|a [|b [|d [|e [|]]]]]; try reflexivity;
    repeat match goal with H : Forall _ (_ :: _) |- _ => inversion H; subst; clear H end;
    unfold value; apply P; intros _; unfold val_ok; lia.
Qed.
(** [ctre::match] on the encoding of a text, and on any units, decides the textbook language of the pattern text. *)
Theorem C48_match_utf8 : forall props u r0 r, pattern_text props plain_builders u r0 -> compile props u = CRegex r ->
  fusible r0 = true -> regular r0 = true -> forall opt t f, wf_text t -> terminating r = true -> scope_check f r0 = true ->
  msound_check opt f r = true -> right_check opt f r MMatch = true -> u8_ok true r = true ->
  exists c, answers (fun n => on_u8 true MMatch opt n (encode t) f r) c /\ matched c = accepts (textbook f r0) t.
Proof.
  intros props u r0 r H0 Hu H1 H2 opt t f Ht H3 H4 H5 H6 H7. pose proof (compiled_well_numbered _ _ _ Hu) as Hw.
  destruct (C48_match props u r0 r H0 Hu H1 H2 opt t f (scalars_ok t Ht) H3 H4 H5 H6) as (c & C1 & C2).
  destruct (C47_utf8 t Ht MMatch opt f r c Hw H7 C1) as (c' & D1 & D2 & _). exists c'. split; [exact D1|congruence].
Qed.
Print Assumptions C48_match_utf8.
Theorem C48_match_bytes : forall props u r0 r, pattern_text props plain_builders u r0 -> compile props u = CRegex r ->
  fusible r0 = true -> regular r0 = true -> forall opt bs f, Forall byte bs -> terminating r = true -> scope_check f r0 = true ->
  msound_check opt f r = true -> right_check opt f r MMatch = true -> u8_ok false r = true ->
  exists c, answers (fun n => on_u8 false MMatch opt n bs f r) c /\ matched c = accepts (textbook f r0) (decode bs).
Proof.
  intros props u r0 r H0 Hu H1 H2 opt bs f Hb H3 H4 H5 H6 H7. pose proof (compiled_well_numbered _ _ _ Hu) as Hw.
  destruct (C48_match props u r0 r H0 Hu H1 H2 opt (decode bs) f (decode_ok bs Hb) H3 H4 H5 H6) as (c & C1 & C2).
  destruct (C47_bytes bs Hb MMatch opt f r c Hw H7 C1) as (c' & D1 & D2 & _). exists c'. split; [exact D1|congruence].
Qed.
Print Assumptions C48_match_bytes.
Theorem C48_match_pointer : forall props u r0 r, pattern_text props plain_builders u r0 -> compile props u = CRegex r ->
  fusible r0 = true -> regular r0 = true -> forall opt s rest f, forallb val_ok s = true -> ~ In 0%Z s -> terminating r = true ->
  scope_check f r0 = true -> msound_check opt f r = true -> right_check opt f r MMatch = true ->
  exists c, answers (fun n => on_pointer MMatch opt n (s ++ 0%Z :: rest) f r) c /\ matched c = accepts (textbook f r0) s.
Proof.
  intros props u r0 r H0 Hu H1 H2 opt s rest f Hs Hn H3 H4 H5 H6. pose proof (compiled_well_numbered _ _ _ Hu) as Hw.
  destruct (C48_match props u r0 r H0 Hu H1 H2 opt s f Hs H3 H4 H5 H6) as (c & C1 & C2).
  exists c. split; [|exact C2]. exact (C47_pointer s rest Hn MMatch opt f r c Hw C1).
Qed.
Print Assumptions C48_match_pointer.
(** A pattern and a subject with code points of one to four units. *)
Definition ux (p : string) : re := match compile no_props (decode (codes p)) with CRegex r => r | _ => RReject end.
Definition upx (p : string) : re := match plain_compile no_props (decode (codes p)) with CRegex r => r | _ => RReject end.
Definition up : string := "([α-ω]|€😀)*éa?".
Example C48_other_covered : several_letters (decode (codes up)) = false /\ fusible (upx up) = true /\ regular (upx up) = true /\ scope_check plain_mode (upx up) = true /\ terminating (ux up) = true /\ msound_check true plain_mode (ux up) = true /\ right_check true plain_mode (ux up) MMatch = true /\ u8_ok true (ux up) = true /\ u8_ok false (ux up) = true.
Proof. vm_compute. repeat split. Qed.
Definition ut : list string := ["αβ€😀ωéa"; "é"; "α€é"; "αβ€😀ωéaa"].
Example C48_other_decide : map (fun t => accepts (textbook plain_mode (upx up)) (decode (codes t))) ut = [true; true; false; false].
Proof. vm_compute. reflexivity. Qed.
Example C48_other_ex : map (fun t => match on_u8 true MMatch true 60 (codes t) plain_mode (ux up) with
      | Ok c => Some (matched c, group c 0, group c 1) | _ => None end) ut =
  [Some (true, Some (0, 16), Some (11, 13)); Some (true, Some (0, 2), None); Some (false, None, None); Some (false, None, None)].
Proof. vm_compute. reflexivity. Qed.
