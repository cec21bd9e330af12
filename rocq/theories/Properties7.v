(** Pattern strings: C13, C14, C39. *)
From Coq Require Import List ZArith Bool Lia String.
From Verif Require Import Chars Syntax Grammar Actions Parser Utf8 Utf8Proofs Eval Api FixedString Properties2.
Import ListNotations.
Local Open Scope Z_scope.

(** * C13 *)
(** [encode] is the UTF-8 encoding of a list of scalar values (Utf8Proofs.v). *)
Theorem C13_utf8_pattern : forall t, wf_text t -> from_utf8 (encode t) = Some (mkFixed t true).
Proof. exact utf8_decodes. Qed.
Print Assumptions C13_utf8_pattern.
Theorem C13_utf32_pattern : forall t, wf_text t -> from_utf32 t = mkFixed t true.
Proof. exact utf32_decodes. Qed.
Print Assumptions C13_utf32_pattern.
Theorem C13_ascii_pattern : forall t, Forall (fun c => 0 <= c < 128) t ->
  from_char t = mkFixed t true /\ from_utf8 t = Some (mkFixed t true).
Proof. exact char_decodes. Qed.
Print Assumptions C13_ascii_pattern.
Theorem C13_same : forall a b, is_same_as a b = true <-> content a = content b.
Proof. exact same_spec. Qed.
Print Assumptions C13_same.
Example C13_ex : wf_text [97; 0xE1; 0x20AC; 0x1F600; 0x10FFFF] /\
  encode [97; 0xE1; 0x20AC; 0x1F600] = [97; 0xC3; 0xA1; 0xE2; 0x82; 0xAC; 0xF0; 0x9F; 0x98; 0x80] /\
  from_utf8 [97; 0xC3; 0xA1; 0xE2; 0x82; 0xAC; 0xF0; 0x9F; 0x98; 0x80] = Some (mkFixed [97; 0xE1; 0x20AC; 0x1F600] true).
Proof. split; [repeat constructor; unfold scalar; lia|]. vm_compute. split; reflexivity. Qed.
(** Without CTRE_STRING_IS_UTF8 a plain literal is not decoded: its bytes are the characters. *)
Theorem C13_char_refuted : exists t, wf_text t /\ content (from_char (encode t)) <> t.
Proof. exists [0xE1]. split; [repeat constructor; unfold scalar; lia|]. vm_compute. discriminate. Qed.
Print Assumptions C13_char_refuted.

(** * C14 *)
(** [encode16] is the UTF-16 encoding; [unit16 c]: a code point that is no lead surrogate. *)
Theorem C14_utf16_pattern : forall t, wf_text t -> from_utf16 (encode16 t) = mkFixed t true.
Proof. exact utf16_decodes. Qed.
Print Assumptions C14_utf16_pattern.
Theorem C14_flagged : forall l, Forall (fun u => 0 <= u < 65536) l ->
  (correct_flag (from_utf16 l) = false <->
   exists t u w tl, l = encode16 t ++ u :: w :: tl /\ Forall unit16 t /\ 55296 <= u < 56320 /\ ~ (56320 <= w < 57344)).
Proof. exact utf16_flag. Qed.
Print Assumptions C14_flagged.
Theorem C14_unflagged : forall l, Forall (fun u => 0 <= u < 65536) l -> correct_flag (from_utf16 l) = true ->
  Forall unit16 (content (from_utf16 l)) /\
  (l = encode16 (content (from_utf16 l)) \/ exists u, 55296 <= u < 56320 /\ l = encode16 (content (from_utf16 l)) ++ [u]).
Proof. exact utf16_accepted. Qed.
Print Assumptions C14_unflagged.
Example C14_ex : encode16 [97; 0x20AC; 0x1F600] = [97; 0x20AC; 0xD83D; 0xDE00] /\
  from_utf16 [97; 0x20AC; 0xD83D; 0xDE00] = mkFixed [97; 0x20AC; 0x1F600] true /\
  from_utf16 [97; 0xD83D; 98] = mkFixed [97] false.
Proof. vm_compute. repeat split. Qed.
(** A lone lead surrogate at the end, or a lone trail surrogate anywhere, is not flagged. *)
Theorem C14_flag_refuted : exists l, Forall (fun u => 0 <= u < 65536) l /\ (forall t, wf_text t -> encode16 t <> l) /\
  correct_flag (from_utf16 l) = true /\ content (from_utf16 l) = [97].
Proof.
  exists [97; 0xD83D]. split; [repeat constructor; lia|]. split; [|split; reflexivity].
  intros t Ht H. pose proof (utf16_decodes t Ht) as D. rewrite H in D. vm_compute in D. injection D as <-. discriminate H.
Qed.
Print Assumptions C14_flag_refuted.
Theorem C14_trail_refuted : exists l, Forall (fun u => 0 <= u < 65536) l /\ (forall t, wf_text t -> encode16 t <> l) /\
  correct_flag (from_utf16 l) = true /\ content (from_utf16 l) = [97; 0xDE00].
Proof.
  exists [97; 0xDE00]. split; [repeat constructor; lia|]. split; [|split; reflexivity].
  intros t Ht H. pose proof (utf16_decodes t Ht) as D. rewrite H in D. vm_compute in D. injection D as <-.
  inversion Ht as [|? ? _ Ht']; subst. inversion Ht' as [|? ? Hs _]; subst. unfold scalar in Hs. lia.
Qed.
Print Assumptions C14_trail_refuted.

(** * C39 *)
(** The flag is never raised on well-formed UTF-8, and unflagged literals are rows of complete chunks
    [spelled], except for a last one cut short. *)
Theorem C39_no_false_alarm : forall l x, from_utf8 l = Some x -> correct_flag x = false ->
  forall t, wf_text t -> encode t <> l.
Proof. exact (fun l x H F t Ht E => ltac:(rewrite <- E, (utf8_decodes t Ht) in H; injection H as <-; discriminate F)). Qed.
Print Assumptions C39_no_false_alarm.
Theorem C39_unflagged : forall l x, Forall (fun b => 0 <= b < 256) l -> from_utf8 l = Some x ->
  correct_flag x = true -> spelled l (content x).
Proof. exact utf8_accepted. Qed.
Print Assumptions C39_unflagged.
Theorem C39_decoding_ends : forall l, exists x, from_utf8 l = Some x.
Proof. exact utf8_total. Qed.
Print Assumptions C39_decoding_ends.
(** But nobody looks at the flag: "a<80>b" is the regex "a". *)
Theorem C39_flag_ignored_refuted : exists l x r, from_utf8 l = Some x /\ (forall t, wf_text t -> encode t <> l) /\
  correct_flag x = false /\ build no_props x = CRegex r /\
  exists c, ctre_match true 60 (codes "a") plain_mode r = Ok c /\ matched c = true.
Proof.
  exists [97; 0x80; 98], (mkFixed [97] false). eexists. split; [reflexivity|]. split.
  - intros t Ht H. pose proof (utf8_decodes t Ht) as D. rewrite H in D. vm_compute in D. discriminate.
  - split; [reflexivity|]. split; [vm_compute; reflexivity|]. eexists. vm_compute. split; reflexivity.
Qed.
Print Assumptions C39_flag_ignored_refuted.
(** And the flag misses sequences cut short, overlong forms and surrogates: "<C3>" is the regex "\x03". *)
Theorem C39_flag_misses_refuted : exists l x r, from_utf8 l = Some x /\ (forall t, wf_text t -> encode t <> l) /\
  correct_flag x = true /\ build no_props x = CRegex r /\
  exists c, ctre_match true 60 [3] plain_mode r = Ok c /\ matched c = true.
Proof.
  exists [0xC3], (mkFixed [3] true). eexists. split; [reflexivity|]. split.
  - intros t Ht H. pose proof (utf8_decodes t Ht) as D. rewrite H in D. vm_compute in D. injection D as <-. discriminate H.
  - split; [reflexivity|]. split; [vm_compute; reflexivity|]. eexists. vm_compute. split; reflexivity.
Qed.
Print Assumptions C39_flag_misses_refuted.
Theorem C39_overlong_refuted : exists l, from_utf8 l = Some (mkFixed (codes "*") true) /\ forall t, wf_text t -> encode t <> l.
Proof.
  exists [0xC0; 0xAA]. split; [reflexivity|].
  intros t Ht H. pose proof (utf8_decodes t Ht) as D. rewrite H in D. vm_compute in D. injection D as <-. discriminate H.
Qed.
Print Assumptions C39_overlong_refuted.
(** Sequences of five and six units, which are no UTF-8 at all, are taken without complaint. *)
Theorem C39_five_units_refuted : exists l, from_utf8 l = Some (mkFixed [0x200000] true) /\ forall t, wf_text t -> encode t <> l.
Proof.
  exists [0xF8; 0x88; 0x80; 0x80; 0x80]. split; [reflexivity|].
  intros t Ht H. pose proof (utf8_decodes t Ht) as D. rewrite H in D. vm_compute in D. injection D as <-. discriminate H.
Qed.
Print Assumptions C39_five_units_refuted.
Theorem C39_six_units_refuted : exists l l', from_utf8 l = Some (mkFixed [0x40000000] true) /\ from_utf8 l' = Some (mkFixed [0x40000000] true) /\ l <> l' /\
  forall t, wf_text t -> encode t <> l /\ encode t <> l'.
Proof.
  exists [0xFD; 0x80; 0x80; 0x80; 0x80; 0x80], [0xFF; 0x80; 0x80; 0x80; 0x80; 0x80]. split; [reflexivity|]. split; [reflexivity|]. split; [discriminate|].
  intros t Ht. split; intros H; pose proof (utf8_decodes t Ht) as D; rewrite H in D; vm_compute in D; injection D as <-; discriminate H.
Qed.
Print Assumptions C39_six_units_refuted.
