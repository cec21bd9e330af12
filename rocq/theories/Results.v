(** Reading a result: captures by number and by name, conversion to text, comparison with text.
    Source: /repo/include/ctre/return_type.hpp. *)
From Coq Require Import List ZArith NArith Bool Arith Lia.
From Verif Require Import Chars Syntax View Eval Api Spec EvalInv ApiProofs.
Import ListNotations.

(** lines 110-112, 114-124: [std::distance(begin(), end())]. Both iterators value-initialised: 0. Only one
    of them set: not a range. [end < begin]: not a range either. *)
Definition slot_size (sl : slot) : res nat :=
  match s_beg sl, s_end sl with
  | Some b, Some e => if Nat.leb b e then Ok (e - b) else UB
  | None, None => Ok 0
  | _, _ => UB
  end.

(** lines 80-102, 143-154: [basic_string_view(&*_begin, unit_size())]. With both iterators value-initialised
    [&*_begin] is a null pointer for pointer iterators; the view is empty. *)
Definition to_view (s : list Z) (sl : slot) : res (list Z) :=
  match slot_size sl with
  | Ok n => match s_beg sl with Some b => Ok (firstn n (skipn b s)) | None => Ok [] end
  | No => No | Fuel => Fuel | UB => UB | Ill => Ill
  end.

(** lines 156-161. *)
Definition to_optional_view (s : list Z) (sl : slot) : res (option (list Z)) :=
  if s_m sl then
    match to_view s sl with Ok t => Ok (Some t) | No => No | Fuel => Fuel | UB => UB | Ill => Ill end
  else Ok None.

(** lines 163-174: [basic_string(begin(), end())]. *)
Definition to_string (s : list Z) (sl : slot) : res (list Z) := to_view s sl.

Definition text_eqb (a b : list Z) : bool := if list_eq_dec Z.eq_dec a b then true else false.

(** [bool(lhs) ? lhs.view() op rhs : other]. *)
Definition compare (s : list Z) (sl : slot) (op : list Z -> bool) (other : bool) : res bool :=
  if s_m sl then
    match to_view s sl with Ok t => Ok (op t) | No => No | Fuel => Fuel | UB => UB | Ill => Ill end
  else Ok other.

(** The four operators of a capture, lines 206-217. *)
Definition cap_eq (s : list Z) (sl : slot) (sv : list Z) : res bool := compare s sl (fun t => text_eqb t sv) false.
Definition cap_ne (s : list Z) (sl : slot) (sv : list Z) : res bool := compare s sl (fun t => negb (text_eqb t sv)) false.
Definition eq_cap (s : list Z) (sv : list Z) (sl : slot) : res bool := compare s sl (fun t => text_eqb sv t) false.
Definition ne_cap (s : list Z) (sv : list Z) (sl : slot) : res bool := compare s sl (fun t => negb (text_eqb sv t)) false.

(** The four operators of a result, lines 505-516; they go through capture 0 (lines 410-412, 447-449). *)
Definition result_eq (s : list Z) (c : caps) (sv : list Z) : res bool := compare s (c0 c) (fun t => text_eqb t sv) false.
Definition result_ne (s : list Z) (c : caps) (sv : list Z) : res bool := compare s (c0 c) (fun t => negb (text_eqb t sv)) true.
Definition eq_result (s : list Z) (sv : list Z) (c : caps) : res bool := compare s (c0 c) (fun t => text_eqb sv t) false.
Definition ne_result (s : list Z) (sv : list Z) (c : caps) : res bool := compare s (c0 c) (fun t => negb (text_eqb sv t)) true.

(** lines 399-401, 250-256, 265-278: what the type of the result offers. *)
Definition result_count (r : re) : nat := S (length (find_captures r)).
Definition has_id (r : re) (id : nat) : bool := Nat.eqb id 0 || existsb (fun p => Nat.eqb (fst p) id) (find_captures r).
Definition has_name (r : re) (nm : list Z) : bool :=
  existsb (fun p => match snd p with Some nm' => name_eqb nm nm' | None => false end) (find_captures r).

(** * Facts *)
Lemma text_eqb_spec : forall a b, text_eqb a b = true <-> a = b.
Proof. intros a b. unfold text_eqb. destruct (list_eq_dec Z.eq_dec a b); split; congruence. Qed.
Lemma text_eqb_sym : forall a b, text_eqb a b = text_eqb b a.
Proof.
  intros a b. unfold text_eqb. destruct (list_eq_dec Z.eq_dec a b), (list_eq_dec Z.eq_dec b a); congruence.
Qed.

Lemma ne_text : forall t sv, negb (text_eqb sv t) = negb (text_eqb t sv) /\
  (negb (text_eqb t sv) = true <-> Some t <> Some sv).
Proof.
  intros t sv. rewrite text_eqb_sym. split; [reflexivity|]. rewrite negb_true_iff. unfold text_eqb.
  destruct (list_eq_dec Z.eq_dec t sv); split; congruence.
Qed.

Lemma call_end_mark : forall m opt n s f r c, entry_point m -> well_numbered r ->
  m opt n s f r = Ok c -> matched c = true \/ exists x, cl c = cl (fresh r) /\ c0 c = mkSlot None x false.
Proof.
  intros m opt n s f r c Hm Hw H. destruct (matched c) eqn:E; [left; reflexivity|right].
  destruct Hm as [->|[->| ->]].
  - unfold ctre_match, exec_match in H. apply returned_cases in H as [H | [_ ->]]; [|exists None; split; reflexivity].
    pose proof (whole_ok opt n s f r 0 _ Hw ltac:(lia) H) as [K _]. congruence.
  - unfold ctre_starts_with, exec_starts_with in H. apply returned_cases in H as [H | [_ ->]]; [|exists None; split; reflexivity].
    pose proof (attempt_ok opt n s f r 0 _ Hw ltac:(lia) H) as [K _]. congruence.
  - apply search_cases in H; auto; [|lia]. destruct H as [(q & Hq & H & _) | (q & -> & _)].
    + apply attempt_ok in H; auto; [destruct H as [K _]; congruence|lia].
    + exists (Some q). split; reflexivity.
Qed.

Lemma slot_cases : forall m opt n s f r c id sl, entry_point m -> well_numbered r ->
  m opt n s f r = Ok c -> get_id id c = Some sl ->
  (s_m sl = true /\ exists b e, group c id = Some (b, e) /\ to_view s sl = Ok (text s b e) /\ slot_size sl = Ok (e - b)) \/
  (s_m sl = false /\ group c id = None).
Proof.
  intros m opt n s f r c id sl Hm Hw H Hg.
  destruct (s_m sl) eqn:Es.
  2:{ right. split; [reflexivity|]. unfold group. rewrite Hg. destruct sl as [[b|] [e|] []]; cbn in Es; congruence. }
  left. split; [reflexivity|].
  destruct (call_end_mark m opt n s f r c Hm Hw H) as [Hc | (x & H1 & H2)].
  - destruct (call_groups m opt n s f r c id sl Hm Hw H Hc Hg Es) as (b & e & E1 & E2).
    exists b, e. split; [assumption|]. unfold group in E1. rewrite Hg in E1.
    destruct sl as [[b'|] [e'|] []]; try discriminate. injection E1 as -> ->.
    unfold to_view, slot_size. cbn [s_beg s_end]. destruct (Nat.leb_spec b e); [|lia]. split; reflexivity.
  - exfalso. unfold get_id in Hg. destruct (Nat.eqb id 0).
    + injection Hg as <-. rewrite H2 in Es. discriminate.
    + rewrite H1 in Hg. apply find_fresh in Hg. subst. discriminate.
Qed.

(** The text of capture [id] of a result, if it took part. *)
Definition text_of (s : list Z) (c : caps) (id : nat) : option (list Z) :=
  match group c id with Some (b, e) => Some (text s b e) | None => None end.

Section Compare.
Variables (m : bool -> nat -> list Z -> flags -> re -> res caps) (opt : bool) (n : nat) (s : list Z) (f : flags) (r : re) (c : caps).
Hypothesis Hm : entry_point m.
Hypothesis Hw : well_numbered r.
Hypothesis H : m opt n s f r = Ok c.

Lemma compare_spec : forall id sl op other, get_id id c = Some sl ->
  compare s sl op other = Ok (match text_of s c id with Some t => op t | None => other end).
Proof.
  intros id sl op other Hg. unfold compare, text_of.
  destruct (slot_cases m opt n s f r c id sl Hm Hw H Hg) as [(E1 & b & e & E2 & E3 & _) | (E1 & E2)]; rewrite E1, E2.
  - rewrite E3. reflexivity.
  - reflexivity.
Qed.

Lemma capture_eq : forall id sl sv, get_id id c = Some sl ->
  exists b, cap_eq s sl sv = Ok b /\ eq_cap s sv sl = Ok b /\ (b = true <-> text_of s c id = Some sv).
Proof.
  intros id sl sv Hg. unfold cap_eq, eq_cap. rewrite !(compare_spec id sl) by assumption. eexists. split; [reflexivity|].
  destruct (text_of s c id) as [t|]; [|split; [reflexivity|split; discriminate]].
  rewrite text_eqb_sym. split; [reflexivity|]. rewrite text_eqb_spec. split; congruence.
Qed.

Lemma capture_ne : forall id sl sv, get_id id c = Some sl -> group c id <> None ->
  exists b, cap_ne s sl sv = Ok b /\ ne_cap s sv sl = Ok b /\ (b = true <-> text_of s c id <> Some sv).
Proof.
  intros id sl sv Hg Hp. unfold cap_ne, ne_cap. rewrite !(compare_spec id sl) by assumption. eexists. split; [reflexivity|].
  unfold text_of. destruct (group c id) as [[b e]|]; [|contradiction].
  destruct (ne_text (text s b e) sv) as [-> K]. split; [reflexivity|exact K].
Qed.

Lemma whole_eq : forall sv,
  exists b, result_eq s c sv = Ok b /\ eq_result s sv c = Ok b /\ (b = true <-> text_of s c 0 = Some sv).
Proof. intros sv. apply (capture_eq 0 (c0 c) sv). reflexivity. Qed.

Lemma whole_ne : forall sv,
  exists b, result_ne s c sv = Ok b /\ ne_result s sv c = Ok b /\ (b = true <-> text_of s c 0 <> Some sv).
Proof.
  intros sv. unfold result_ne, ne_result. rewrite !(compare_spec 0 (c0 c)) by reflexivity. eexists. split; [reflexivity|].
  destruct (text_of s c 0) as [t|]; [|split; [reflexivity|split; congruence]].
  destruct (ne_text t sv) as [-> K]. split; [reflexivity|exact K].
Qed.

Lemma optional_view : forall id sl, get_id id c = Some sl -> to_optional_view s sl = Ok (text_of s c id).
Proof.
  intros id sl Hg. unfold to_optional_view, text_of.
  destruct (slot_cases m opt n s f r c id sl Hm Hw H Hg) as [(E1 & b & e & E2 & E3 & _) | (E1 & E2)]; rewrite E1, E2.
  - rewrite E3. reflexivity.
  - reflexivity.
Qed.

(** Conversions that do not look at the flag, on captures that took part. *)
Lemma plain_view : forall id sl t, get_id id c = Some sl -> text_of s c id = Some t ->
  to_view s sl = Ok t /\ to_string s sl = Ok t /\ slot_size sl = Ok (length t).
Proof.
  intros id sl t Hg Ht. unfold text_of in Ht.
  destruct (slot_cases m opt n s f r c id sl Hm Hw H Hg) as [(E1 & b & e & E2 & E3 & E4) | (E1 & E2)]; rewrite E2 in Ht; [|discriminate].
  injection Ht as <-. split; [assumption|]. split; [assumption|]. rewrite E4. f_equal.
  assert (Hc : matched c = true).
  { destruct (call_end_mark m opt n s f r c Hm Hw H) as [Hc | (x & H1 & H2)]; [assumption|exfalso].
    unfold get_id in Hg. destruct (Nat.eqb id 0); [injection Hg as <-; rewrite H2 in E1; discriminate|].
    rewrite H1 in Hg. apply find_fresh in Hg. subst. discriminate. }
  destruct (call_groups m opt n s f r c id sl Hm Hw H Hc Hg E1) as (b' & e' & F1 & F2).
  rewrite E2 in F1. injection F1 as <- <-. unfold text. rewrite firstn_length, skipn_length. lia.
Qed.
End Compare.
