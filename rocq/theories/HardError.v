(** Hard errors: which texts make the library ill-formed instead of giving "no regex" (C74).

    A type system for the LL(1) table and the semantic actions: every nonterminal has types "these items are on top of the
    stack of the actions before, those after". A well-typed parse never reaches an action without overload. *)
From Coq Require Import List ZArith NArith Bool Lia Arith String.
From Verif Require Import Chars Syntax Term Classes Fusion Grammar Actions Parser ParserProofs.
Import ListNotations.
Local Open Scope string_scope.
Local Open Scope list_scope.

(** * The texts excluded *)
(** A word of sets of characters, and its occurrence in a text. *)
Definition word : Type := list (list Z).
Definition occurs (w : word) (u : list Z) : Prop := exists pre mid post, u = pre ++ mid ++ post /\ Forall2 (fun c s => In c s) mid w.
Definition letters (s : string) : word := map (fun c => [c]) (codes s).
Definition switches : list Z := codes "cims".
Definition lookbehind : word := letters "(?<" ++ [codes "=!"].
Definition switch : word := letters "(?" ++ [switches].
Definition hazards : list word :=
  [ letters "(?" ++ [switches; switches];                         (* switches of several letters *)
    letters "\" ++ [codes "xu"; codes "{"] ++ repeat set12 9;     (* characters by a number of more than eight digits *)
    letters "\g{" ++ [set8];                                      (* references by name *)
    letters ")?+";                                                (* possessive options of a group *)
    letters ":]-" ].                                              (* ranges from a named class *)
(** Lookbehinds are no hazard in a text without switches: [true] is the text without switches, [false] the one without lookbehinds. *)
(** Texts without atomic groups and backreferences besides. *)
Definition atomic_start : word := letters "(?>".
Definition reference : word := letters "\" ++ [codes "123456789g"].
(** Texts without switches, possessive repetitions and complements other than [[^...]] besides. *)
Definition possessive : word := [codes "*+?}"] ++ letters "+".
Definition complement : word := letters "\" ++ [codes "DSWHVNP"].
Definition other_named : word := letters "[:^".
(** Texts without repetitions of groups (other than options) besides. *)
Definition group_repeat : word := letters ")" ++ [codes "*+{"].
Definition excluded (free basic tame quick : bool) : list word :=
  (if free then switch else lookbehind) :: (if basic then [atomic_start; reference] else []) ++ (if tame then [switch; possessive; complement; other_named] else []) ++ (if quick then [group_repeat] else []) ++ hazards.
(** Classes without complements. *)
Fixpoint under (c : cls) : bool := match c with CSet l => forallb under l | CNeg _ | CNegate _ => false | _ => true end.

(** * Types *)
Inductive shape :=
| ShRe | ShAtom | ShCls | ShChar | ShSet | ShRep | ShOpt   (* regexes: any; no lazy repetition and the body of a repetition that ends; class; character; set; greedy repetition; option *)
| ShNum | ShHex (k : nat) | ShCap | ShId | ShLook | ShBehind | ShAtomic | ShName | ShValue.
Definition has (tame : bool) (s : shape) (i : item) : Prop :=
  match s with
  | ShRe => exists r, i = IRe r
  | ShAtom => exists r, i = IRe r /\ (forall a b l, r <> RRep Lazy a b l) /\ body_eats (unwrap r) = true
  | ShCls => exists x, i = IRe (RCls x) /\ (tame = true -> under x = true)
  | ShChar => exists x, i = IRe (RCls (CChar x))
  | ShSet => exists l, i = IRe (RCls (CSet l)) /\ (tame = true -> forallb under l = true)
  | ShRep => exists a b l, i = IRe (RRep Greedy a b l)
  | ShOpt => (exists a b l, i = IRe (RRep Greedy a b l)) \/ (exists l, i = IRe (RRep Lazy 0 1 l))
  | ShNum => exists n, i = INum n
  | ShHex k => exists n, i = INum n /\ (n < 16 ^ N.of_nat k)%N
  | ShCap => exists j, i = ICap j
  | ShId => exists n, i = IId n
  | ShLook => exists n, i = ILook false n
  | ShBehind => exists n, i = ILook true n
  | ShAtomic => i = IAtomic
  | ShName => exists n, i = IPName n
  | ShValue => exists n, i = IPValue n
  end.
Definition sub (s t : shape) : bool :=
  match s, t with
  | (ShRe | ShAtom | ShCls | ShChar | ShSet | ShRep | ShOpt), ShRe => true
  | (ShAtom | ShCls | ShChar | ShSet), ShAtom => true
  | (ShCls | ShChar | ShSet), ShCls => true
  | ShChar, ShChar => true
  | ShSet, ShSet => true
  | ShRep, ShRep => true
  | (ShRep | ShOpt), ShOpt => true
  | (ShNum | ShHex _), ShNum => true
  | ShHex j, ShHex k => Nat.leb j k
  | ShCap, ShCap => true
  | ShId, ShId => true
  | ShLook, ShLook => true
  | ShBehind, ShBehind => true
  | ShAtomic, ShAtomic => true
  | ShName, ShName => true
  | ShValue, ShValue => true
  | _, _ => false
  end.
Lemma sub_has : forall tame s t i, sub s t = true -> has tame s i -> has tame t i.
Proof.
  intros tame s t i H J. destruct s, t; try discriminate H; cbn in *; try exact J;
    repeat match goal with K : exists _, _ |- _ => destruct K | K : _ /\ _ |- _ => destruct K | K : _ \/ _ |- _ => destruct K end; subst; eauto;
    try (eexists; split; [reflexivity|]; split; [discriminate|reflexivity]).
  apply Nat.leb_le in H. eexists. split; [reflexivity|]. eapply N.lt_le_trans; [eassumption|]. apply N.pow_le_mono_r; lia.
Qed.
Fixpoint subs (l m : list shape) : bool := match l, m with [], [] => true | s :: l, t :: m => sub s t && subs l m | _, _ => false end.
Lemma subs_has : forall tame l m items, subs l m = true -> Forall2 (has tame) l items -> Forall2 (has tame) m items.
Proof.
  intros tame. induction l as [|s l IH]; intros [|t m] items H J; try discriminate H; inversion J; subst; [constructor|]. cbn in H. apply andb_true_iff in H as [X1 X2].
  constructor; [eapply sub_has; eassumption|eapply IH; eassumption].
Qed.

(** What is known of the characters just read, the last first. *)
Definition known (l : word) (before : list Z) : Prop := exists p q, before = p ++ q /\ Forall2 (fun c s => In c s) p l.
Definition memb (c : Z) (s : list Z) : bool := existsb (Z.eqb c) s.
Fixpoint covers (lp l : word) : bool :=
  match lp, l with [], _ => true | s :: lp, t :: l => forallb (fun c => memb c s) t && covers lp l | _, _ => false end.
Lemma memb_in : forall c s, memb c s = true -> In c s.
Proof. intros c s H. unfold memb in H. apply existsb_exists in H as (x & I & E). apply Z.eqb_eq in E. subst. exact I. Qed.
Lemma covers_known : forall lp l before, covers lp l = true -> known l before -> known lp before.
Proof.
  induction lp as [|s lp IH]; intros l before H K; [exists [], before; split; [reflexivity|constructor]|].
  destruct l as [|t l]; [discriminate H|]. cbn in H. apply andb_true_iff in H as [H1 H2]. destruct K as (p & q & -> & F). inversion F as [|c s' p' l' I F']; subst.
  destruct (IH l (p' ++ q) H2) as (p2 & q2 & E & F2); [exists p', q; split; [reflexivity|exact F']|].
  exists (c :: p2), q2. split; [cbn; rewrite E; reflexivity|]. constructor; [|exact F2]. rewrite forallb_forall in H1. apply memb_in, H1, I.
Qed.

(** The actions on types. *)
Definition repeated (quick : bool) : shape := if quick then ShAtom else ShRe.
Definition is_name (s : shape) : bool := match s with ShName | ShValue => true | _ => false end.
Definition hexes (l : word) : bool := match l with s :: _ => forallb (fun c => memb c set12) s | [] => false end.
Definition aact (free basic tame quick : bool) (a : action) (l : word) (st : list shape) : option (list shape) :=
  match a with
  | A_class_nondigit | A_class_nonspace | A_class_non_horizontal_space | A_class_non_vertical_space | A_class_nonword | A_class_nonnewline => if tame then None else Some (ShCls :: st)
  | A_class_digit | A_class_space | A_class_horizontal_space | A_class_vertical_space | A_class_word | A_class_named_alnum | A_class_named_alpha | A_class_named_digit
  | A_class_named_ascii | A_class_named_blank | A_class_named_cntrl | A_class_named_graph | A_class_named_lower | A_class_named_upper | A_class_named_print
  | A_class_named_space | A_class_named_word | A_class_named_punct | A_class_named_xdigit => Some (ShCls :: st)
  | A_push_character | A_push_character_alarm | A_push_character_escape | A_push_character_formfeed | A_push_character_newline | A_push_character_null
  | A_push_character_return_carriage | A_push_character_tab => Some (ShChar :: st)
  | A_push_character_anything | A_push_assert_begin | A_push_assert_end | A_push_assert_subject_begin | A_push_assert_subject_end
  | A_push_assert_subject_end_with_lineend | A_push_word_boundary | A_push_not_word_boundary | A_push_empty => Some (ShAtom :: st)
  | A_make_alternate | A_make_sequence => match st with s :: t :: r => if sub s ShRe && sub t ShRe then Some (ShRe :: r) else None | _ => None end
  | A_make_optional => match st with s :: r => if sub s ShAtom then Some (ShRep :: r) else if sub s ShRe then Some (ShOpt :: r) else None | _ => None end
  | A_make_lazy => match st with s :: r => if sub s ShOpt then Some (ShRe :: r) else None | _ => None end
  | A_make_possessive => if tame then None else match st with s :: r => if sub s ShRep then Some (ShRe :: r) else None | _ => None end
  | A_repeat_plus | A_repeat_star => match st with s :: r => if sub s (repeated quick) then Some (ShRep :: r) else None | _ => None end
  | A_create_number => Some (ShNum :: st)
  | A_push_number => match st with s :: r => if sub s ShNum then Some (ShNum :: r) else None | _ => None end
  | A_repeat_ab => match st with s :: t :: x :: r => if sub s ShNum && sub t ShNum && sub x (repeated quick) then Some (ShRep :: r) else None | _ => None end
  | A_repeat_exactly | A_repeat_at_least => match st with s :: x :: r => if sub s ShNum && sub x (repeated quick) then Some (ShRep :: r) else None | _ => None end
  | A_create_hexdec => Some (ShHex 0 :: st)
  | A_push_hexdec => match st with ShHex k :: r => if hexes l && Nat.ltb k 8 then Some (ShHex (S k) :: r) else None | _ => None end
  | A_finish_hexdec => match st with ShHex k :: r => if Nat.leb k 8 then Some (ShChar :: r) else None | _ => None end
  | A_prepare_capture => Some (ShCap :: st)
  | A_reset_capture => match st with ShCap :: r => Some r | _ => None end
  | A_make_capture => match st with s :: ShCap :: r => if sub s ShRe then Some (ShRe :: r) else None | _ => None end
  | A_push_name => match st with ShId :: r => Some (ShId :: r) | ShCap :: r => Some (ShId :: ShCap :: r) | _ => None end
  | A_make_capture_with_name => match st with s :: ShId :: ShCap :: r => if sub s ShRe then Some (ShRe :: r) else None | _ => None end
  | A_make_back_reference => if basic then None else match st with s :: r => if sub s ShId || sub s ShNum then Some (ShAtom :: r) else None | _ => None end
  | A_make_relative_back_reference => if basic then None else match st with s :: r => if sub s ShNum then Some (ShAtom :: r) else None | _ => None end
  | A_start_lookahead_positive | A_start_lookahead_negative => Some (ShLook :: st)
  | A_start_lookbehind_positive | A_start_lookbehind_negative => if free then Some (ShBehind :: st) else None
  | A_look_finish =>
      match st with
      | s :: ShLook :: r => if sub s ShRe then Some (ShAtom :: r) else None
      | s :: ShBehind :: r => if free && sub s ShRe then Some (ShAtom :: r) else None
      | _ => None
      end
  | A_start_atomic => if basic then None else Some (ShAtomic :: st)
  | A_make_atomic => match st with s :: ShAtomic :: r => if sub s ShRe then Some (ShRe :: r) else None | _ => None end
  | A_mode_case_insensitive | A_mode_case_sensitive | A_mode_singleline | A_mode_multiline => match st with ShCap :: r => if free || tame then None else Some (ShAtom :: r) | _ => None end
  | A_set_start => match st with s :: r => if sub s ShCls then Some (ShSet :: r) else None | _ => None end
  | A_set_empty => Some (ShSet :: st)
  | A_set_make => match st with ShSet :: r => Some (ShSet :: r) | _ => None end
  | A_set_make_negative => match st with ShSet :: r => Some (ShAtom :: r) | _ => None end
  | A_set_combine => match st with s :: ShSet :: r => if sub s ShCls then Some (ShSet :: r) else None | _ => None end
  | A_negate_class_named => if tame then None else match st with s :: r => if sub s ShCls then Some (ShCls :: r) else None | _ => None end
  | A_make_range => match st with ShChar :: ShChar :: r => Some (ShCls :: r) | _ => None end
  | A_push_property_name => match st with ShName :: r => Some (ShName :: r) | ShValue :: _ => None | _ => Some (ShName :: st) end
  | A_push_property_value => match st with ShValue :: r => Some (ShValue :: r) | ShName :: r => Some (ShValue :: ShName :: r) | _ => None end
  | A_make_property => match st with ShName :: r => Some (ShCls :: r) | ShValue :: ShName :: r => Some (ShCls :: r) | _ => None end
  | A_make_property_negative => if tame then None else match st with ShName :: r => Some (ShCls :: r) | ShValue :: ShName :: r => Some (ShCls :: r) | _ => None end
  end.
Lemma frame_act : forall free basic tame quick a l st st' fr, aact free basic tame quick a l st = Some st' -> forallb (fun s => negb (is_name s)) fr = true -> aact free basic tame quick a l (st ++ fr) = Some (st' ++ fr).
Proof.
  intros free basic tame quick a l st st' fr H F. destruct a; cbn [aact] in *; try (destruct basic; [discriminate H|]); try (destruct tame; [discriminate H|]); try (destruct free; [injection H as <-; reflexivity|discriminate H]); try (injection H as <-; reflexivity); try discriminate H;
    destruct st as [|s1 st]; try discriminate H;
    try (destruct s1; try discriminate H; try (injection H as <-; reflexivity); fail).
  all: try (destruct s1; try discriminate H; destruct (free || tame); [discriminate H|injection H as <-; reflexivity]).
  all: try (destruct (sub s1 _); [injection H as <-; reflexivity|discriminate H]).
  all: try (destruct (sub s1 _ || sub s1 _); [injection H as <-; reflexivity|discriminate H]).
  all: try (destruct (sub s1 _); [injection H as <-; reflexivity|]; destruct (sub s1 _); [injection H as <-; reflexivity|discriminate H]).
  all: try (cbn [app]; destruct s1; try discriminate H; destruct (hexes l && _); try discriminate H; injection H as <-; reflexivity).
  all: try (cbn [app]; destruct s1; try discriminate H; destruct (_ <=? _)%nat; try discriminate H; injection H as <-; reflexivity).
  all: try (destruct fr as [|[] fr]; cbn in *; try discriminate F; injection H as <-; reflexivity).
  all: destruct st as [|s2 st]; cbn [app] in *; try discriminate H;
    repeat match type of H with
    | (if ?b then _ else _) = _ => destruct b
    | (match ?x with _ => _ end) = _ => destruct x; cbn [app] in *
    end; try discriminate H; try (injection H as <-; reflexivity).
Qed.

(** A typed action has an overload, and leaves what its type says. *)
Lemma hex_small : forall v, In v set12 -> (Z.to_N (hex_value v) < 16)%N.
Proof. intros v H. cbn in H. repeat (destruct H as [<-|H]; [reflexivity|]). destruct H. Qed.
Lemma pow_8 : forall k n, k <= 8 -> (n < 16 ^ N.of_nat k)%N -> (n < 4294967296)%N.
Proof. intros k n H L. do 9 (destruct k as [|k]; [eapply N.lt_le_trans; [exact L|vm_compute; discriminate]|]). lia. Qed.
Lemma hex_next : forall k n h, k < 8 -> (n < 16 ^ N.of_nat k)%N -> (h < 16)%N -> (wrap (wrap (n * 16) + h) < 16 ^ N.of_nat (S k))%N.
Proof.
  intros k n h H L Hh. rewrite Nat2N.inj_succ, N.pow_succ_r'. pose proof (pow_8 k n ltac:(lia) L) as B. unfold wrap, size_mod.
  rewrite (N.mod_small (n * 16)) by lia. rewrite N.mod_small by lia. lia.
Qed.
Lemma has_not_name : forall tame s i, has tame s i -> is_name s = false -> match i with IPName _ | IPValue _ => False | _ => True end.
Proof.
  intros tame s i H N. destruct s; cbn in *; try discriminate N;
    repeat match goal with K : exists _, _ |- _ => destruct K | K : _ /\ _ |- _ => destruct K | K : _ \/ _ |- _ => destruct K end; subst; exact I.
Qed.
Lemma re_has : forall tame s i, sub s ShRe = true -> has tame s i -> exists r, i = IRe r.
Proof. intros tame s i H J. exact (sub_has tame s ShRe i H J). Qed.
(** Without switches everything on the stack can be turned round for a lookbehind. *)
Definition rot (r : re) : bool := match rotate r with Some _ => true | None => false end.
Definition turns (l : list item) : Prop := Forall (fun i => match i with IRe r => rot r = true | _ => True end) l.
Definition is_switch (a : action) : bool :=
  match a with A_mode_case_insensitive | A_mode_case_sensitive | A_mode_singleline | A_mode_multiline => true | _ => false end.
Lemma rot_list : forall l, match opt_map rotate l with Some _ => true | None => false end = forallb rot l.
Proof.
  induction l as [|x l IH]; [reflexivity|]. cbn [opt_map forallb]. rewrite <- IH. unfold rot. destruct (rotate x); [|reflexivity]. destruct (opt_map rotate l); reflexivity.
Qed.
Lemma rot_wrap : forall (F : list re -> re) l, match map_some F (opt_map rotate l) with Some _ => true | None => false end = forallb rot l.
Proof. intros F l. rewrite <- rot_list. destruct (opt_map rotate l); reflexivity. Qed.
Lemma rot_seq : forall l, rot (RSeq l) = forallb rot l. Proof. intros. apply rot_wrap. Qed.
Lemma rot_select : forall l, rot (RSelect l) = forallb rot l. Proof. intros. apply rot_wrap. Qed.
Lemma rot_rep : forall k a b l, rot (RRep k a b l) = forallb rot l. Proof. intros. apply rot_wrap. Qed.
Lemma rot_cap : forall i l, rot (RCap i l) = forallb rot l. Proof. intros. apply rot_wrap. Qed.
Lemma rot_ncap : forall i n l, rot (RNCap i n l) = forallb rot l. Proof. intros. apply rot_wrap. Qed.
Lemma rot_atomic : forall l, rot (RAtomic l) = forallb rot l. Proof. intros. apply rot_wrap. Qed.
Lemma rot_unwrap : forall x, forallb rot (unwrap x) = rot x.
Proof. intros x. destruct x; cbn [unwrap]; try (cbn [forallb]; apply andb_true_r). symmetry. apply rot_seq. Qed.
Lemma rot_combine : forall k a b a' b' l, forallb rot l = true -> rot (combine_repeat k a b a' b' l) = true.
Proof.
  intros k a b a' b' l H. unfold combine_repeat. destruct k; rewrite ?rot_rep; try exact H. destruct (N.eqb b 0); [destruct (N.ltb 0 a')|destruct (N.eqb a' 0)]; rewrite ?rot_rep, ?rot_seq; try exact H.
Qed.
Lemma rot_sequence : forall b a, rot b = true -> rot a = true -> rot (make_sequence b a) = true.
Proof.
  intros b a Hb Ha.
  assert (G : rot (RSeq [a; b]) = true) by (rewrite rot_seq; cbn [forallb]; rewrite Ha, Hb; reflexivity).
  assert (G' : forall l, forallb rot l = true -> rot (RSeq (a :: l)) = true) by (intros l H; rewrite rot_seq; cbn [forallb]; rewrite Ha, H; reflexivity).
  destruct b as [x| |str|l|l| | |kd p q l|id l|id nm l|id|nm|neg l|neg l|l|x|x|x|m]; cbn [make_sequence]; try exact G.
  - destruct x; try exact G. destruct a as [[]| | | | | | | | | | | | | | | | | |]; try exact G; reflexivity.
  - destruct a as [[]| | | | | | | | | | | | | | | | | |]; try exact G; reflexivity.
  - rewrite rot_seq in Hb. destruct l as [|y l]; [exact (G' [] eq_refl)|]. pose proof Hb as Hb'. cbn [forallb] in Hb'. apply andb_true_iff in Hb' as [Hy Hl].
    destruct y as [x| |str|k|k| | |kd p q k|id k|id nm k|id|nm|neg k|neg k|k|x|x|x|m]; try exact (G' _ Hb).
    + destruct x; try exact (G' _ Hb). destruct a as [[]| | | | | | | | | | | | | | | | | |]; try exact (G' _ Hb); rewrite rot_seq; cbn [forallb]; rewrite Hl; reflexivity.
    + destruct a as [[]| | | | | | | | | | | | | | | | | |]; try exact (G' _ Hb); rewrite rot_seq; cbn [forallb]; rewrite Hl; reflexivity.
    + destruct a as [| | | | | | |kd' p' q' k'| | | | | | | | | | |]; try exact (G' _ Hb). destruct (rkind_eqb kd kd' && leqb re_eqb k k'); [|exact (G' _ Hb)].
      rewrite rot_seq. cbn [forallb]. rewrite Hl, andb_true_r. apply rot_combine. rewrite rot_rep in Hy. exact Hy.
  - destruct a as [| | | | | | |kd' p' q' k'| | | | | | | | | | |]; try exact G. destruct (rkind_eqb kd kd' && leqb re_eqb l k'); [|exact G].
    apply rot_combine. rewrite rot_rep in Hb. exact Hb.
Qed.
Lemma rot_alternate : forall b a, rot b = true -> rot a = true -> rot (make_alternate b a) = true.
Proof.
  intros b a Hb Ha. assert (G : rot (RSelect [a; b]) = true) by (rewrite rot_select; cbn [forallb]; rewrite Ha, Hb; reflexivity).
  destruct b; cbn [make_alternate]; try exact G. rewrite rot_select in *. cbn [forallb]. rewrite Ha. exact Hb.
Qed.
Lemma rot_optional : forall r, rot r = true -> rot (make_optional r) = true.
Proof.
  intros r H. assert (G : rot (RRep Greedy 0 1 [r]) = true) by (rewrite rot_rep; cbn [forallb]; rewrite H; reflexivity).
  destruct r as [x| |str|l|l| | |kd a b l|id l|id nm l|id|nm|neg l|neg l|l|x|x|x|m]; cbn [make_optional]; try exact G.
  - rewrite rot_seq in H. rewrite rot_rep. exact H.
  - destruct kd; try exact G; destruct a; try exact G; destruct b as [|[]]; try exact G; destruct l as [|y [|]]; try exact G; rewrite rot_rep in *; exact H.
Qed.
Lemma rot_behind : forall x, rot x = true -> exists l, behind_content x = Some l.
Proof.
  intros x H. destruct x; cbn [behind_content]; try (unfold rot in H; destruct (rotate _) eqn:E in H; [rewrite E; cbn; eauto|discriminate H]).
  rewrite rot_seq, <- rot_list in H. destruct (opt_map rotate l); [cbn; eauto|discriminate H].
Qed.
(** Without lookbehinds, atomic groups and backreferences there are none on the stack. *)
Fixpoint plain (r : re) : bool :=
  match r with
  | RSelect l | RSeq l | RRep _ _ _ l | RAhead _ l | RCap _ l | RNCap _ _ l => forallb plain l
  | RBack _ | RNBack _ | RBehind _ _ | RAtomic _ => false
  | _ => true
  end.
Definition plain_item (i : item) : Prop := match i with IRe r => plain r = true | ILook true _ | IAtomic => False | _ => True end.
Definition is_special (a : action) : bool :=
  match a with
  | A_make_back_reference | A_make_relative_back_reference | A_start_atomic | A_start_lookbehind_positive | A_start_lookbehind_negative => true
  | _ => false
  end.
Lemma plain_unwrap : forall x, forallb plain (unwrap x) = plain x.
Proof. intros x. destruct x; cbn [unwrap]; try (cbn [forallb]; apply andb_true_r). reflexivity. Qed.
Lemma plain_combine : forall k a b a' b' l, forallb plain l = true -> plain (combine_repeat k a b a' b' l) = true.
Proof.
  intros k a b a' b' l H. unfold combine_repeat. destruct k; try exact H. destruct (N.eqb b 0); [destruct (N.ltb 0 a')|destruct (N.eqb a' 0)]; exact H.
Qed.
Lemma plain_sequence : forall b a, plain b = true -> plain a = true -> plain (make_sequence b a) = true.
Proof.
  intros b a Hb Ha.
  assert (G : plain (RSeq [a; b]) = true) by (cbn [plain forallb]; rewrite Ha, Hb; reflexivity).
  assert (G' : forall l, forallb plain l = true -> plain (RSeq (a :: l)) = true) by (intros l H; cbn [plain forallb]; rewrite Ha, H; reflexivity).
  destruct b as [x| |str|l|l| | |kd p q l|id l|id nm l|id|nm|neg l|neg l|l|x|x|x|m]; cbn [make_sequence]; try exact G.
  - destruct x; try exact G. destruct a as [[]| | | | | | | | | | | | | | | | | |]; try exact G; reflexivity.
  - destruct a as [[]| | | | | | | | | | | | | | | | | |]; try exact G; reflexivity.
  - change (forallb plain l = true) in Hb. destruct l as [|y l]; [exact (G' [] eq_refl)|]. pose proof Hb as Hb'. cbn [forallb] in Hb'. apply andb_true_iff in Hb' as [Hy Hl].
    destruct y as [x| |str|k|k| | |kd p q k|id k|id nm k|id|nm|neg k|neg k|k|x|x|x|m]; try exact (G' _ Hb).
    + destruct x; try exact (G' _ Hb). destruct a as [[]| | | | | | | | | | | | | | | | | |]; try exact (G' _ Hb); cbn [plain forallb]; rewrite Hl; reflexivity.
    + destruct a as [[]| | | | | | | | | | | | | | | | | |]; try exact (G' _ Hb); cbn [plain forallb]; rewrite Hl; reflexivity.
    + destruct a as [| | | | | | |kd' p' q' k'| | | | | | | | | | |]; try exact (G' _ Hb). destruct (rkind_eqb kd kd' && leqb re_eqb k k'); [|exact (G' _ Hb)].
      change (plain (combine_repeat kd p q p' q' k) && forallb plain l = true). rewrite Hl, andb_true_r. apply plain_combine. exact Hy.
  - destruct a as [| | | | | | |kd' p' q' k'| | | | | | | | | | |]; try exact G. destruct (rkind_eqb kd kd' && leqb re_eqb l k'); [|exact G].
    apply plain_combine. exact Hb.
Qed.
Lemma plain_alternate : forall b a, plain b = true -> plain a = true -> plain (make_alternate b a) = true.
Proof.
  intros b a Hb Ha. assert (G : plain (RSelect [a; b]) = true) by (cbn [plain forallb]; rewrite Ha, Hb; reflexivity).
  destruct b; cbn [make_alternate]; try exact G. cbn [plain forallb] in *. rewrite Ha. exact Hb.
Qed.
Lemma plain_optional : forall r, plain r = true -> plain (make_optional r) = true.
Proof.
  intros r H. assert (G : plain (RRep Greedy 0 1 [r]) = true) by (cbn [plain forallb]; rewrite H; reflexivity).
  destruct r as [x| |str|l|l| | |kd a b l|id l|id nm l|id|nm|neg l|neg l|l|x|x|x|m]; cbn [make_optional]; try exact G; try exact H.
  destruct kd; try exact G; destruct a; try exact G; destruct b as [|[]]; try exact G; destruct l as [|y [|]]; try exact G; exact H.
Qed.
(** Without switches, possessive repetitions and other complements there are none of these besides. *)
Definition once (c : cls) : bool := match c with CNeg l => forallb under l | _ => under c end.
Fixpoint simple (r : re) : bool :=
  match r with
  | RCls c => once c
  | RRep Possessive _ _ _ => false
  | RSelect l | RSeq l | RRep _ _ _ l | RAhead _ l | RCap _ l | RNCap _ _ l => forallb simple l
  | RReject | RMode _ | RNotBound _ | RBack _ | RNBack _ | RBehind _ _ | RAtomic _ => false
  | _ => true
  end.
Definition simple_item (i : item) : Prop := match i with IRe r => simple r = true | ILook true _ | IAtomic => False | _ => True end.
Lemma simple_unwrap : forall x, forallb simple (unwrap x) = simple x.
Proof. intros x. destruct x; cbn [unwrap]; try (cbn [forallb]; apply andb_true_r). reflexivity. Qed.
Lemma simple_combine : forall k a b a' b' l p q, simple (RRep k p q l) = true -> simple (combine_repeat k a b a' b' l) = true.
Proof.
  intros k a b a' b' l p q H. unfold combine_repeat. destruct k; [exact H|exact H|discriminate H].
Qed.
Lemma simple_sequence : forall b a, simple b = true -> simple a = true -> simple (make_sequence b a) = true.
Proof.
  intros b a Hb Ha.
  assert (G : simple (RSeq [a; b]) = true) by (cbn [simple forallb]; rewrite Ha, Hb; reflexivity).
  assert (G' : forall l, forallb simple l = true -> simple (RSeq (a :: l)) = true) by (intros l H; cbn [simple forallb]; rewrite Ha, H; reflexivity).
  destruct b as [x| |str|l|l| | |kd p q l|id l|id nm l|id|nm|neg l|neg l|l|x|x|x|m]; cbn [make_sequence]; try exact G.
  - destruct x; try exact G. destruct a as [[]| | | | | | | | | | | | | | | | | |]; try exact G; reflexivity.
  - destruct a as [[]| | | | | | | | | | | | | | | | | |]; try exact G; reflexivity.
  - change (forallb simple l = true) in Hb. destruct l as [|y l]; [exact (G' [] eq_refl)|]. pose proof Hb as Hb'. cbn [forallb] in Hb'. apply andb_true_iff in Hb' as [Hy Hl].
    destruct y as [x| |str|k|k| | |kd p q k|id k|id nm k|id|nm|neg k|neg k|k|x|x|x|m]; try exact (G' _ Hb).
    + destruct x; try exact (G' _ Hb). destruct a as [[]| | | | | | | | | | | | | | | | | |]; try exact (G' _ Hb); cbn [simple forallb]; rewrite Hl; reflexivity.
    + destruct a as [[]| | | | | | | | | | | | | | | | | |]; try exact (G' _ Hb); cbn [simple forallb]; rewrite Hl; reflexivity.
    + destruct a as [| | | | | | |kd' p' q' k'| | | | | | | | | | |]; try exact (G' _ Hb). destruct (rkind_eqb kd kd' && leqb re_eqb k k'); [|exact (G' _ Hb)].
      change (simple (combine_repeat kd p q p' q' k) && forallb simple l = true). rewrite Hl, andb_true_r. exact (simple_combine _ _ _ _ _ _ _ _ Hy).
  - destruct a as [| | | | | | |kd' p' q' k'| | | | | | | | | | |]; try exact G. destruct (rkind_eqb kd kd' && leqb re_eqb l k'); [|exact G].
    exact (simple_combine _ _ _ _ _ _ _ _ Hb).
Qed.
Lemma simple_alternate : forall b a, simple b = true -> simple a = true -> simple (make_alternate b a) = true.
Proof.
  intros b a Hb Ha. assert (G : simple (RSelect [a; b]) = true) by (cbn [simple forallb]; rewrite Ha, Hb; reflexivity).
  destruct b; cbn [make_alternate]; try exact G. cbn [simple forallb] in *. rewrite Ha. exact Hb.
Qed.
Lemma simple_optional : forall r, simple r = true -> simple (make_optional r) = true.
Proof.
  intros r H. assert (G : simple (RRep Greedy 0 1 [r]) = true) by (cbn [simple forallb]; rewrite H; reflexivity).
  destruct r as [x| |str|l|l| | |kd a b l|id l|id nm l|id|nm|neg l|neg l|l|x|x|x|m]; cbn [make_optional]; try exact G; try exact H.
  destruct kd; try exact G; destruct a; try exact G; destruct b as [|[]]; try exact G; destruct l as [|y [|]]; try exact G; exact H.
Qed.
(** How often bodies that may not consume are allowed to repeat; the sum over the stack grows by at most one with every action. *)
Fixpoint opts (r : re) : N :=
  let sum := fix sum (l : list re) : N := match l with [] => 0 | x :: xs => opts x + sum xs end%N in
  match r with
  | RRep _ _ b l => (if body_eats l then 0 else b) + sum l
  | RSelect l | RSeq l | RAhead _ l | RCap _ l | RNCap _ _ l | RAtomic l => sum l
  | _ => 0
  end%N.
Fixpoint sum (l : list re) : N := match l with [] => 0 | x :: xs => opts x + sum xs end%N.
Lemma opts_rep : forall k a b l, opts (RRep k a b l) = ((if body_eats l then 0 else b) + sum l)%N. Proof. reflexivity. Qed.
Lemma opts_seq : forall l, opts (RSeq l) = sum l. Proof. reflexivity. Qed.
Lemma opts_select : forall l, opts (RSelect l) = sum l. Proof. reflexivity. Qed.
Lemma opts_cap : forall i l, opts (RCap i l) = sum l. Proof. reflexivity. Qed.
Lemma opts_ncap : forall i n l, opts (RNCap i n l) = sum l. Proof. reflexivity. Qed.
Lemma opts_ahead : forall n l, opts (RAhead n l) = sum l. Proof. reflexivity. Qed.
Lemma opts_atomic : forall l, opts (RAtomic l) = sum l. Proof. reflexivity. Qed.
Lemma sum_unwrap : forall x, sum (unwrap x) = opts x.
Proof. intros x. destruct x; cbn [unwrap sum]; try apply N.add_0_r. reflexivity. Qed.
Lemma ends_unwrap : forall x, forallb terminating (unwrap x) = terminating x.
Proof. intros x. destruct x; cbn [unwrap]; try (cbn [forallb]; apply andb_true_r). reflexivity. Qed.
Definition good_re (r : re) (n : N) : Prop := terminating r = true /\ (opts r <= n)%N.
Lemma same_content : forall l l', leqb re_eqb l l' = true -> l = l'.
Proof. intros l l' H. apply (leqb_eq _ re_eqb l l'); [|exact H]. apply Forall_forall. intros x _ y. apply re_eqb_eq. Qed.
Lemma good_combine : forall k a b a' b' l, terminating (RRep k a b l) = true -> terminating (RRep k a' b' l) = true ->
  (opts (RRep k a b l) + opts (RRep k a' b' l) < size_mod)%N -> good_re (combine_repeat k a b a' b' l) (opts (RRep k a b l) + opts (RRep k a' b' l)).
Proof.
  intros k a b a' b' l T T' S. cbn [terminating] in T, T'. apply andb_true_iff in T as [T1 T2]. apply andb_true_iff in T' as [T1' _]. rewrite !opts_rep in *.
  assert (G : forall k p q, (body_eats l = false -> q <> 0 /\ q <= b + b')%N -> good_re (RRep k p q l) ((if body_eats l then 0 else b) + sum l + ((if body_eats l then 0 else b') + sum l))).
  { intros k0 p q H. split; [cbn [terminating]; rewrite T2, andb_true_r|rewrite opts_rep; destruct (body_eats l); [|destruct (H eq_refl)]; lia].
    destruct (body_eats l); [apply orb_true_r|]. destruct (H eq_refl) as [H1 _]. apply N.eqb_neq in H1. rewrite H1. reflexivity. }
  assert (M : body_eats l = false -> (combine_max b b' <> 0 /\ combine_max b b' <= b + b')%N).
  { intros E. rewrite E in *. rewrite orb_false_r in T1, T1'. unfold combine_max. rewrite T1, T1'. cbn [andb]. apply negb_true_iff, N.eqb_neq in T1, T1'.
    unfold wrap. rewrite N.mod_small by lia. lia. }
  unfold combine_repeat. destruct k; try (apply G, M). destruct (N.eqb_spec b 0) as [->|Hb].
  - destruct (N.ltb 0 a').
    + split; [exact T2|]. rewrite opts_seq. cbn [sum opts]. lia.
    + apply G. intros E. rewrite E in T1. discriminate T1.
  - destruct (N.eqb a' 0); apply G, M.
Qed.
Lemma good_sequence : forall b a, terminating b = true -> terminating a = true -> (opts a + opts b < size_mod)%N -> good_re (make_sequence b a) (opts a + opts b).
Proof.
  intros b a Hb Ha S.
  assert (G : good_re (RSeq [a; b]) (opts a + opts b)) by (split; [cbn [terminating forallb]; rewrite Ha, Hb; reflexivity|rewrite opts_seq; cbn [sum]; lia]).
  assert (G' : forall l, b = RSeq l -> good_re (RSeq (a :: l)) (opts a + opts b)).
  { intros l ->. split; [cbn [terminating forallb] in *; rewrite Ha; exact Hb|rewrite !opts_seq; cbn [sum]; lia]. }
  assert (L : forall t, good_re (RStr t) (opts a + opts b)) by (intros t; split; [reflexivity|cbn [opts]; lia]).
  assert (L' : forall t y l, b = RSeq (y :: l) -> good_re (RSeq (RStr t :: l)) (opts a + opts b)).
  { intros t y l ->. cbn [terminating forallb] in Hb. apply andb_true_iff in Hb as [_ Hb]. split; [exact Hb|]. rewrite !opts_seq. cbn [sum opts]. lia. }
  destruct b as [x| |str|l|l| | |kd p q l|id l|id nm l|id|nm|neg l|neg l|l|x|x|x|m]; cbn [make_sequence]; try exact G.
  - destruct x; try exact G. destruct a as [[]| | | | | | | | | | | | | | | | | |]; try exact G; apply L.
  - destruct a as [[]| | | | | | | | | | | | | | | | | |]; try exact G; apply L.
  - destruct l as [|y l]; [exact (G' [] eq_refl)|].
    destruct y as [x| |str|k|k| | |kd p q k|id k|id nm k|id|nm|neg k|neg k|k|x|x|x|m]; try exact (G' _ eq_refl).
    + destruct x; try exact (G' _ eq_refl). destruct a as [[]| | | | | | | | | | | | | | | | | |]; first [exact (G' _ eq_refl)|exact (L' _ _ _ eq_refl)].
    + destruct a as [[]| | | | | | | | | | | | | | | | | |]; first [exact (G' _ eq_refl)|exact (L' _ _ _ eq_refl)].
    + destruct a as [| | | | | | |kd' p' q' k'| | | | | | | | | | |]; try exact (G' _ eq_refl). destruct (rkind_eqb kd kd' && leqb re_eqb k k') eqn:E; [|exact (G' _ eq_refl)].
      apply andb_true_iff in E as [E1 E2]. apply same_content in E2 as <-. assert (E : kd' = kd) by (destruct kd, kd'; try discriminate E1; reflexivity). subst kd'.
      change (terminating (RRep kd p q k) && forallb terminating l = true) in Hb. apply andb_true_iff in Hb as [Hb Hl]. rewrite opts_seq in *. cbn [sum] in *.
      destruct (good_combine kd p q p' q' k Hb Ha) as [C1 C2]; [lia|]. split; [change (terminating (combine_repeat kd p q p' q' k) && forallb terminating l = true); rewrite C1; exact Hl|].
      rewrite opts_seq. cbn [sum]. lia.
  - destruct a as [| | | | | | |kd' p' q' k'| | | | | | | | | | |]; try exact G. destruct (rkind_eqb kd kd' && leqb re_eqb l k') eqn:E; [|exact G].
    apply andb_true_iff in E as [E1 E2]. apply same_content in E2 as <-. assert (E : kd' = kd) by (destruct kd, kd'; try discriminate E1; reflexivity). subst kd'.
    apply good_combine; assumption.
Qed.
Lemma good_alternate : forall b a, terminating b = true -> terminating a = true -> good_re (make_alternate b a) (opts a + opts b).
Proof.
  intros b a Hb Ha. assert (G : good_re (RSelect [a; b]) (opts a + opts b)) by (split; [cbn [terminating forallb]; rewrite Ha, Hb; reflexivity|rewrite opts_select; cbn [sum]; lia]).
  destruct b; cbn [make_alternate]; try exact G. split; [cbn [terminating forallb] in *; rewrite Ha; exact Hb|rewrite !opts_select; cbn [sum]; lia].
Qed.
Lemma good_optional : forall r, terminating r = true -> good_re (make_optional r) (opts r + 1).
Proof.
  intros r H.
  assert (G0 : forall l, forallb terminating l = true -> good_re (RRep Greedy 0 1 l) (sum l + 1)).
  { intros l Hl. split; [exact Hl|]. rewrite opts_rep. destruct (body_eats l); lia. }
  assert (G : good_re (RRep Greedy 0 1 [r]) (opts r + 1)).
  { destruct (G0 [r]) as [G1 G2]; [cbn [forallb]; rewrite H; reflexivity|]. split; [exact G1|]. cbn [sum] in G2. lia. }
  assert (G2 : good_re r (opts r + 1)) by (split; [exact H|lia]).
  destruct r as [x| |str|l|l| | |kd a b l|id l|id nm l|id|nm|neg l|neg l|l|x|x|x|m]; cbn [make_optional]; try exact G.
  - exact (G0 l H).
  - destruct kd; try exact G; destruct a; try exact G; destruct b as [|[]]; try exact G; destruct l as [|y [|]]; try exact G; exact G2.
Qed.
Definition weight (i : item) : N := match i with IRe r => opts r | _ => 0 end.
Fixpoint total (l : list item) : N := match l with [] => 0 | i :: l => weight i + total l end%N.
Definition good_item (i : item) : Prop := match i with IRe r => terminating r = true | _ => True end.
Section Acts.
Variable props : list Z -> option (list Z) -> option (list (Z * Z)).
Variables free basic tame quick : bool.
Lemma turns_act : forall a c v, is_switch a = false -> turns (stk c) -> match apply props a (Some v) c with Done c' => turns (stk c') | _ => True end.
Proof.
  intros a [items cnt] v H T. cbn [stk] in T.
  assert (P : forall i, match i with IRe r => rot r = true | _ => True end -> turns (i :: items)) by (intros; constructor; assumption).
  destruct a; try discriminate H; cbn [apply]; unfold push_cls, push; cbn [stk counter]; try (apply P; exact eq_refl || exact I).
  all: repeat match goal with |- context [match ?x with _ => _ end] => is_var x; destruct x; try exact I end; cbn [stk].
  all: repeat match goal with T : turns (_ :: _) |- _ => inversion T; clear T; subst | T : Forall _ (_ :: _) |- _ => inversion T; clear T; subst end.
  all: try (apply P; exact I).
  all: try (constructor; [exact I || exact eq_refl|assumption]).
  all: try (assumption || (constructor; [first [exact I|exact eq_refl|apply rot_alternate; assumption|apply rot_sequence; assumption|apply rot_optional; assumption
      |rewrite ?rot_rep, ?rot_cap, ?rot_ncap, ?rot_atomic, ?rot_unwrap in *; assumption]|assumption])).
  all: repeat match goal with |- context [if ?b then _ else _] => destruct b; try exact I | |- context [props ?x ?y] => destruct (props x y); try exact I | |- context [behind_content ?x] => destruct (behind_content x); try exact I end; cbn [stk].
  all: try (constructor; [exact I || exact eq_refl|assumption]).
Qed.
Lemma plain_act : forall a c v, is_special a = false -> Forall plain_item (stk c) -> match apply props a (Some v) c with Done c' => Forall plain_item (stk c') | _ => True end.
Proof.
  intros a [items cnt] v H T. cbn [stk] in T.
  assert (P : forall i, plain_item i -> Forall plain_item (i :: items)) by (intros; constructor; assumption).
  destruct a; try discriminate H; cbn [apply]; unfold push_cls, push, apply_mode; cbn [stk counter]; try (apply P; exact eq_refl || exact I).
  all: repeat match goal with |- context [match ?x with _ => _ end] => is_var x; destruct x; try exact I end; cbn [stk].
  all: repeat match goal with T : Forall _ (_ :: _) |- _ => inversion T; clear T; subst  end.
  all: try (apply P; exact I || exact eq_refl).
  all: try (constructor; [exact I || exact eq_refl|assumption]); try contradiction.
  all: try (assumption || (constructor; [first [exact I|exact eq_refl|apply plain_alternate; assumption|apply plain_sequence; assumption|apply plain_optional; assumption
      |cbn [plain_item plain]; rewrite ?plain_unwrap; assumption]|assumption])).
  all: repeat match goal with |- context [if ?b then _ else _] => destruct b; try exact I | |- context [props ?x ?y] => destruct (props x y); try exact I | |- context [behind_content ?x] => destruct (behind_content x); try exact I end; cbn [stk].
  all: try (constructor; [exact I || exact eq_refl|assumption]); try contradiction.
Qed.
Lemma optional_atom : forall r, (forall a b l, r <> RRep Lazy a b l) -> exists a b l, make_optional r = RRep Greedy a b l.
Proof.
  intros r H. destruct r as [x| |str|l|l| | |kd a b l|id l|id nm l|id|nm|neg l|neg l|l|x|x|x|m]; cbn [make_optional]; eauto.
  destruct kd; eauto.
  - destruct a; eauto. destruct b as [|[]]; eauto. destruct l as [|y [|]]; eauto.
  - exfalso. eapply H. reflexivity.
Qed.
Lemma optional_any : forall r, (exists a b l, make_optional r = RRep Greedy a b l) \/ (exists l, make_optional r = RRep Lazy 0 1 l).
Proof.
  intros r. destruct r as [x| |str|l|l| | |kd a b l|id l|id nm l|id|nm|neg l|neg l|l|x|x|x|m]; cbn [make_optional]; eauto.
  destruct kd; eauto; destruct a; eauto; destruct b as [|[]]; eauto; destruct l as [|y [|]]; eauto.
Qed.
Lemma name_sound : forall l st st' c v, aact free basic tame quick A_push_property_name l st = Some st' -> Forall2 (has tame) st (stk c) ->
  match apply props A_push_property_name (Some v) c with Done c' => Forall2 (has tame) st' (stk c') | Reject => True | IllAct => False end.
Proof.
  intros l st st' [items cnt] v H F. cbn [stk] in F. cbn [aact] in H. unfold apply. cbn [stk counter]. destruct F as [|s i st items Hi F].
  - injection H as <-. constructor; [cbn; eauto|constructor].
  - destruct (is_name s) eqn:N.
    + destruct s; try discriminate N; try discriminate H. injection H as <-. destruct Hi as [n ->]. constructor; [cbn; eauto|exact F].
    + pose proof (has_not_name tame s i Hi N) as X. assert (E : st' = ShName :: s :: st) by (destruct s; try discriminate N; injection H as <-; reflexivity). subst st'.
      destruct i; try contradiction X; (constructor; [cbn; eauto|constructor; [exact Hi|exact F]]).
Qed.
Lemma push_under : forall x l, under x = true -> forallb under l = true -> forallb under (push_into_set x l) = true.
Proof. intros x l Hx Hl. unfold push_into_set. destruct (existsb _ l); [exact Hl|]. rewrite forallb_app. cbn [forallb]. rewrite Hl, Hx. reflexivity. Qed.
Lemma body_re : forall q i, has tame (repeated q) i -> exists r, i = IRe r.
Proof. intros [] i H; [destruct H as (r & -> & _)|destruct H as (r & ->)]; eauto. Qed.
Lemma act_sound : forall a l st st' c v q, aact free basic tame quick a l st = Some st' -> Forall2 (has tame) st (stk c) -> known l (v :: q) -> (free = true -> turns (stk c)) ->
  match apply props a (Some v) c with Done c' => Forall2 (has tame) st' (stk c') | Reject => True | IllAct => False end.
Proof.
  intros a l st st' [items cnt] v q H F K T. cbn [stk] in F, T.
  destruct a; try exact (name_sound l st st' (mkCtx items cnt) v H F); cbn [aact] in H; try (destruct basic; [discriminate H|]); try (destruct tame; [discriminate H|]); unfold apply, push_cls, push, apply_mode; cbn [stk counter];
    try (injection H as <-; constructor; [|exact F]; cbn; eauto; eexists; split; [reflexivity|]; split; [discriminate|reflexivity]); try discriminate H.
  all: repeat match type of H with
    | (match ?x with [] => _ | _ :: _ => _ end) = _ => destruct x; try discriminate H
    end.
  all: repeat match goal with F : Forall2 (has _) (_ :: _) _ |- _ => inversion F; clear F; subst end.
  all: repeat match type of H with
    | (if ?b then _ else _) = _ => destruct b eqn:?; try discriminate H
    | (match ?x with _ => _ end) = _ => destruct x; try discriminate H
    end.
  all: repeat match goal with H : _ && _ = true |- _ => apply andb_true_iff in H as [? ?] end.
  all: repeat match goal with S : sub ?s ?t = true, J : has _ ?s _ |- _ => apply (sub_has _ s t _ S) in J; clear S end.
  all: repeat match goal with J : has _ (repeated _) _ |- _ => apply body_re in J end.
  all: cbn [has] in *.
  all: repeat match goal with K : exists _, _ |- _ => destruct K | K : _ /\ _ |- _ => destruct K end; subst.
  all: try (injection H as <-).
  all: try solve [constructor; [cbn; eauto|assumption] | constructor; [eexists; split; [reflexivity|]; split; [discriminate|reflexivity]|assumption] | assumption].
  all: repeat match goal with F : Forall2 (has _) (_ :: _) _ |- _ => inversion F; clear F; subst end; cbn [has] in *;
    repeat match goal with K : exists _, _ |- _ => destruct K | K : _ /\ _ |- _ => destruct K end; subst.
  all: repeat match goal with |- context [props ?x ?y] => destruct (props x y) end; try exact I.
  all: try solve [constructor; [cbn; eauto|assumption] | constructor; [eexists; split; [reflexivity|]; split; [discriminate|reflexivity]|assumption] | assumption].
  - constructor; [exists 0%N; split; [reflexivity|reflexivity]|exact F].
  - match goal with L : Nat.leb _ _ = true |- _ => apply Nat.leb_le in L end. rewrite (proj2 (N.ltb_lt _ _)); [|eapply pow_8; eassumption]. constructor; [cbn; eauto|assumption].
  - assert (T' : turns (IRe x0 :: ILook true x :: l'0)) by (apply T; first [reflexivity|assumption]). inversion T' as [|i' l2 T1 T2]; subst. destruct (rot_behind x0 T1) as [l2 ->].
    constructor; [eexists; split; [reflexivity|]; split; [discriminate|reflexivity]|assumption].
  - match goal with L : _ || _ = true |- _ => apply orb_true_iff in L as [L|L] end.
    + match goal with S : sub ?s ?t = true, J : has _ ?s _ |- _ => apply (sub_has _ s t _ S) in J; destruct J as [n ->] end. constructor; [eexists; split; [reflexivity|]; split; [discriminate|reflexivity]|assumption].
    + match goal with S : sub ?s ?t = true, J : has _ ?s _ |- _ => apply (sub_has _ s t _ S) in J; destruct J as [n ->] end. destruct (N.of_nat cnt <? n)%N; [exact I|].
      constructor; [eexists; split; [reflexivity|]; split; [discriminate|reflexivity]|assumption].
  - match goal with J : _ \/ _ |- _ => destruct J as [(a & b & l0 & ->)|(l0 & ->)] end; (constructor; [cbn; eauto|assumption]).
  - destruct (optional_atom x) as (a & b & l0 & E); [assumption|]. cbn [stk]. rewrite E. constructor; [cbn; eauto|assumption].
  - cbn [stk]. constructor; [|assumption]. destruct (optional_any x) as [(a & b & l0 & E)|(l0 & E)]; rewrite E; [left|right]; eauto.
  - destruct (N.of_nat cnt <? x)%N; [exact I|]. constructor; [eexists; split; [reflexivity|]; split; [discriminate|reflexivity]|assumption].
  - cbn [stk]. constructor; [|assumption]. eexists. split; [reflexivity|]. match goal with L : Nat.ltb _ _ = true |- _ => apply Nat.ltb_lt in L end. apply hex_next; try assumption.
    apply hex_small. destruct l as [|s0 l]; [discriminate|]. destruct K as (p & r & Ep & Fp). inversion Fp; subst. cbn in Ep. injection Ep as <- _.
    match goal with L : hexes _ = true |- _ => cbn [hexes] in L; rewrite forallb_forall in L; apply memb_in, L end. assumption.
  - cbn [stk]. constructor; [cbn; eauto|]. constructor; [cbn; eauto|assumption].
  - cbn [stk]. constructor; [cbn; eauto|]. constructor; [cbn; eauto|assumption].
  - cbn [stk]. constructor; [|assumption]. eexists. split; [reflexivity|]. intros E. apply push_under; auto.
  - cbn [stk]. constructor; [|assumption]. eexists. split; [reflexivity|]. intros E. cbn [forallb]. rewrite andb_true_r. auto.
Qed.

Lemma simple_act : forall a l st st' c v, aact false true true quick a l st = Some st' -> Forall2 (has true) st (stk c) -> Forall simple_item (stk c) ->
  match apply props a (Some v) c with Done c' => Forall2 (has true) st' (stk c') -> Forall simple_item (stk c') | _ => True end.
Proof.
  intros a l st st' [items cnt] v A F T. cbn [stk] in T, F.
  assert (P : forall i, simple_item i -> Forall simple_item (i :: items)) by (intros; constructor; assumption).
  assert (Q : forall x ts st0, Forall2 (has true) (ShSet :: st0) (IRe (RCls x) :: ts) -> Forall simple_item ts -> Forall simple_item (IRe (RCls x) :: ts)).
  { intros x ts st0 J K. constructor; [|exact K]. inversion J as [|s0 i0 l0 l1 J1 J2]; subst. destruct J1 as (y & Y1 & Y2). injection Y1 as ->. exact (Y2 eq_refl). }
  destruct a; try (cbn [aact] in A; discriminate A); cbn [apply]; unfold push_cls, push, apply_mode; cbn [stk counter]; try (intros _; apply P; exact eq_refl || exact I).
  all: try (cbn [aact] in A; destruct st as [|[] ?]; discriminate A).
  all: repeat match goal with |- context [match ?x with _ => _ end] => is_var x; destruct x; try exact I end; cbn [stk].
  all: repeat match goal with |- context [if ?b then _ else _] => destruct b; try exact I | |- context [props ?x ?y] => destruct (props x y); try exact I | |- context [behind_content ?x] => destruct (behind_content x); try exact I end; cbn [stk].
  all: intros R.
  all: repeat match goal with T : Forall _ (_ :: _) |- _ => inversion T; clear T; subst  end.
  all: try (apply P; exact I || exact eq_refl).
  all: try (constructor; [exact I || exact eq_refl|assumption]); try contradiction.
  all: try (assumption || (constructor; [first [exact I|exact eq_refl|apply simple_alternate; assumption|apply simple_sequence; assumption|apply simple_optional; assumption
      |cbn [simple_item simple]; rewrite ?simple_unwrap; assumption]|assumption])).
  all: cbn [aact] in A; repeat match type of A with
    | (match ?x with [] => _ | _ :: _ => _ end) = _ => destruct x; try discriminate A
    | (if ?b then _ else _) = _ => destruct b; try discriminate A
    | (match ?x with _ => _ end) = _ => destruct x; try discriminate A
    end; injection A as <-; apply (Q _ _ _ R); assumption.
Qed.

Lemma good_act : forall a l st st' c v, aact free basic tame true a l st = Some st' -> Forall2 (has tame) st (stk c) -> Forall good_item (stk c) -> (total (stk c) + 1 < size_mod)%N ->
  match apply props a (Some v) c with Done c' => Forall good_item (stk c') /\ (total (stk c') <= total (stk c) + 1)%N | _ => True end.
Proof.
  intros a l st st' [items cnt] v A F T S. cbn [stk] in T, F, S.
  assert (P : forall i, good_item i -> weight i = 0%N -> Forall good_item (i :: items) /\ (total (i :: items) <= total items + 1)%N).
  { intros i Hi Wi. split; [constructor; assumption|]. cbn [total]. lia. }
  assert (Q : forall k p q x ts st0, Forall2 (has tame) (ShAtom :: st0) (IRe x :: ts) -> Forall good_item (IRe x :: ts) ->
    Forall good_item (IRe (RRep k p q (unwrap x)) :: ts) /\ (total (IRe (RRep k p q (unwrap x)) :: ts) <= total (IRe x :: ts) + 1)%N).
  { intros k p q x ts st0 J K. inversion J as [|s0 i0 l0 l1 J1 J2]; subst. destruct J1 as (y & Y1 & _ & Y2). injection Y1 as <-. inversion K; subst. split.
    - constructor; [|assumption]. cbn [good_item terminating]. rewrite ends_unwrap, Y2, orb_true_r. assumption.
    - cbn [total weight]. rewrite opts_rep, Y2, sum_unwrap. lia. }
  destruct a; cbn [apply]; unfold push_cls, push, apply_mode; cbn [stk counter]; try (apply P; exact eq_refl || exact I).
  all: repeat match goal with |- context [match ?x with _ => _ end] => is_var x; destruct x; try exact I end; cbn [stk].
  all: repeat match goal with |- context [if ?b then _ else _] => destruct b; try exact I | |- context [props ?x ?y] => destruct (props x y); try exact I | |- context [behind_content ?x] => destruct (behind_content x); try exact I end; cbn [stk].
  all: try (apply P; exact eq_refl || exact I).
  all: try lazymatch goal with
    | |- Forall good_item (IRe (RRep Greedy _ _ (unwrap ?r)) :: ?ts) /\ _ =>
        cbn [aact repeated] in A;
        repeat match type of A with (match ?x with [] => _ | _ :: _ => _ end) = _ => destruct x; try discriminate A end;
        repeat match type of A with (if ?b then _ else _) = _ => destruct b eqn:?; try discriminate A end;
        repeat match goal with H : _ && _ = true |- _ => apply andb_true_iff in H as [? ?] end;
        repeat match goal with F : Forall2 _ (_ :: _) (_ :: _) |- _ => inversion F; clear F; subst end;
        repeat match goal with T : Forall good_item (INum _ :: _) |- _ => inversion T; clear T; subst end;
        cbn [total weight]; rewrite ?N.add_0_l;
        match goal with S : sub ?s ShAtom = true, J : has _ ?s (IRe r), K : Forall2 _ ?st0 ts |- _ =>
          exact (Q _ _ _ r ts st0 (Forall2_cons _ _ (sub_has _ s ShAtom _ S J) K) ltac:(assumption)) end
    end.
  all: repeat match goal with T : Forall good_item (_ :: _) |- _ => inversion T; clear T; subst end.
  all: cbn [total weight good_item] in *.
  all: try solve [split; [repeat (constructor; [first [exact I | reflexivity | assumption | cbn [good_item terminating]; rewrite ?ends_unwrap; assumption]|]); assumption
    | cbn [total weight]; rewrite ?opts_rep, ?opts_cap, ?opts_ncap, ?opts_ahead, ?opts_atomic, ?sum_unwrap in *; cbn [opts]; lia]].
  - destruct (good_alternate r r0) as [X Y]; try assumption. split; [constructor; assumption|lia].
  - destruct (good_optional r) as [X Y]; try assumption. split; [constructor; assumption|lia].
  - destruct (good_sequence r r0) as [X Y]; try assumption; [lia|]. split; [constructor; assumption|lia].
Qed.

End Acts.

(** * The types of the nonterminals *)
(** What must have been read, what must be on the stack; then the possible outcomes. *)
Record ntype := mkType { t_read : word; t_pre : list shape; t_posts : list (word * list shape) }.
Definition arrow (pre post : list shape) : ntype := mkType [] pre [([], post)].
Definition ch (s : string) : word := rev (letters s).
Section Table.
Variables free basic tame quick : bool.
Definition types (x : nt) : list ntype :=
  match x with
  | N_s | N_content_in_capture | N_content_or_empty | N_opt_content => [arrow [] [ShRe]]
  | N_a | N_content2 | N_string2 => [arrow [ShRe] [ShRe]]
  | N_b | N_n => [arrow [ShNum; repeated quick] [ShRe]]
  | N_number => [arrow [] [ShNum]]
  | N_number2 => [arrow [ShNum] [ShNum]]
  | N_backslash => [mkType (ch "\") [] [([], [ShAtom])]]
  | N_backslash_range => [mkType (ch "\") [] [([], [ShChar])]]
  | N_e | N_f => [mkType (ch "\") [] [([], [ShCls])]]
  | N_k => [mkType (ch "\u") [] [([], [ShChar])]]
  | N_l => [mkType (ch "\x") [] [([], [ShChar])]]
  | N_hexdec_repeat => map (fun k => mkType (repeat set12 k ++ [codes "{"; codes "xu"; codes "\"]) [ShHex k] [([], [ShHex 8])]) (seq 1 8)
  | N_m => if basic then [] else [mkType (ch "\g{") [] [([], [ShAtom])]]
  | N_block => [mkType (ch "(") [ShCap] [(ch ")", [ShRe])]]
  | N_d => [mkType (ch "(?") [ShCap] [(ch ")", [ShRe])]]
  | N_o => [mkType (ch "(?<") [ShCap] [(ch ")", [ShRe])]]
  | N_mode_switch2 => if free || tame then [] else [mkType (switches :: ch "(?") [ShRe] [(ch ")", [ShRe])]]
  | N_block_name => [arrow [ShCap] [ShId; ShCap]]
  | N_block_name2 => [arrow [ShId] [ShId]]
  | N_c => [arrow [] [ShAtom]]
  | N_class_named_name | N_g | N_h | N_p => [arrow [] [ShCls]]
  | N_i => [mkType (ch "[:") [] [(ch ":]", [ShCls])]]
  | N_j => [arrow [ShChar] [ShCls]]
  | N_range => [arrow [ShChar] [ShCls]; mkType (ch ":]") [ShCls] [([], [ShCls])]]
  | N_mod => [mkType [codes "*+?}"] [ShRep] [([], [ShRe])]; mkType (ch ")?") [ShOpt] [([], [ShRe])]]
  | N_repeat => [arrow [ShAtom] [ShRe]; mkType (ch ")") [ShRe] [([], [ShRe])]]
  | N_set2a => [arrow [] [ShSet]]
  | N_set2b => [arrow [ShSet] [ShSet]]
  | N_property_name => [mkType [] [] [([], [ShName]); ([], [ShValue; ShName])]]
  | N_property_name2 => [mkType [] [ShName] [([], [ShName]); ([], [ShValue; ShName])]]
  | N_property_value => [arrow [ShName] [ShValue; ShName]]
  | N_property_value2 => [arrow [ShValue; ShName] [ShValue; ShName]]
  end.

(** What is known of the next character. *)
Inductive look := LChar (c : Z) | LNone.
Definition read (k : look) (l : word) : word := match k with LChar c => [c] :: l | LNone => [] end.
Fixpoint split_at {A} (n : nat) (l : list A) : option (list A * list A) :=
  match n, l with O, _ => Some ([], l) | S n, x :: l => match split_at n l with Some (p, q) => Some (x :: p, q) | None => None end | S _, [] => None end.
Definition fitting (l : word) (st : list shape) (t : ntype) : option (list shape) :=
  match split_at (List.length (t_pre t)) st with
  | Some (p, r) => if covers (t_read t) l && subs p (t_pre t) && forallb (fun s => negb (is_name s)) r then Some r else None
  | None => None
  end.
Fixpoint choose (l : word) (st : list shape) (ts : list ntype) : option (ntype * list shape) :=
  match ts with [] => None | t :: ts => match fitting l st t with Some r => Some (t, r) | None => choose l st ts end end.
Definition posts_in (outs posts : list (word * list shape)) : bool :=
  forallb (fun o => existsb (fun p => covers (fst p) (fst o) && subs (snd o) (snd p)) posts) outs.
(** The possible outcomes of a string of symbols. *)
Fixpoint aexec (body : list sym) (k : look) (l : word) (st : list shape) : option (list (word * list shape)) :=
  match body with
  | [] => Some [(l, st)]
  | Act a :: b => match aact free basic tame quick a l st with Some st' => aexec b k l st' | None => None end
  | TTerm c :: b => aexec b LNone ([c] :: l) st
  | TAny :: b => aexec b LNone (read k l) st
  | TSet s :: b => aexec b LNone (s :: l) st
  | NT x :: b =>
      match choose l st (types x) with
      | Some (t, r) =>
          fold_right (fun p acc => match acc, aexec b LNone (fst p) (snd p ++ r) with Some o, Some o' => Some (o' ++ o) | _, _ => None end) (Some []) (t_posts t)
      | None => None
      end
  end.

(** * The check *)
Definition hazardous (l : word) (c : Z) : bool := existsb (fun w => match rev w with s :: w' => memb c s && covers w' l | [] => false end) (excluded free basic tame quick).
Definition body_ok (t : ntype) (k : look) (body : list sym) : bool :=
  match aexec body k (t_read t) (t_pre t) with Some outs => posts_in outs (t_posts t) | None => false end.
Definition rule_ok (t : ntype) (k : look) (r : rhs) : bool := match r with Push body => body_ok t k body | Rej => true end.
Definition ascii : list Z := map Z.of_nat (seq 0 128).
Definition type_ok (x : nt) (t : ntype) : bool :=
  forallb (fun c => hazardous (t_read t) c || rule_ok t (LChar c) (rule x (Some c))) ascii && rule_ok t LNone (rule x (Some 128%Z)) && rule_ok t LNone (rule x None).
End Table.
Lemma all_typed : forall free basic tame quick, forallb (fun x => forallb (type_ok free basic tame quick x) (types free basic tame quick x)) all_nt = true.
Proof. intros [] [] [] []; vm_compute; reflexivity. Qed.

Section Safety.
Variable props : list Z -> option (list Z) -> option (list (Z * Z)).
Variables free basic tame quick : bool.

(** * A typed parse *)
Definition no_names (fr : list shape) : bool := forallb (fun s => negb (is_name s)) fr.
Inductive typed : look -> list sym -> word -> list shape -> Prop :=
| ty_nil : forall k l s, sub s ShRe = true -> typed k [] l [s]
| ty_act : forall k a b l st st', aact free basic tame quick a l st = Some st' -> typed k b l st' -> typed k (Act a :: b) l st
| ty_term : forall k c b l st, typed LNone b ([c] :: l) st -> typed k (TTerm c :: b) l st
| ty_any : forall k b l st, typed LNone b (read k l) st -> typed k (TAny :: b) l st
| ty_set : forall k s b l st, typed LNone b (s :: l) st -> typed k (TSet s :: b) l st
| ty_nt : forall k x t b l st fr, In t (types free basic tame quick x) -> covers (t_read t) l = true -> subs st (t_pre t) = true -> no_names fr = true ->
    (forall p, In p (t_posts t) -> typed LNone b (fst p) (snd p ++ fr)) -> typed k (NT x :: b) l (st ++ fr)
| ty_sub : forall k b l l' st st' fr, covers l' l = true -> subs st st' = true -> typed k b l' (st' ++ fr) -> typed k b l (st ++ fr).

Lemma split_at_app : forall A n (l p q : list A), split_at n l = Some (p, q) -> l = p ++ q /\ List.length p = n.
Proof.
  intros A. induction n as [|n IH]; intros l p q H; cbn in H; [injection H as <- <-; split; reflexivity|]. destruct l as [|x l]; [discriminate H|].
  destruct (split_at n l) as [[p' q']|] eqn:E; [|discriminate H]. injection H as <- <-. destruct (IH _ _ _ E) as [-> <-]. split; reflexivity.
Qed.
Lemma choose_spec : forall l st ts t r, choose l st ts = Some (t, r) -> In t ts /\ exists p, st = p ++ r /\ covers (t_read t) l = true /\ subs p (t_pre t) = true /\ no_names r = true.
Proof.
  intros l st. induction ts as [|t0 ts IH]; intros t r H; [discriminate H|]. cbn [choose] in H. destruct (fitting l st t0) as [r0|] eqn:E.
  - injection H as <- <-. split; [left; reflexivity|]. unfold fitting in E. destruct (split_at _ st) as [[p q]|] eqn:E2; [|discriminate E].
    destruct (covers _ l && subs p _ && _) eqn:E3; [|discriminate E]. injection E as <-. apply andb_true_iff in E3 as [E3 E4]. apply andb_true_iff in E3 as [E3 E5].
    exists p. split; [exact (proj1 (split_at_app _ _ _ _ _ E2))|]. repeat split; assumption.
  - destruct (IH _ _ H) as [I J]. split; [right; exact I|exact J].
Qed.
Lemma no_names_app : forall a b, no_names (a ++ b) = no_names a && no_names b.
Proof. intros a b. unfold no_names. apply forallb_app. Qed.
Lemma aexec_sound : forall body k l st outs fr K, aexec free basic tame quick body k l st = Some outs -> no_names fr = true ->
  (forall o k, In o outs -> typed k K (fst o) (snd o ++ fr)) -> typed k (body ++ K) l (st ++ fr).
Proof.
  induction body as [|y body IH]; intros k l st outs fr K H F HK.
  - cbn in H. injection H as <-. exact (HK (l, st) k (or_introl eq_refl)).
  - destruct y as [x|a|c| |s]; cbn [aexec] in H; cbn [app].
    + destruct (choose l st (types free basic tame quick x)) as [[t r]|] eqn:E; [|discriminate H]. apply choose_spec in E as (I & p & -> & C & S & Nr).
      rewrite <- app_assoc. apply ty_nt with (t := t); try assumption; [rewrite no_names_app, Nr, F; reflexivity|].
      revert outs H HK. generalize (t_posts t). induction l0 as [|q l0 IHl]; intros outs H HK p0 J; [destruct J|]. cbn [fold_right] in H.
      destruct (fold_right _ (Some []) l0) as [o|] eqn:Eo; [|discriminate H]. destruct (aexec free basic tame quick body LNone (fst q) (snd q ++ r)) as [o'|] eqn:Eq; [|discriminate H]. injection H as <-.
      destruct J as [<-|J].
      * rewrite app_assoc. apply (IH _ _ _ o' fr K Eq F). intros x0 k0 J. apply HK. apply in_or_app. left. exact J.
      * apply (IHl o eq_refl); [|exact J]. intros x0 k0 J'. apply HK. apply in_or_app. right. exact J'.
    + destruct (aact free basic tame quick a l st) as [st'|] eqn:E; [|discriminate H]. apply ty_act with (st' := st' ++ fr); [apply (frame_act free basic tame quick); assumption|]. apply (IH _ _ _ outs); assumption.
    + apply ty_term. apply (IH _ _ _ outs); assumption.
    + apply ty_any. apply (IH _ _ _ outs); assumption.
    + apply ty_set. apply (IH _ _ _ outs); assumption.
Qed.
Lemma typed_known : forall k b l l' st, covers l' l = true -> typed k b l' st -> typed k b l st.
Proof. intros k b l l' st C H. exact (ty_sub k b l l' [] [] st C eq_refl H). Qed.
Lemma typed_look : forall k K l st, typed k K l st -> k = LNone -> forall k', typed k' K l st.
Proof.
  intros k K l st H. induction H as [k l s S|k a b l st st' A H IH|k c b l st H IH|k b l st H IH|k s b l st H IH|k x t b l st fr I C S F H IH|k b l l' st st' fr C S H IH]; intros E k'.
  - apply ty_nil, S.
  - eapply ty_act; [exact A|apply IH, E].
  - apply ty_term, H.
  - subst k. apply ty_any. eapply typed_known; [|exact H]. reflexivity.
  - apply ty_set, H.
  - eapply ty_nt; eassumption.
  - eapply ty_sub; [exact C|exact S|apply IH, E].
Qed.

(** Characters outside of ASCII are all alike. *)
Definition entry_ascii (e : tmatch * rhs) : bool := match fst e with MTerm d => memb d ascii | MSet s => forallb (fun d => memb d ascii) s | _ => true end.
Lemma table_ascii : forallb (fun x => forallb entry_ascii (rules x)) all_nt && forallb (fun d => memb d ascii) not_others = true.
Proof. vm_compute. reflexivity. Qed.
Lemma every_nt : forall x, In x all_nt.
Proof. intros x. destruct x; cbn [all_nt In]; repeat (first [left; reflexivity|right]). Qed.
Lemma memb_false : forall c s, ~ In c s -> memb c s = false.
Proof. intros c s H. destruct (memb c s) eqn:E; [exfalso; apply H, memb_in, E|reflexivity]. Qed.
Lemma not_ascii_mem : forall c s, ~ In c ascii -> forallb (fun d => memb d ascii) s = true -> mem c s = false.
Proof. intros c s H F. apply (memb_false c s). intros J. rewrite forallb_forall in F. apply H, memb_in, F, J. Qed.
Lemma other_rule : forall x c, ~ In c ascii -> rule x (Some c) = rule x (Some 128%Z).
Proof.
  intros x c H. assert (H8 : ~ In 128%Z ascii) by (vm_compute; intuition discriminate).
  pose proof table_ascii as T. apply andb_true_iff in T as [T1 T2]. rewrite forallb_forall in T1. specialize (T1 x (every_nt x)).
  assert (A : find_term c (rules x) = find_term 128 (rules x)).
  { induction (rules x) as [|[m r] l IH]; [reflexivity|]. cbn [forallb] in T1. apply andb_true_iff in T1 as [E T1]. cbn [find_term]. specialize (IH T1). destruct m as [d|s| |]; try exact IH.
    unfold entry_ascii in E. cbn [fst] in E. apply memb_in in E. destruct (Z.eqb_spec c d) as [->|D]; [contradiction|]. destruct (Z.eqb_spec 128 d) as [<-|D']; [contradiction|]. exact IH. }
  assert (B : find_set c (rules x) = find_set 128 (rules x)).
  { clear A. induction (rules x) as [|[m r] l IH]; [reflexivity|]. cbn [forallb] in T1. apply andb_true_iff in T1 as [E T1]. cbn [find_set]. specialize (IH T1). destruct m as [d|s| |]; try exact IH.
    - unfold entry_ascii in E. cbn [fst] in E. rewrite (not_ascii_mem c s H E), (not_ascii_mem 128 s H8 E). exact IH.
    - rewrite (not_ascii_mem c not_others H T2), (not_ascii_mem 128 not_others H8 T2). reflexivity. }
  unfold rule. rewrite A, B. reflexivity.
Qed.

(** * Safety *)
Definition safe (u : list Z) : Prop := forall w, In w (excluded free basic tame quick) -> ~ occurs w u.
Lemma forall2_rev : forall (p : list Z) (w : word), Forall2 (fun c s => In c s) p w -> Forall2 (fun c s => In c s) (rev p) (rev w).
Proof. intros p w H. induction H; [constructor|]. cbn [rev]. apply Forall2_app; [assumption|]. constructor; [assumption|constructor]. Qed.
Lemma hazard_occurs : forall l c before rest, hazardous free basic tame quick l c = true -> known l before -> safe (rev before ++ c :: rest) -> False.
Proof.
  intros l c before rest H K Hs. unfold hazardous in H. apply existsb_exists in H as (w & I & E). destruct (rev w) as [|s w'] eqn:Ew; [discriminate E|].
  apply andb_true_iff in E as [E1 E2]. destruct (covers_known _ _ _ E2 K) as (p & q & -> & F). apply (Hs w I).
  exists (rev q), (rev p ++ [c]), rest. split; [rewrite rev_app_distr, <- !app_assoc; reflexivity|].
  rewrite <- (rev_involutive w), Ew. cbn [rev]. apply Forall2_app; [apply forall2_rev, F|]. constructor; [apply memb_in, E1|constructor].
Qed.
Lemma body_typed : forall x t k body b l st fr, In t (types free basic tame quick x) -> body_ok free basic tame quick t k body = true -> covers (t_read t) l = true -> subs st (t_pre t) = true -> no_names fr = true ->
  (forall p, In p (t_posts t) -> typed LNone b (fst p) (snd p ++ fr)) -> typed k (body ++ b) l (st ++ fr).
Proof.
  intros x t k body b l st fr I B C S F H. apply ty_sub with (l' := t_read t) (st' := t_pre t); [exact C|exact S|]. unfold body_ok in B.
  destruct (aexec free basic tame quick body k (t_read t) (t_pre t)) as [outs|] eqn:E; [|discriminate B]. apply (aexec_sound _ _ _ _ outs); [exact E|exact F|].
  intros o k0 J. unfold posts_in in B. rewrite forallb_forall in B. specialize (B o J). apply existsb_exists in B as (p & P1 & P2). apply andb_true_iff in P2 as [P2 P3].
  apply ty_sub with (l' := fst p) (st' := snd p); [exact P2|exact P3|]. apply (typed_look LNone); [apply H, P1|reflexivity].
Qed.
Definition consistent (k : look) (rest : list Z) : Prop := match k with LChar c => hd_error rest = Some c | LNone => True end.
Lemma expand : forall x t b l st fr before rest body, In t (types free basic tame quick x) -> covers (t_read t) l = true -> subs st (t_pre t) = true -> no_names fr = true ->
  (forall p, In p (t_posts t) -> typed LNone b (fst p) (snd p ++ fr)) -> known l before -> safe (rev before ++ rest) -> rule x (hd_error rest) = Push body ->
  exists k, consistent k rest /\ typed k (body ++ b) l (st ++ fr).
Proof.
  intros x t b l st fr before rest body I C S F H K Hs R. pose proof (all_typed free basic tame quick) as T. rewrite forallb_forall in T. specialize (T x (every_nt x)). rewrite forallb_forall in T. specialize (T t I).
  unfold type_ok in T. apply andb_true_iff in T as [T T3]. apply andb_true_iff in T as [T1 T2]. destruct rest as [|c rest]; cbn [hd_error] in R.
  - exists LNone. split; [exact I0 || exact Logic.I|]. rewrite R in T3. eapply body_typed; eassumption.
  - destruct (in_dec Z.eq_dec c ascii) as [Ha|Ha].
    + rewrite forallb_forall in T1. specialize (T1 c Ha). apply orb_true_iff in T1 as [T1|T1].
      * exfalso. exact (hazard_occurs _ c before rest T1 (covers_known _ _ _ C K) Hs).
      * exists (LChar c). split; [reflexivity|]. rewrite R in T1. eapply body_typed; eassumption.
    + exists LNone. split; [exact Logic.I|]. rewrite (other_rule x c Ha) in R. rewrite R in T2. eapply body_typed; eassumption.
Qed.
Definition terminal (y : sym) : bool := match y with TTerm _ | TAny | TSet _ => true | _ => false end.
Definition fine (B : Prop) (p : parsed) : Prop :=
  match p with PIll => False | PAccept c => exists r t, stk c = IRe r :: t /\ (free = false -> basic = true -> plain r = true) /\ (free = false -> basic = true -> tame = true -> simple r = true) /\ (quick = true -> B -> terminating r = true) | _ => True end.
Lemma run_fine : forall (B : Prop) n k K l st, typed k K l st -> forall before rest c, consistent k rest -> known l before -> Forall2 (has tame) st (stk c) ->
  before <> [] \/ match K with y :: _ => terminal y = true | [] => False end -> safe (rev before ++ rest) -> (free = true -> turns (stk c)) ->
  (free = false -> basic = true -> Forall plain_item (stk c)) -> (free = false -> basic = true -> tame = true -> Forall simple_item (stk c)) ->
  (quick = true -> B -> Forall good_item (stk c) /\ (total (stk c) + N.of_nat n < size_mod)%N) -> fine B (run props n (hd_error before) rest K c).
Proof.
  intros B. induction n as [|n IHn]; [intros; exact I|]. intros k K l st H. induction H as [k l s S|k a b l st st' A H _|k x b l st H _|k b l st H _|k s b l st H _|k x t b l st fr It C S F H _|k b l l' st st' fr C S H IH];
    intros before rest c Hk Hl Hst Hb Hs Ht Hp Hi Hq; cbn [run];
    assert (Hq' : quick = true -> B -> Forall good_item (stk c) /\ (total (stk c) + N.of_nat n < size_mod)%N) by (intros Eq Bq; destruct (Hq Eq Bq); split; [assumption|lia]).
  - destruct rest; [|exact I]. cbn [fine]. inversion Hst as [|s0 i st0 items J1 J2 E1 E2]; subst. inversion J2; subst. destruct (re_has tame s i S J1) as [r ->]. exists r, []. split; [congruence|].
    match goal with E : _ = stk c |- _ => rewrite <- E in Hp, Hi, Hq end. split; [intros E3 E4; specialize (Hp E3 E4); inversion Hp; assumption|]. split; [intros E3 E4 E5; specialize (Hi E3 E4 E5); inversion Hi; assumption|].
    intros E3 E4. destruct (Hq E3 E4) as [Hq1 _]. inversion Hq1; assumption.
  - destruct before as [|v q]; [destruct Hb as [Hb|Hb]; [congruence|discriminate Hb]|]. cbn [hd_error]. pose proof (act_sound props free basic tame quick a l st st' c v q A Hst Hl Ht) as X.
    assert (Y : free = true -> match apply props a (Some v) c with Done c' => turns (stk c') | _ => True end).
    { intros Ef. apply (turns_act props); [|apply Ht, Ef]. destruct a; try reflexivity; exfalso; cbn [aact] in A; rewrite Ef in A; destruct st as [|[] ?]; discriminate A. }
    assert (W : free = false -> basic = true -> match apply props a (Some v) c with Done c' => Forall plain_item (stk c') | _ => True end).
    { intros Ef Eb. apply (plain_act props); [|apply Hp; assumption]. destruct a; try reflexivity; exfalso; cbn [aact] in A; rewrite Ef in A || rewrite Eb in A; discriminate A. }
    assert (V : free = false -> basic = true -> tame = true -> match apply props a (Some v) c with Done c' => Forall simple_item (stk c') | _ => True end).
    { intros Ef Eb Et. specialize (Hi Ef Eb Et). rewrite Ef, Eb, Et in A. rewrite Et in Hst. pose proof (simple_act props quick a l st st' c v A Hst Hi) as D. rewrite Et in X. destruct (apply props a (Some v) c); [exact (D X)|exact I|exact I]. }
    assert (U : quick = true -> B -> match apply props a (Some v) c with Done c' => Forall good_item (stk c') /\ (total (stk c') + N.of_nat n < size_mod)%N | _ => True end).
    { intros Eq Bq. destruct (Hq Eq Bq) as [Q1 Q2]. rewrite Eq in A. pose proof (good_act props free basic tame a l st st' c v A Hst Q1 ltac:(lia)) as D.
      destruct (apply props a (Some v) c); [destruct D; split; [assumption|lia]|exact I|exact I]. }
    destruct (apply props a (Some v) c) as [c'| |]; [|exact I|exact X].
    apply (IHn k b l st' H (v :: q) rest c'); try assumption. left. discriminate.
  - destruct rest as [|v rest]; [exact I|]. cbn [term_matches]. destruct (Z.eqb_spec v x) as [->|]; [|exact I].
    apply (IHn LNone b ([x] :: l) st H (x :: before) rest c); [exact I| |exact Hst|left; discriminate| |exact Ht|exact Hp|exact Hi|exact Hq'].
    + destruct Hl as (p & q & -> & Fp). exists (x :: p), q. split; [reflexivity|]. constructor; [left; reflexivity|exact Fp].
    + cbn [rev]. rewrite <- app_assoc. exact Hs.
  - destruct rest as [|v rest]; [exact I|]. cbn [term_matches]. apply (IHn LNone b (read k l) st H (v :: before) rest c); [exact I| |exact Hst|left; discriminate| |exact Ht|exact Hp|exact Hi|exact Hq'].
    + destruct k as [y|]; cbn [read]; [|exists [], (v :: before); split; [reflexivity|constructor]]. cbn in Hk. injection Hk as ->.
      destruct Hl as (p & q & -> & Fp). exists (y :: p), q. split; [reflexivity|]. constructor; [left; reflexivity|exact Fp].
    + cbn [rev]. rewrite <- app_assoc. exact Hs.
  - destruct rest as [|v rest]; [exact I|]. cbn [term_matches]. destruct (mem v s) eqn:E; [|exact I].
    apply (IHn LNone b (s :: l) st H (v :: before) rest c); [exact I| |exact Hst|left; discriminate| |exact Ht|exact Hp|exact Hi|exact Hq'].
    + destruct Hl as (p & q & -> & Fp). exists (v :: p), q. split; [reflexivity|]. constructor; [apply memb_in, E|exact Fp].
    + cbn [rev]. rewrite <- app_assoc. exact Hs.
  - destruct (rule x (hd_error rest)) as [body|] eqn:R; [|exact I].
    destruct Hb as [Hb|Hb]; [|discriminate Hb].
    destruct (expand x t b l st fr before rest body It C S F H Hl Hs R) as (k' & C' & T'). apply (IHn k' _ l (st ++ fr) T'); try assumption. left. exact Hb.
  - apply Forall2_app_inv_l in Hst as (i1 & i2 & J1 & J2 & E). apply (IH before rest c); try assumption; [eapply covers_known; eassumption|].
    rewrite E. apply Forall2_app; [eapply subs_has; eassumption|exact J2].
Qed.
Lemma first_terminal : forall c body, rule N_s (Some c) = Push body -> exists b, body = TAny :: b.
Proof.
  intros c body H. destruct (in_dec Z.eq_dec c ascii) as [J|J].
  - assert (T : forallb (fun d => match rule N_s (Some d) with Push (TAny :: _) | Rej => true | _ => false end) ascii = true) by (vm_compute; reflexivity).
    rewrite forallb_forall in T. specialize (T c J). rewrite H in T. destruct body as [|[] b]; try discriminate T. eauto.
  - rewrite (other_rule N_s c J) in H. vm_compute in H. injection H as <-. eauto.
Qed.
Theorem no_hard_error : forall u, safe u ->
  (exists r, compile props u = CRegex r /\ (free = false -> basic = true -> plain r = true) /\ (free = false -> basic = true -> tame = true -> simple r = true) /\
    (quick = true -> (N.of_nat (parse_fuel u) < size_mod)%N -> terminating r = true)) \/ compile props u = CReject.
Proof.
  intros u Hs. assert (G : fine (N.of_nat (parse_fuel u) < size_mod)%N (parse_ctx props u)).
  { unfold parse_ctx. set (B := (N.of_nat (parse_fuel u) < size_mod)%N). assert (HB : B -> (N.of_nat (parse_fuel u) < size_mod)%N) by exact (fun x => x). clearbody B. destruct (parse_fuel u) as [|n]; [exact I|]. cbn [run].
    destruct u as [|c u].
    - cbn [hd_error]. destruct n as [|n]; [exact I|]. cbn [rule rules find_eps app run apply stk counter]. destruct n as [|n]; [exact I|]. cbn [run fine stk]. exists REmpty, []. split; [reflexivity|]. split; [|split]; intros; reflexivity.
    - destruct (rule N_s (hd_error (c :: u))) as [body|] eqn:R; [|exact I]. cbn [hd_error] in R. destruct (first_terminal c body R) as [b ->].
      destruct (expand N_s (arrow [] [ShRe]) [] [] [] [] [] (c :: u) (TAny :: b)) as (k & C & T); try reflexivity.
      + left. reflexivity.
      + intros p [<-|[]]. apply ty_nil. reflexivity.
      + exists [], []. split; [reflexivity|constructor].
      + exact Hs.
      + exact R.
      + apply (run_fine B n k _ [] [] T [] (c :: u) (mkCtx [] 0) C); [exists [], []; split; [reflexivity|constructor]|constructor|right; reflexivity|exact Hs|intros _; constructor|intros _ _; constructor|intros _ _ _; constructor|intros _ Bq; split; [constructor|specialize (HB Bq); cbn [stk total]; lia]]. }
  pose proof (parse_total props u) as TT. unfold compile. destruct (parse_ctx props u) as [c| | |] eqn:E; cbn [fine] in G.
  - destruct G as (r & t & -> & P). left. eauto.
  - right. reflexivity.
  - destruct G.
  - exfalso. destruct (TT _ (le_n _)) as (x & X1 & _ & X2). congruence.
Qed.
End Safety.
