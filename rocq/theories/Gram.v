(** The grammar in pcre.gram and the table in pcre.hpp: the texts that the table reads are the texts of the
    grammar, and the semantic actions are performed in the order of the grammar. *)
From Coq Require Import List ZArith NArith Bool Lia Arith.
From Verif Require Import Chars Syntax Grammar GramFile Actions Parser ParserProofs ErrorPos.
Import ListNotations.
Local Open Scope Z_scope.

(** * Specification: what the grammar generates *)
(** A sentence with the actions in their places. *)
Inductive event := EChar (c : Z) | EAct (a : action).
Definition stands (X : gsym) (c : Z) : bool :=
  match X with GT l => mem c l | GOther => negb (mem c mentioned) | _ => false end.
Inductive gen : list gsym -> list event -> Prop :=
| gen_end : gen [] []
| gen_char : forall X k c t, stands X c = true -> gen k t -> gen (X :: k) (EChar c :: t)
| gen_act : forall a k t, gen k t -> gen (GAct a :: k) (EAct a :: t)
| gen_prod : forall n p k t, In p (prods n) -> gen (p ++ k) t -> gen (GN n :: k) t.
Definition chars (t : list event) : list Z := flat_map (fun e => match e with EChar c => [c] | EAct _ => [] end) t.
(** The sentences of pcre.gram. *)
Definition sentence (t : list event) : Prop := gen [GN G_S] t.

(** The actions of a sentence, one after the other; each sees the last character before it. *)
Section Perform.
Variable props : list Z -> option (list Z) -> option (list (Z * Z)).
Fixpoint perform (prev : option Z) (t : list event) (c : ctx) : act_res :=
  match t with
  | [] => Done c
  | EChar ch :: t => perform (Some ch) t c
  | EAct a :: t => match apply props a prev c with Done c' => perform prev t c' | x => x end
  end.
End Perform.

(** * Leftmost expansion *)
Definition acts (l : list action) : list event := map EAct l.
Definition ocat {A B} (f : A -> option (list B)) (l : list A) : option (list B) :=
  fold_right (fun x r => match f x, r with Some a, Some b => Some (a ++ b) | _, _ => None end) (Some []) l.
Lemma ocat_in : forall A B (f : A -> option (list B)) l L, ocat f l = Some L ->
  forall y, In y L <-> exists x M, In x l /\ f x = Some M /\ In y M.
Proof.
  induction l as [|x l IH]; intros L H y; cbn [ocat fold_right] in H.
  - injection H as <-. split; [intros []|intros (x & M & [] & _)].
  - fold (ocat f l) in H. destruct (f x) as [a|] eqn:E1; [|discriminate]. destruct (ocat f l) as [b|] eqn:E2; [|discriminate].
    injection H as <-. rewrite in_app_iff, (IH b eq_refl). split.
    + intros [H|(x' & M & H1 & H2 & H3)]; [exists x, a|exists x', M]; cbn; auto.
    + intros (x' & M & [<-|H1] & H2 & H3); [left; congruence|right; eauto].
Qed.
Lemma ocat_some : forall A B (f : A -> option (list B)) l L x, ocat f l = Some L -> In x l -> exists M, f x = Some M.
Proof.
  induction l as [|y l IH]; intros L x H I; [destruct I|]. cbn [ocat fold_right] in H. fold (ocat f l) in H.
  destruct (f y) as [a|] eqn:E1; [|discriminate]. destruct (ocat f l) as [b|] eqn:E2; [|discriminate].
  destruct I as [<-|I]; eauto.
Qed.

(** What comes before the first character [c], and what is left after it. *)
Fixpoint heads (n : nat) (c : Z) (k : list gsym) : option (list (list action * list gsym)) :=
  match n with
  | O => None
  | S n =>
      match k with
      | [] => Some []
      | GAct a :: k => option_map (map (fun x => (a :: fst x, snd x))) (heads n c k)
      | GN x :: k => ocat (fun p => heads n c (p ++ k)) (prods x)
      | X :: k => Some (if stands X c then [([], k)] else [])
      end
  end.
(** The sentences without characters. *)
Fixpoint nulls (n : nat) (k : list gsym) : option (list (list action)) :=
  match n with
  | O => None
  | S n =>
      match k with
      | [] => Some [[]]
      | GAct a :: k => option_map (map (cons a)) (nulls n k)
      | GN x :: k => ocat (fun p => nulls n (p ++ k)) (prods x)
      | _ :: k => Some []
      end
  end.

Lemma heads_sound : forall n c k L, heads n c k = Some L -> forall l b, In (l, b) L -> forall t, gen b t -> gen k (acts l ++ EChar c :: t).
Proof.
  induction n as [|n IH]; intros c k L H l b I t G; [discriminate|]. cbn [heads] in H. destruct k as [|X k]; [injection H as <-; destruct I|].
  assert (T : Some (if stands X c then [([], k)] else []) = Some L -> gen (X :: k) (acts l ++ EChar c :: t)).
  { intros E. destruct (stands X c) eqn:S; injection E as <-; [|destruct I]. destruct I as [E|[]]. injection E as <- <-. cbn. constructor; assumption. }
  destruct X as [s| |a|x]; try (apply T; exact H).
  - destruct (heads n c k) as [M|] eqn:E; [|discriminate]. injection H as <-. apply in_map_iff in I as ([l' b'] & E' & I).
    cbn in E'. injection E' as <- <-. cbn. constructor. exact (IH _ _ _ E _ _ I _ G).
  - rewrite (ocat_in _ _ _ _ _ H) in I. destruct I as (p & M & I1 & I2 & I3). apply gen_prod with p; [exact I1|]. exact (IH _ _ _ I2 _ _ I3 _ G).
Qed.
Lemma heads_complete : forall n c k L, heads n c k = Some L -> forall l t, gen k (acts l ++ EChar c :: t) -> exists b, In (l, b) L /\ gen b t.
Proof.
  induction n as [|n IH]; intros c k L H l t G; [discriminate|]. cbn [heads] in H. destruct k as [|X k]; [inversion G; destruct l; discriminate|].
  destruct X as [s| |a|x].
  - inversion G as [|X' k' c' t' S G'| |]; subst. destruct l; [|discriminate]. injection H2 as -> ->. rewrite S in H. injection H as <-.
    exists k. split; [left; reflexivity|assumption].
  - inversion G as [|X' k' c' t' S G'| |]; subst. destruct l; [|discriminate]. injection H2 as -> ->. rewrite S in H. injection H as <-.
    exists k. split; [left; reflexivity|assumption].
  - inversion G as [|X' k' c' t' S G'|a' k' t' G'|]; subst; [discriminate|]. destruct l as [|a' l]; [discriminate|]. injection H2 as -> ->.
    destruct (heads n c k) as [M|] eqn:E; [|discriminate]. injection H as <-. destruct (IH _ _ _ E _ _ G') as (b & I & Gb).
    exists b. split; [|exact Gb]. apply in_map_iff. exists (l, b). auto.
  - inversion G as [|X' k' c' t' S G'| |x' p k' t' I G']; subst; [discriminate|]. destruct (ocat_some _ _ _ _ _ _ H I) as (M & E).
    destruct (IH _ _ _ E _ _ G') as (b & Ib & Gb). exists b. split; [|exact Gb]. rewrite (ocat_in _ _ _ _ _ H). eauto.
Qed.
Lemma nulls_sound : forall n k L, nulls n k = Some L -> forall l, In l L -> gen k (acts l).
Proof.
  induction n as [|n IH]; intros k L H l I; [discriminate|]. cbn [nulls] in H. destruct k as [|X k].
  { injection H as <-. destruct I as [<-|[]]. constructor. }
  destruct X as [s| |a|x]; try (injection H as <-; destruct I).
  - destruct (nulls n k) as [M|] eqn:E; [|discriminate]. injection H as <-. apply in_map_iff in I as (l' & <- & I). cbn. constructor. exact (IH _ _ E _ I).
  - rewrite (ocat_in _ _ _ _ _ H) in I. destruct I as (p & M & I1 & I2 & I3). apply gen_prod with p; [exact I1|]. exact (IH _ _ I2 _ I3).
Qed.
Lemma nulls_complete : forall n k L, nulls n k = Some L -> forall l, gen k (acts l) -> In l L.
Proof.
  induction n as [|n IH]; intros k L H l G; [discriminate|]. cbn [nulls] in H. destruct k as [|X k].
  { inversion G. destruct l; [|discriminate]. injection H as <-. left. reflexivity. }
  destruct X as [s| |a|x].
  - inversion G; subst; destruct l; discriminate.
  - inversion G; subst; destruct l; discriminate.
  - inversion G as [|X' k' c' t' S G'|a' k' t' G'|]; subst; [discriminate|]. destruct l as [|a' l]; [discriminate|]. injection H2 as -> ->.
    destruct (nulls n k) as [M|] eqn:E; [|discriminate]. injection H as <-. apply in_map. exact (IH _ _ E _ G').
  - inversion G as [|X' k' c' t' S G'| |x' p k' t' I G']; subst; [discriminate|]. destruct (ocat_some _ _ _ _ _ _ H I) as (M & E).
    rewrite (ocat_in _ _ _ _ _ H). exists p, M. split; [exact I|]. split; [exact E|]. exact (IH _ _ E _ G').
Qed.
(** Every list of events is one or the other. *)
Lemma split_events : forall t, (exists l, t = acts l) \/ (exists l c u, t = acts l ++ EChar c :: u).
Proof.
  induction t as [|[c|a] t [(l & ->)|(l & c' & u & ->)]]; [left; exists []; reflexivity|..].
  - right. exists [], c, (acts l). reflexivity.
  - right. exists [], c, (acts l ++ EChar c' :: u). reflexivity.
  - left. exists (a :: l). reflexivity.
  - right. exists (a :: l), c', u. reflexivity.
Qed.
Lemma gen_app : forall k t, gen k t -> forall k' t', gen k' t' -> gen (k ++ k') (t ++ t').
Proof.
  intros k t G. induction G; intros k' t' G'; cbn [app]; [exact G'|constructor; auto|constructor; auto|].
  apply gen_prod with p; [assumption|]. rewrite app_assoc. auto.
Qed.
Lemma gen_split : forall k k' t, gen (k ++ k') t -> exists t1 t2, t = t1 ++ t2 /\ gen k t1 /\ gen k' t2.
Proof.
  intros k k' t G. remember (k ++ k') as K eqn:E. revert k E. induction G as [|X K c t S G IH|a K t G IH|n p K t I G IH]; intros k E.
  - destruct k; [|discriminate]. cbn in E. subst. exists [], []. repeat split; constructor.
  - destruct k as [|Y k]; cbn in E.
    + subst. exists [], (EChar c :: t). repeat split; [constructor|]. constructor; assumption.
    + injection E as <- ->. destruct (IH k eq_refl) as (t1 & t2 & -> & G1 & G2). exists (EChar c :: t1), t2. repeat split; [constructor|]; assumption.
  - destruct k as [|Y k]; cbn in E.
    + subst. exists [], (EAct a :: t). repeat split; [constructor|]. constructor; assumption.
    + injection E as <- ->. destruct (IH k eq_refl) as (t1 & t2 & -> & G1 & G2). exists (EAct a :: t1), t2. repeat split; [constructor|]; assumption.
  - destruct k as [|Y k]; cbn in E.
    + subst. exists [], t. repeat split; [constructor|]. apply gen_prod with p; assumption.
    + injection E as <- ->. destruct (IH (p ++ k)) as (t1 & t2 & -> & G1 & G2); [rewrite app_assoc; reflexivity|].
      exists t1, t2. repeat split; [|assumption]. apply gen_prod with p; assumption.
Qed.

(** * What the nonterminals of the table stand for *)
(** The generator factored common beginnings out, so some nonterminals of the table stand for the rests of several
    productions. *)
Definition rests (n : gnt) (drop : nat) : list (list gsym) := map (skipn drop) (prods n).
Definition after (c : Z) (l : list (list gsym)) : list (list gsym) :=
  flat_map (fun k => match k with GT [d] :: k => if c =? d then [k] else [] | _ => [] end) l.
Definition denotes (x : nt) : list (list gsym) :=
  match x with
  | N_a => after 124 (prods G_content2)
  | N_b => map (skipn 1) (after 123 (prods G_repeat))
  | N_backslash => [[GN G_backslash]]
  | N_backslash_range => [[GN G_backslash_range]]
  | N_block => [[GN G_block]]
  | N_block_name2 => [[GN G_block_name2]]
  | N_block_name => [[GN G_block_name]]
  | N_c => after 91 (prods G_character_class)
  | N_class_named_name => [[GN G_class_named_name]]
  | N_content2 => [[GN G_content2]]
  | N_content_in_capture => [[GN G_content_in_capture]]
  | N_content_or_empty => [[GN G_content_or_empty]]
  | N_d => after 63 (prods G_block)
  | N_e => after 92 (prods G_setitem)
  | N_f => after 92 (prods G_setitem2)
  | N_g => after 97 (prods G_class_named_name)
  | N_h => after 112 (prods G_class_named_name)
  | N_hexdec_repeat => [[GN G_hexdec_repeat]]
  | N_i => after 58 (after 91 (prods G_class_named))
  | N_j => after 45 (prods G_range)
  | N_k => after 117 (prods G_backslash_range)
  | N_l => after 120 (prods G_backslash_range)
  | N_m => after 123 (after 103 (prods G_backslash))
  | N_mod => [[GN G_mod]]
  | N_mode_switch2 => [[GN G_mode_switch2]]
  | N_n => after 44 (map (skipn 1) (after 123 (prods G_repeat)))
  | N_number2 => [[GN G_number2]]
  | N_number => [[GN G_number]]
  | N_o => after 60 (after 63 (prods G_block))
  | N_opt_content => [[GN G_opt_content]]
  | N_p => after 108 (after 97 (prods G_class_named_name))
  | N_property_name2 => [[GN G_property_name2]]
  | N_property_name => [[GN G_property_name]]
  | N_property_value2 => [[GN G_property_value2]]
  | N_property_value => [[GN G_property_value]]
  | N_range => [[GN G_range]]
  | N_repeat => [[GN G_repeat]]
  | N_s => [[GN G_S]]
  | N_set2a => [[GN G_set2a]]
  | N_set2b => [[GN G_set2b]]
  | N_string2 => [[GN G_string2]]
  end.
Definition means (x : nt) (t : list event) : Prop := exists k, In k (denotes x) /\ gen k t.
Fixpoint covers (st : list sym) (t : list event) : Prop :=
  match st with
  | [] => t = []
  | NT x :: st => exists t1 t2, t = t1 ++ t2 /\ means x t1 /\ covers st t2
  | Act a :: st => exists u, t = EAct a :: u /\ covers st u
  | s :: st => exists c u, t = EChar c :: u /\ term_matches s c = true /\ covers st u
  end.
Lemma covers_app : forall a b t, covers (a ++ b) t <-> exists t1 t2, t = t1 ++ t2 /\ covers a t1 /\ covers b t2.
Proof.
  induction a as [|s a IH]; intros b t.
  { cbn. split; [intros H; exists [], t; auto|]. intros (t1 & t2 & -> & -> & H). exact H. }
  assert (T : forall P : Z -> Prop, (exists c u, t = EChar c :: u /\ P c /\ covers (a ++ b) u) <->
    exists t1 t2, t = t1 ++ t2 /\ (exists c u, t1 = EChar c :: u /\ P c /\ covers a u) /\ covers b t2).
  { intros P. split.
    - intros (c & u & -> & Hc & H). apply IH in H as (t1 & t2 & -> & H1 & H2). exists (EChar c :: t1), t2. cbn. eauto 8.
    - intros (t1 & t2 & -> & (c & u & -> & Hc & H1) & H2). exists c, (u ++ t2). cbn. repeat split; auto. apply IH. eauto. }
  destruct s as [x|x|d| |l]; cbn [app covers]; try apply T.
  - split.
    + intros (t1 & t2 & -> & H1 & H). apply IH in H as (t3 & t4 & -> & H3 & H4). exists (t1 ++ t3), t4. rewrite app_assoc. eauto 8.
    + intros (t1 & t2 & -> & (t3 & t4 & -> & H3 & H4) & H2). exists t3, (t4 ++ t2). rewrite app_assoc. repeat split; auto. apply IH. eauto.
  - split.
    + intros (u & -> & H). apply IH in H as (t1 & t2 & -> & H1 & H2). exists (EAct x :: t1), t2. cbn. eauto 8.
    + intros (t1 & t2 & -> & (u & -> & H1) & H2). exists (u ++ t2). split; [reflexivity|]. apply IH. eauto.
Qed.

(** The same as sentential forms; not with [TAny]. *)
Fixpoint forms (st : list sym) : option (list (list gsym)) :=
  match st with
  | [] => Some [[]]
  | NT x :: st => option_map (fun L => flat_map (fun k => map (app k) L) (denotes x)) (forms st)
  | Act a :: st => option_map (map (cons (GAct a))) (forms st)
  | TTerm d :: st => option_map (map (cons (GT [d]))) (forms st)
  | TSet l :: st => option_map (map (cons (GT l))) (forms st)
  | TAny :: _ => None
  end.
Lemma forms_covers : forall st L, forms st = Some L -> forall t, covers st t <-> exists k, In k L /\ gen k t.
Proof.
  induction st as [|s st IH]; intros L H t; cbn [forms] in H.
  { injection H as <-. cbn. split; [intros ->; exists []; split; [auto|constructor]|]. intros (k & [<-|[]] & G). inversion G. reflexivity. }
  assert (T : forall l M, forms st = Some M -> L = map (cons (GT l)) M ->
    (exists c u, t = EChar c :: u /\ mem c l = true /\ covers st u) <-> exists k, In k L /\ gen k t).
  { intros l M E ->. split.
    - intros (c & u & -> & Hc & H1). apply (IH _ E) in H1 as (k & I & G). exists (GT l :: k). split; [apply in_map; exact I|constructor; assumption].
    - intros (k & I & G). apply in_map_iff in I as (k' & <- & I). inversion G as [|X k1 c u S G'| |]; subst. exists c, u.
      repeat split; [exact S|]. apply (IH _ E). eauto. }
  destruct s as [x|a|d| |l]; [..|discriminate|]; destruct (forms st) as [M|] eqn:E; try discriminate; injection H as <-; cbn [covers].
  - split.
    + intros (t1 & t2 & -> & (k & I & G) & H). apply (IH _ eq_refl) in H as (k' & I' & G'). exists (k ++ k'). split.
      * apply in_flat_map. exists k. split; [exact I|]. apply in_map. exact I'.
      * apply gen_app; assumption.
    + intros (k & I & G). apply in_flat_map in I as (k1 & I1 & I2). apply in_map_iff in I2 as (k2 & <- & I2).
      apply gen_split in G as (t1 & t2 & -> & G1 & G2). exists t1, t2. split; [reflexivity|]. split; [exists k1; auto|]. apply (IH _ eq_refl). eauto.
  - split.
    + intros (u & -> & H). apply (IH _ eq_refl) in H as (k & I & G). exists (GAct a :: k). split; [apply in_map; exact I|constructor; exact G].
    + intros (k & I & G). apply in_map_iff in I as (k' & <- & I). inversion G as [|X k1 c u S G'|a' k1 u G'|]; subst; [discriminate|].
      exists u. split; [reflexivity|]. apply (IH _ eq_refl). eauto.
  - rewrite <- (T [d] M eq_refl eq_refl). cbn [term_matches mem existsb]. split; intros (c & u & H1 & H2 & H3); exists c, u; repeat split; auto.
    + rewrite H2. reflexivity.
    + rewrite orb_false_r in H2. exact H2.
  - exact (T l M eq_refl eq_refl).
Qed.

Definition depth : nat := 24.
Fixpoint theads (c : Z) (st : list sym) : option (list (list action * list gsym)) :=
  match st with
  | Act a :: st => option_map (map (fun x => (a :: fst x, snd x))) (theads c st)
  | TAny :: st => option_map (map (fun k => ([], k))) (forms st)
  | _ => match forms st with Some L => ocat (heads depth c) L | None => None end
  end.
Fixpoint tnulls (st : list sym) : option (list (list action)) :=
  match st with
  | Act a :: st => option_map (map (cons a)) (tnulls st)
  | TAny :: st => Some []
  | _ => match forms st with Some L => ocat (nulls depth) L | None => None end
  end.
Lemma ocat_heads : forall c K L, ocat (heads depth c) K = Some L -> forall l t,
  (exists k, In k K /\ gen k (acts l ++ EChar c :: t)) <-> exists b, In (l, b) L /\ gen b t.
Proof.
  intros c K L H l t. split.
  - intros (k & I & G). destruct (ocat_some _ _ _ _ _ _ H I) as (M & E). destruct (heads_complete _ _ _ _ E _ _ G) as (b & Ib & Gb).
    exists b. split; [|exact Gb]. rewrite (ocat_in _ _ _ _ _ H). eauto.
  - intros (b & I & G). rewrite (ocat_in _ _ _ _ _ H) in I. destruct I as (k & M & I & E & Ib). exists k. split; [exact I|].
    exact (heads_sound _ _ _ _ E _ _ Ib _ G).
Qed.
Lemma ocat_nulls : forall K L, ocat (nulls depth) K = Some L -> forall l, (exists k, In k K /\ gen k (acts l)) <-> In l L.
Proof.
  intros K L H l. rewrite (ocat_in _ _ _ _ _ H). split.
  - intros (k & I & G). destruct (ocat_some _ _ _ _ _ _ H I) as (M & E). exists k, M. repeat split; auto. exact (nulls_complete _ _ _ E _ G).
  - intros (k & M & I & E & Ib). exists k. split; [exact I|]. exact (nulls_sound _ _ _ E _ Ib).
Qed.
Lemma theads_covers : forall c st L, theads c st = Some L -> forall l t,
  covers st (acts l ++ EChar c :: t) <-> exists b, In (l, b) L /\ gen b t.
Proof.
  intros c. induction st as [|s st IH]; intros L H l t.
  { injection H as <-. split; [cbn; intros E; destruct l; discriminate|]. intros (b & [] & _). }
  assert (T : match forms (s :: st) with Some L => ocat (heads depth c) L | None => None end = Some L ->
    covers (s :: st) (acts l ++ EChar c :: t) <-> exists b, In (l, b) L /\ gen b t).
  { intros E. destruct (forms (s :: st)) as [K|] eqn:F; [|discriminate]. rewrite (forms_covers _ _ F). exact (ocat_heads _ _ _ E l t). }
  destruct s as [x|a|d| |s]; try (apply T; exact H); clear T; cbn [theads] in H.
  - destruct (theads c st) as [M|]; [|discriminate]. injection H as <-. specialize (IH _ eq_refl). cbn [covers]. split.
    + intros (u & E & H). destruct l as [|a' l]; [discriminate|]. injection E as -> <-. apply IH in H as (b & I & G). exists b. split; [|exact G].
      apply in_map_iff. exists (l, b). auto.
    + intros (b & I & G). apply in_map_iff in I as ([l' b'] & E & I). cbn in E. injection E as <- <-. exists (acts l' ++ EChar c :: t).
      split; [reflexivity|]. apply IH. eauto.
  - destruct (forms st) as [M|] eqn:F; [|discriminate]. injection H as <-. cbn [covers term_matches]. split.
    + intros (d & u & E & _ & H). destruct l as [|a' l]; [|discriminate]. injection E as -> ->. apply (forms_covers _ _ F) in H as (k & I & G).
      exists k. split; [|exact G]. apply in_map_iff. eauto.
    + intros (b & I & G). apply in_map_iff in I as (k & E & I). injection E as <- <-. exists c, t. repeat split. apply (forms_covers _ _ F). eauto.
Qed.
Lemma tnulls_covers : forall st L, tnulls st = Some L -> forall l, covers st (acts l) <-> In l L.
Proof.
  induction st as [|s st IH]; intros L H l.
  { injection H as <-. cbn. split; [intros E; left; destruct l; [reflexivity|discriminate]|]. intros [<-|[]]. reflexivity. }
  assert (T : match forms (s :: st) with Some L => ocat (nulls depth) L | None => None end = Some L -> covers (s :: st) (acts l) <-> In l L).
  { intros E. destruct (forms (s :: st)) as [K|] eqn:F; [|discriminate]. rewrite (forms_covers _ _ F). exact (ocat_nulls _ _ E l). }
  destruct s as [x|a|d| |s]; try (apply T; exact H); clear T; cbn [tnulls] in H.
  - destruct (tnulls st) as [M|]; [|discriminate]. injection H as <-. specialize (IH _ eq_refl). cbn [covers]. split.
    + intros (u & E & H). destruct l as [|a' l]; [discriminate|]. injection E as -> <-. apply in_map. apply IH. exact H.
    + intros I. apply in_map_iff in I as (l' & <- & I). exists (acts l'). split; [reflexivity|]. apply IH. exact I.
  - injection H as <-. cbn [covers]. split; [|intros []]. intros (d & u & E & _). destruct l; discriminate.
Qed.

(** * Characters that the grammar does not tell apart *)
Definition norm (c : Z) : Z := if mem c not_others then c else 32.
Definition known (l : list Z) : bool := forallb (fun c => mem c not_others) l.
Lemma mentioned_others : forall c, mem c mentioned = mem c not_others.
Proof.
  intros c. assert (A : forallb (fun d => mem d not_others) mentioned = true) by (vm_compute; reflexivity).
  assert (B : forallb (fun d => mem d mentioned) not_others = true) by (vm_compute; reflexivity).
  rewrite forallb_forall in A, B. destruct (mem c mentioned) eqn:E1, (mem c not_others) eqn:E2; auto; exfalso.
  - apply mem_in in E1. apply A in E1. congruence.
  - apply mem_in in E2. apply B in E2. congruence.
Qed.
Lemma known_norm : forall l c, known l = true -> mem c l = mem (norm c) l.
Proof.
  intros l c H. unfold norm. destruct (mem c not_others) eqn:E; [reflexivity|]. unfold known in H. rewrite forallb_forall in H.
  assert (X : forall d, mem d not_others = false -> mem d l = false).
  { intros d Hd. destruct (mem d l) eqn:Ed; [|reflexivity]. apply mem_in, H in Ed. congruence. }
  rewrite !X; auto.
Qed.
Definition known_sym (X : gsym) : bool := match X with GT l => known l | _ => true end.
Lemma norm_not : forall c, mem (norm c) not_others = mem c not_others.
Proof. intros c. unfold norm. destruct (mem c not_others) eqn:E; [exact E|reflexivity]. Qed.
Lemma stands_norm : forall X c, known_sym X = true -> stands X c = stands X (norm c).
Proof.
  intros [l| |a|n] c H; cbn [stands known_sym] in *; [apply known_norm; exact H| |reflexivity|reflexivity].
  rewrite !mentioned_others, norm_not. reflexivity.
Qed.
Lemma prods_known : forall n p, In p (prods n) -> forallb known_sym p = true.
Proof.
  intros n p. assert (H : forallb (forallb known_sym) (prods n) = true) by (destruct n; vm_compute; reflexivity).
  rewrite forallb_forall in H. apply H.
Qed.
Lemma ocat_ext : forall A B (f g : A -> option (list B)) l, (forall x, In x l -> f x = g x) -> ocat f l = ocat g l.
Proof.
  induction l as [|x l IH]; intros H; [reflexivity|]. cbn [ocat fold_right]. fold (ocat f l). fold (ocat g l).
  rewrite IH by (intros; apply H; right; assumption). rewrite (H x) by (left; reflexivity). reflexivity.
Qed.
Lemma heads_norm : forall n c k, forallb known_sym k = true -> heads n c k = heads n (norm c) k.
Proof.
  induction n as [|n IH]; intros c k H; [reflexivity|]. cbn [heads]. destruct k as [|X k]; [reflexivity|].
  cbn [forallb] in H. apply andb_true_iff in H as [HX H]. rewrite (stands_norm X c HX). destruct X as [l| |a|x]; try reflexivity.
  - rewrite (IH c k H). reflexivity.
  - apply ocat_ext. intros p I. apply IH. rewrite forallb_app, (prods_known _ _ I), H. reflexivity.
Qed.
Lemma denotes_known : forall x k, In k (denotes x) -> forallb known_sym k = true.
Proof.
  intros x k. assert (H : forallb (forallb known_sym) (denotes x) = true) by (destruct x; vm_compute; reflexivity).
  rewrite forallb_forall in H. apply H.
Qed.
Definition known_t (s : sym) : bool := match s with TTerm d => known [d] | TSet l => known l | _ => true end.
Lemma forms_known : forall st L, forms st = Some L -> forallb known_t st = true -> forall k, In k L -> forallb known_sym k = true.
Proof.
  induction st as [|s st IH]; intros L H K k I; cbn [forms] in H.
  { injection H as <-. destruct I as [<-|[]]. reflexivity. }
  cbn [forallb] in K. apply andb_true_iff in K as [Ks K].
  destruct s as [x|a|d| |l]; [..|discriminate|]; destruct (forms st) as [M|] eqn:E; try discriminate; injection H as <-.
  - apply in_flat_map in I as (k1 & I1 & I2). apply in_map_iff in I2 as (k2 & <- & I2). rewrite forallb_app, (denotes_known _ _ I1). exact (IH _ eq_refl K _ I2).
  - apply in_map_iff in I as (k2 & <- & I2). exact (IH _ eq_refl K _ I2).
  - apply in_map_iff in I as (k2 & <- & I2). cbn [forallb]. rewrite (IH _ eq_refl K _ I2), andb_true_r. exact Ks.
  - apply in_map_iff in I as (k2 & <- & I2). cbn [forallb]. rewrite (IH _ eq_refl K _ I2), andb_true_r. exact Ks.
Qed.
Lemma theads_norm : forall c st, forallb known_t st = true -> theads c st = theads (norm c) st.
Proof.
  intros c. induction st as [|s st IH]; intros K; [reflexivity|].
  assert (T : match forms (s :: st) with Some L => ocat (heads depth c) L | None => None end =
    match forms (s :: st) with Some L => ocat (heads depth (norm c)) L | None => None end).
  { destruct (forms (s :: st)) as [L|] eqn:F; [|reflexivity]. apply ocat_ext. intros k I. apply heads_norm. exact (forms_known _ _ F K _ I). }
  destruct s as [x|a|d| |l]; try exact T; [|reflexivity]. cbn [theads]. rewrite IH; [reflexivity|]. apply andb_true_iff in K. apply K.
Qed.
Definition known_rule (e : tmatch * rhs) : bool :=
  match fst e with MTerm d => known [d] | MSet l => known l | _ => true end &&
  match snd e with Push l => forallb known_t l | Rej => true end.
Lemma rules_known : forall x e, In e (rules x) -> known_rule e = true.
Proof.
  intros x e. assert (H : forallb known_rule (rules x) = true).
  { revert x. apply (by_nt (fun x => forallb known_rule (rules x))). vm_compute. reflexivity. }
  rewrite forallb_forall in H. apply H.
Qed.
Lemma rule_norm : forall x c, rule x (Some c) = rule x (Some (norm c)).
Proof.
  intros x c. unfold rule. pose proof (rules_known x) as K. revert K. generalize (rules x). intros R K.
  assert (A : find_term c R = find_term (norm c) R).
  { induction R as [|[m r] R IH]; [reflexivity|]. cbn [find_term]. rewrite IH by (intros; apply K; right; assumption).
    destruct m; try reflexivity. specialize (K _ (or_introl eq_refl)). apply andb_true_iff in K as [K _].
    pose proof (known_norm _ c K) as E. cbn [mem existsb fst] in E. rewrite !orb_false_r in E. rewrite E. reflexivity. }
  assert (B : find_set c R = find_set (norm c) R).
  { clear A. induction R as [|[m r] R IH]; [reflexivity|]. cbn [find_set]. rewrite IH by (intros; apply K; right; assumption).
    destruct m; try reflexivity.
    - specialize (K _ (or_introl eq_refl)). apply andb_true_iff in K as [K _]. rewrite (known_norm _ c K). reflexivity.
    - rewrite norm_not. reflexivity. }
  rewrite A, B. reflexivity.
Qed.

(** * The table against the grammar *)
Definition act_eq : forall a b : action, {a = b} + {a <> b}.
Proof. decide equality. Defined.
Definition gsym_eq : forall a b : gsym, {a = b} + {a <> b}.
Proof. decide equality; [apply list_eq_dec; apply Z.eq_dec|apply act_eq|decide equality]. Defined.
Definition head_eq : forall a b : list action * list gsym, {a = b} + {a <> b}.
Proof. decide equality; apply list_eq_dec; [apply gsym_eq|apply act_eq]. Defined.
Definition inclb {A} (eq : forall a b : A, {a = b} + {a <> b}) (l m : list A) : bool :=
  forallb (fun x => if in_dec eq x m then true else false) l.
Lemma inclb_in : forall A eq (l m : list A), inclb eq l m = true -> forall x, In x l -> In x m.
Proof. intros A eq l m H x I. unfold inclb in H. rewrite forallb_forall in H. specialize (H x I). destruct (in_dec eq x m); [assumption|discriminate]. Qed.
Definition empty {A} (o : option (list A)) : bool := match o with Some [] => true | _ => false end.

(** What may come after a nonterminal of the table: a character that the grammar tells apart (32 for the others), or
    the end. *)
Definition looks : list (option Z) := None :: map Some (32 :: not_others).
Definition look_eq : forall a b : option Z, {a = b} + {a <> b}.
Proof. decide equality. apply Z.eq_dec. Defined.
Definition nt_eq : forall a b : nt, {a = b} + {a <> b}.
Proof. decide equality. Defined.
Fixpoint tails (l : list sym) : list (nt * list sym) :=
  match l with [] => [] | NT y :: l => (y, l) :: tails l | _ :: l => tails l end.
Definition first_look (l : list sym) : list (option Z) :=
  filter (fun la => match la with Some c => negb (empty (theads c l)) | None => false end) looks.
Definition get (T : list (nt * list (option Z))) (x : nt) : list (option Z) :=
  match find (fun e => if nt_eq (fst e) x then true else false) T with Some e => snd e | None => [] end.
Definition pushes (x : nt) : list (list sym) :=
  flat_map (fun e => match snd e with Push l => [l] | Rej => [] end) (rules x).
Definition links : list (nt * (nt * (list (option Z) * bool))) :=
  Eval vm_compute in
  flat_map (fun x => flat_map (fun l => map (fun p => (x, (fst p, (first_look (snd p), negb (empty (tnulls (snd p))))))) (tails l)) (pushes x)) all_nt.
Definition grow (T : list (nt * list (option Z))) : list (nt * list (option Z)) :=
  map (fun y => (y, filter (fun la => if in_dec look_eq la
    ((if nt_eq y N_s then [None] else []) ++ get T y ++
     flat_map (fun e : nt * (nt * (list (option Z) * bool)) =>
       if nt_eq y (fst (snd e)) then fst (snd (snd e)) ++ (if snd (snd (snd e)) then get T (fst e) else []) else []) links)
    then true else false) looks)) all_nt.
Definition fol_table : list (nt * list (option Z)) := Eval vm_compute in Nat.iter 12 grow [].
Definition fol (x : nt) (la : option Z) : bool := if in_dec look_eq la (get fol_table x) then true else false.

Definition table_ok (x : nt) (la : option Z) : bool :=
  match ocat (nulls depth) (denotes x) with
  | None => false
  | Some U =>
      match rule x la with
      | Push l =>
          match tnulls l with
          | None => false
          | Some U' =>
              inclb (list_eq_dec act_eq) U' U && (negb (fol x la) || inclb (list_eq_dec act_eq) U U') &&
              match la with
              | None => true
              | Some c =>
                  match ocat (heads depth c) (denotes x), theads c l with
                  | Some H, Some H' => inclb head_eq H H' && inclb head_eq H' H
                  | _, _ => false
                  end
              end
          end
      | Rej =>
          (negb (fol x la) || match U with [] => true | _ => false end) &&
          match la with None => true | Some c => empty (ocat (heads depth c) (denotes x)) end
      end
  end.
Definition follow_ok (x : nt) (l : list sym) : bool :=
  forallb (fun p =>
    forallb (fun la => match la with Some c => empty (theads c (snd p)) || fol (fst p) la | None => true end) looks &&
    (empty (tnulls (snd p)) || forallb (fun la => negb (fol x la) || fol (fst p) la) looks) &&
    match forms (snd p) with Some _ => true | None => false end) (tails l).
Lemma table_checked : forall x la, In la looks -> table_ok x la = true.
Proof.
  intros x la I. assert (H : forallb (table_ok x) looks = true).
  { revert x. apply (by_nt (fun x => forallb (table_ok x) looks)). vm_compute. reflexivity. }
  rewrite forallb_forall in H. apply H. exact I.
Qed.
Lemma follow_checked : forall x l, In l (pushes x) -> follow_ok x l = true.
Proof.
  intros x. assert (H : forallb (follow_ok x) (pushes x) = true).
  { revert x. apply (by_nt (fun x => forallb (follow_ok x) (pushes x))). vm_compute. reflexivity. }
  rewrite forallb_forall in H. exact H.
Qed.
Definition look (t : list event) : option Z := option_map norm (hd_error (chars t)).
Lemma look_looks : forall o, In (option_map norm o) looks.
Proof.
  intros [c|]; [|left; reflexivity]. right. cbn [option_map]. apply in_map. unfold norm. destruct (mem c not_others) eqn:E; [|left; reflexivity].
  right. apply mem_in. exact E.
Qed.
Lemma rule_look : forall x o, rule x (option_map norm o) = rule x o.
Proof. intros x [c|]; [|reflexivity]. symmetry. apply rule_norm. Qed.
Lemma rule_pushes : forall x o l, rule x o = Push l -> In l (pushes x) /\ forallb known_t l = true.
Proof.
  intros x o l H. destruct (rule_in _ _ _ H) as (m & I & _). split.
  - apply in_flat_map. exists (m, Push l). split; [exact I|left; reflexivity].
  - pose proof (rules_known _ _ I) as K. apply andb_true_iff in K as [_ K]. exact K.
Qed.
Lemma chars_app : forall a b, chars (a ++ b) = chars a ++ chars b.
Proof. intros. apply flat_map_app. Qed.
Lemma chars_acts : forall l, chars (acts l) = [].
Proof. induction l; [reflexivity|assumption]. Qed.
Lemma hd_acts : forall l c u, hd_error (chars (acts l ++ EChar c :: u)) = Some c.
Proof. intros. rewrite chars_app, chars_acts. reflexivity. Qed.
Lemma ocat_norm : forall x c, ocat (heads depth (norm c)) (denotes x) = ocat (heads depth c) (denotes x).
Proof. intros x c. apply ocat_ext. intros k I. symmetry. apply heads_norm. exact (denotes_known _ _ I). Qed.

(** What a right-hand side covers, the nonterminal means. *)
Lemma rule_sound : forall x o l t, rule x o = Push l -> covers l t -> (chars t <> [] -> hd_error (chars t) = o) -> means x t.
Proof.
  intros x o l t R C D. pose proof (table_checked x _ (look_looks o)) as K. unfold table_ok in K. rewrite rule_look, R in K.
  destruct (ocat (nulls depth) (denotes x)) as [U|] eqn:EU; [|discriminate]. destruct (tnulls l) as [U'|] eqn:EU'; [|discriminate].
  apply andb_true_iff in K as [K KH]. apply andb_true_iff in K as [KU _].
  destruct (split_events t) as [(a & ->)|(a & c & u & ->)].
  - apply (tnulls_covers _ _ EU') in C. apply (inclb_in _ _ _ _ KU) in C. apply (ocat_nulls _ _ EU) in C. exact C.
  - rewrite hd_acts in D. assert (E : o = Some c). { symmetry. apply D. rewrite chars_app, chars_acts. discriminate. } subst o.
    cbn [option_map] in KH. rewrite ocat_norm in KH. rewrite <- (theads_norm c l) in KH by (exact (proj2 (rule_pushes _ _ _ R))).
    destruct (ocat (heads depth c) (denotes x)) as [H|] eqn:EH; [|discriminate]. destruct (theads c l) as [H'|] eqn:EH'; [|discriminate].
    apply andb_true_iff in KH as [_ KH]. apply (theads_covers _ _ _ EH') in C as (b & I & G). apply (inclb_in _ _ _ _ KH) in I.
    apply (ocat_heads _ _ _ EH). eauto.
Qed.
(** What the nonterminal means, the right-hand side chosen by the table covers. *)
Lemma rule_complete : forall x t r, means x t -> (chars t = [] -> fol x (look r) = true) ->
  exists l, rule x (hd_error (chars (t ++ r))) = Push l /\ covers l t.
Proof.
  intros x t r M D. set (o := hd_error (chars (t ++ r))).
  pose proof (table_checked x _ (look_looks o)) as K. unfold table_ok in K. rewrite rule_look in K.
  destruct (ocat (nulls depth) (denotes x)) as [U|] eqn:EU; [|discriminate].
  destruct (split_events t) as [(a & ->)|(a & c & u & ->)].
  - rewrite chars_acts in D. specialize (D eq_refl). unfold o in *. rewrite chars_app, chars_acts in *. cbn [app] in *. fold (look r) in K. rewrite D in K.
    assert (I : In a U) by (apply (ocat_nulls _ _ EU); exact M).
    destruct (rule x (hd_error (chars r))) as [l|].
    + exists l. split; [reflexivity|]. destruct (tnulls l) as [U'|] eqn:EU'; [|discriminate].
      apply andb_true_iff in K as [K _]. apply andb_true_iff in K as [_ K]. cbn [negb orb] in K.
      apply (tnulls_covers _ _ EU'). exact (inclb_in _ _ _ _ K _ I).
    + apply andb_true_iff in K as [K _]. destruct U; [destruct I|discriminate].
  - assert (Eo : o = Some c). { unfold o. rewrite <- app_assoc. apply hd_acts. } clearbody o. subst o. cbn [option_map] in K. rewrite ocat_norm in K.
    destruct (rule x (Some c)) as [l|] eqn:R.
    + exists l. split; [reflexivity|]. destruct (tnulls l); [|discriminate]. apply andb_true_iff in K as [_ K].
      rewrite <- (theads_norm c l) in K by (exact (proj2 (rule_pushes _ _ _ R))).
      destruct (ocat (heads depth c) (denotes x)) as [H|] eqn:EH; [|discriminate]. destruct (theads c l) as [H'|] eqn:EH'; [|discriminate].
      apply andb_true_iff in K as [K _]. apply (ocat_heads _ _ _ EH) in M as (b & I & G). apply (inclb_in _ _ _ _ K) in I.
      apply (theads_covers _ _ _ EH'). eauto.
    + apply andb_true_iff in K as [_ K]. destruct (ocat (heads depth c) (denotes x)) as [[|y H]|] eqn:EH; try discriminate.
      apply (ocat_heads _ _ _ EH) in M as (b & [] & _).
Qed.

(** * The run of the table *)
(** What a stack reads and performs; [shaped] in ErrorPos.v with the actions. *)
Inductive traced : list sym -> list event -> Prop :=
| tr_end : traced [] []
| tr_act : forall a st t, traced st t -> traced (Act a :: st) (EAct a :: t)
| tr_nt : forall x l st t, rule x (hd_error (chars t)) = Push l -> traced (l ++ st) t -> traced (NT x :: st) t
| tr_term : forall s st c t, term_matches s c = true -> traced st t -> traced (s :: st) (EChar c :: t).
Lemma covers_term : forall s st t, (forall x, s <> NT x) -> (forall a, s <> Act a) ->
  covers (s :: st) t <-> exists c u, t = EChar c :: u /\ term_matches s c = true /\ covers st u.
Proof. intros [x|a|d| |l] st t H1 H2; [destruct (H1 x eq_refl)|destruct (H2 a eq_refl)|reflexivity..]. Qed.
Lemma term_kind : forall s c, term_matches s c = true -> (forall x, s <> NT x) /\ (forall a, s <> Act a).
Proof. intros [x|a|d| |l] c H; try discriminate; split; discriminate. Qed.
Lemma traced_covers : forall st t, traced st t -> covers st t.
Proof.
  intros st t T. induction T as [|a st t T IH|x l st t R T IH|s st c t M T IH].
  - reflexivity.
  - exists t. auto.
  - apply covers_app in IH as (t1 & t2 & -> & H1 & H2). exists t1, t2. split; [reflexivity|]. split; [|exact H2].
    apply (rule_sound _ _ _ _ R H1). intros N. rewrite chars_app. destruct (chars t1); [destruct (N eq_refl)|reflexivity].
  - destruct (term_kind _ _ M) as [K1 K2]. apply covers_term; auto. exists c, t. auto.
Qed.
(** Whatever the rest of the stack covers may follow the nonterminal before it. *)
Fixpoint orderly (st : list sym) : Prop :=
  match st with
  | [] => True
  | s :: st => match s with NT x => forall t, covers st t -> fol x (look t) = true | _ => True end /\ orderly st
  end.
Lemma orderly_push : forall x l st, In l (pushes x) -> forallb known_t l = true ->
  (forall t, covers st t -> fol x (look t) = true) -> orderly st -> orderly (l ++ st).
Proof.
  intros x l st I K F O. pose proof (follow_checked _ _ I) as C. unfold follow_ok in C. clear I.
  induction l as [|s l IH]; [exact O|]. cbn [forallb] in K. apply andb_true_iff in K as [_ K].
  cbn [app orderly]. destruct s as [y|a|d| |s]; cbn [tails forallb] in C; try (split; [exact I|apply IH; assumption]).
  apply andb_true_iff in C as [C0 C]. split; [|apply IH; assumption]. clear IH C. cbn [fst snd] in C0.
  apply andb_true_iff in C0 as [C0 _]. apply andb_true_iff in C0 as [C1 C2]. intros t H. apply covers_app in H as (t1 & t2 & -> & H1 & H2).
  destruct (split_events t1) as [(a & ->)|(a & c & u & ->)].
  - unfold look. rewrite chars_app, chars_acts. cbn [app]. fold (look t2). specialize (F _ H2).
    destruct (tnulls l) as [[|e U]|] eqn:EU; cbn [empty orb] in C2.
    + apply (tnulls_covers _ _ EU) in H1. destruct H1.
    + rewrite forallb_forall in C2. specialize (C2 _ (look_looks (hd_error (chars t2)))). fold (look t2) in C2. rewrite F in C2. exact C2.
    + rewrite forallb_forall in C2. specialize (C2 _ (look_looks (hd_error (chars t2)))). fold (look t2) in C2. rewrite F in C2. exact C2.
  - rewrite forallb_forall in C1. specialize (C1 _ (look_looks (Some c))). cbn [option_map] in C1. rewrite <- theads_norm in C1 by exact K.
    unfold look. rewrite <- app_assoc. cbn [app]. rewrite hd_acts. cbn [option_map]. destruct (theads c l) as [[|e U]|] eqn:E; cbn [empty orb] in C1; try exact C1.
    apply (theads_covers _ _ _ E) in H1 as (b & [] & _).
Qed.
Lemma left_nt : forall x l st w, rule x (hd_error w) = Push l -> (left (length w) (l ++ st) < left (length w) (NT x :: st))%nat.
Proof.
  intros x l st input E. destruct (rule_in _ _ _ E) as (m & I & V). apply all_ranked in I. unfold rule_ranked in I.
  unfold left. rewrite weights_app. cbn [reads]. unfold weights at 3. cbn [map list_sum fold_right weight].
  change (fold_right Nat.add 0%nat (map weight st)) with (weights st).
  destruct (reads l) eqn:R.
  - rewrite (reads_app _ st R). apply andb_true_iff in I as [I M]. apply Nat.ltb_lt in I.
    destruct input as [|ch rest]; [unfold viable in V; cbn in V; destruct m; try contradiction; discriminate|].
    cbn [length pred] in *. lia.
  - apply Nat.ltb_lt in I. destruct (reads (l ++ st)); destruct (length input); cbn [pred]; lia.
Qed.
Lemma covers_traced : forall n st t, (left (length (chars t)) st <= n)%nat -> orderly st -> covers st t -> traced st t.
Proof.
  induction n as [|n IH]; intros st t L O C; [unfold left in L; lia|].
  destruct st as [|s st]; [cbn in C; subst; constructor|]. cbn [orderly] in O. destruct O as [O1 O].
  assert (T : (forall x, s <> NT x) -> (forall a, s <> Act a) -> weight s = 1%nat -> reads (s :: st) = true -> traced (s :: st) t).
  { intros K1 K2 Wt Rt. apply covers_term in C as (c & u & -> & M & C); auto. apply tr_term; [exact M|]. apply IH; auto.
    unfold left in *. rewrite Rt in L. unfold weights in *. cbn [map list_sum fold_right chars flat_map app length pred] in L. fold (chars u) in L.
    change (fold_right Nat.add 0%nat (map weight st)) with (list_sum (map weight st)) in L. rewrite Wt in L. destruct (reads st); lia. }
  destruct s as [x|a|d| |l]; try (apply T; try discriminate; reflexivity); clear T.
  - cbn [covers] in C. destruct C as (t1 & t2 & -> & M & C).
    destruct (rule_complete x t1 t2 M (fun _ => O1 _ C)) as (l & R & Cl). apply tr_nt with l; [exact R|]. apply IH.
    + pose proof (left_nt _ _ st _ R). lia.
    + destruct (rule_pushes _ _ _ R). apply orderly_push with x; auto.
    + apply covers_app. eauto.
  - cbn [covers] in C. destruct C as (u & -> & C). constructor. apply IH; auto.
    unfold left in *. cbn [reads chars flat_map app] in L. fold (chars u) in L. unfold weights in *. cbn [map list_sum fold_right weight] in L.
    change (fold_right Nat.add 0%nat (map weight st)) with (list_sum (map weight st)) in L. lia.
Qed.
Lemma means_s : forall t, means N_s t <-> sentence t.
Proof. intros t. unfold means, sentence. cbn [denotes]. split; [intros (k & [<-|[]] & H); exact H|]. intros H. exists [GN G_S]. split; [left; reflexivity|exact H]. Qed.
Theorem traced_sentence : forall t, traced [NT N_s] t <-> sentence t.
Proof.
  intros t. rewrite <- means_s. split.
  - intros H. apply traced_covers in H. cbn [covers] in H. destruct H as (t1 & t2 & -> & H & ->). rewrite app_nil_r. exact H.
  - intros H. apply covers_traced with (left (length (chars t)) [NT N_s]); [lia| |].
    + cbn [orderly]. split; [|exact I]. intros u ->. vm_compute. reflexivity.
    + cbn [covers]. exists t, []. rewrite app_nil_r. auto.
Qed.
Lemma traced_unique : forall st t, traced st t -> forall u, traced st u -> chars t = chars u -> t = u.
Proof.
  intros st t T. induction T as [|a st t T IH|x l st t R T IH|s st c t M T IH]; intros u H E.
  - inversion H. reflexivity.
  - inversion H as [|a' st' u' H'| |s st' c u' M' H']; subst; [|discriminate]. f_equal. apply IH; assumption.
  - inversion H as [| |x' l' st' u' R' H'|s st' c u' M' H']; subst; [|discriminate]. rewrite E in R. rewrite R in R'. injection R' as <-. apply IH; assumption.
  - inversion H as [|a' st' u' H'|x' l' st' u' R' H'|s' st' c' u' M' H']; subst; try discriminate. injection E as -> E. f_equal. apply IH; assumption.
Qed.
Lemma shaped_traced : forall st w, shaped st w <-> exists t, traced st t /\ chars t = w.
Proof.
  intros st w. split.
  - intros H. induction H as [|a st w H (t & IH & E)|x l st w R H (t & IH & E)|d st c w M H (t & IH & E)|st c w H (t & IH & E)|l st c w M H (t & IH & E)].
    + exists []. split; [constructor|reflexivity].
    + exists (EAct a :: t). split; [constructor; exact IH|exact E].
    + exists t. split; [|exact E]. apply tr_nt with l; [rewrite E; exact R|exact IH].
    + exists (EChar c :: t). split; [constructor; assumption|]. cbn. f_equal. exact E.
    + exists (EChar c :: t). split; [constructor; [reflexivity|assumption]|]. cbn. f_equal. exact E.
    + exists (EChar c :: t). split; [constructor; assumption|]. cbn. f_equal. exact E.
  - intros (t & H & <-). induction H as [|a st t T IH|x l st t R T IH|s st c t M T IH]; cbn [chars flat_map app]; try fold (chars t).
    + constructor.
    + constructor. exact IH.
    + apply sh_nt with l; assumption.
    + destruct s; try discriminate; constructor; assumption.
Qed.
Theorem shaped_sentence : forall w, well_shaped w <-> exists t, sentence t /\ chars t = w.
Proof.
  intros w. unfold well_shaped. rewrite shaped_traced. split; intros (t & H & E); exists t; (split; [apply traced_sentence; exact H|exact E]).
Qed.
Theorem sentence_unique : forall t u, sentence t -> sentence u -> chars t = chars u -> t = u.
Proof. intros t u H1 H2. apply traced_unique with [NT N_s]; apply traced_sentence; assumption. Qed.

Section Runs.
Variable props : list Z -> option (list Z) -> option (list (Z * Z)).
Definition outcome (r : act_res) : parsed := match r with Done c => PAccept c | Reject => PReject | IllAct => PIll end.
Lemma run_traced : forall n st t prev c, traced st t -> run props n prev (chars t) st c <> PFuel ->
  run props n prev (chars t) st c = outcome (perform props prev t c).
Proof.
  induction n as [|n IH]; intros st t prev c T N; [destruct (N eq_refl)|].
  inversion T as [|a st' t' T'|x l st' t' R T'|s st' ch t' M T']; subst; cbn [run perform chars flat_map app] in *; try fold (chars t') in *.
  - reflexivity.
  - destruct (apply props a prev c); try reflexivity. apply IH; assumption.
  - rewrite R in *. apply IH; assumption.
  - destruct s; try discriminate M; rewrite M in *; apply IH; assumption.
Qed.
Lemma run_accepts : forall n prev w st c c', run props n prev w st c = PAccept c' ->
  exists t, traced st t /\ chars t = w /\ perform props prev t c = Done c'.
Proof.
  induction n as [|n IH]; intros prev w st c c' H; [discriminate|]. cbn [run] in H.
  assert (T : forall s st ch w, (if term_matches s ch then run props n (Some ch) w st c else PReject) = PAccept c' ->
    exists t, traced (s :: st) t /\ chars t = ch :: w /\ perform props prev t c = Done c').
  { intros s st0 ch w0 E. destruct (term_matches s ch) eqn:M; [|discriminate]. apply IH in E as (t & T & E & P).
    exists (EChar ch :: t). split; [constructor; assumption|]. split; [cbn; f_equal; exact E|exact P]. }
  destruct st as [|s st]; [destruct w; [|discriminate]; injection H as <-; exists []; repeat split; constructor|].
  destruct s as [x|a|d| |l]; try (destruct w; [discriminate|]; apply T; exact H).
  - destruct (rule x (hd_error w)) as [l|] eqn:R; [|discriminate]. apply IH in H as (t & T' & E & P). exists t. repeat split; auto.
    apply tr_nt with l; [rewrite E; exact R|exact T'].
  - destruct (apply props a prev c) as [c1| |] eqn:A; try discriminate. apply IH in H as (t & T' & E & P). exists (EAct a :: t).
    split; [constructor; exact T'|]. split; [exact E|]. cbn [perform]. rewrite A. exact P.
Qed.
Theorem parse_sentence : forall t, sentence t -> parse_ctx props (chars t) = outcome (perform props None t (mkCtx [] 0)).
Proof.
  intros t H. apply run_traced; [apply traced_sentence; exact H|].
  destruct (parse_total props (chars t) (parse_fuel (chars t))) as (x & N & E & E'); [unfold parse_fuel; lia|].
  fold (parse_ctx props (chars t)). rewrite E'. exact N.
Qed.
Theorem parse_accepts : forall w c, parse_ctx props w = PAccept c -> exists t, sentence t /\ chars t = w /\ perform props None t (mkCtx [] 0) = Done c.
Proof. intros w c H. apply run_accepts in H as (t & T & E & P). exists t. split; [apply traced_sentence; exact T|auto]. Qed.
End Runs.

(** The sentence of a text, computed with the table. *)
Fixpoint trace (n : nat) (w : list Z) (st : list sym) : option (list event) :=
  match n with
  | O => None
  | S n =>
      match st with
      | [] => match w with [] => Some [] | _ => None end
      | Act a :: st => option_map (cons (EAct a)) (trace n w st)
      | NT x :: st => match rule x (hd_error w) with Push l => trace n w (l ++ st) | Rej => None end
      | s :: st => match w with c :: w => if term_matches s c then option_map (cons (EChar c)) (trace n w st) else None | [] => None end
      end
  end.
Definition sentence_of (w : list Z) : option (list event) := trace (left (length w) [NT N_s]) w [NT N_s].
Lemma trace_sound : forall n w st t, trace n w st = Some t -> traced st t /\ chars t = w.
Proof.
  induction n as [|n IH]; intros w st t H; [discriminate|]. cbn [trace] in H.
  assert (T : forall s st, match w with c :: w => if term_matches s c then option_map (cons (EChar c)) (trace n w st) else None | [] => None end = Some t ->
    traced (s :: st) t /\ chars t = w).
  { intros s st0 E. destruct w as [|c w]; [discriminate|]. destruct (term_matches s c) eqn:M; [|discriminate].
    destruct (trace n w st0) as [u|] eqn:E0; [|discriminate]. injection E as <-. apply IH in E0 as [T E0]. split; [constructor; assumption|cbn; f_equal; exact E0]. }
  destruct st as [|[x|a|d| |l] st]; try (apply T; exact H); clear T.
  - destruct w; [|discriminate]. injection H as <-. split; [constructor|reflexivity].
  - destruct (rule x (hd_error w)) as [l|] eqn:R; [|discriminate]. apply IH in H as [T E]. split; [|exact E]. apply tr_nt with l; [rewrite E; exact R|exact T].
  - destruct (trace n w st) as [u|] eqn:E; [|discriminate]. injection H as <-. apply IH in E as [T E]. split; [constructor; exact T|exact E].
Qed.
Lemma trace_complete : forall n st t, (left (length (chars t)) st <= n)%nat -> traced st t -> trace n (chars t) st = Some t.
Proof.
  induction n as [|n IH]; intros st t L T; [unfold left in L; lia|].
  inversion T as [|a st' t' T'|x l st' t' R T'|s st' c t' M T']; subst; cbn [trace chars flat_map app] in *; try fold (chars t') in *.
  - reflexivity.
  - rewrite IH; [reflexivity| |exact T']. unfold left in *. cbn [reads] in L. unfold weights in *. cbn [map list_sum fold_right weight] in L.
    change (fold_right Nat.add 0%nat (map weight st')) with (list_sum (map weight st')) in L. lia.
  - rewrite R. apply IH; [|exact T']. pose proof (left_nt _ _ st' _ R). lia.
  - assert (L' : (left (length (chars t')) st' <= n)%nat).
    { assert (W : weight s = 1%nat /\ reads (s :: st') = true) by (destruct s; try discriminate M; split; reflexivity). destruct W as [W Rt].
      unfold left in *. rewrite Rt in L. unfold weights in *. cbn [map list_sum fold_right length pred] in L.
      change (fold_right Nat.add 0%nat (map weight st')) with (list_sum (map weight st')) in L. rewrite W in L. destruct (reads st'); lia. }
    destruct s; try discriminate M; rewrite M, (IH _ _ L' T'); reflexivity.
Qed.
Theorem sentence_of_spec : forall w t, sentence_of w = Some t <-> sentence t /\ chars t = w.
Proof.
  intros w t. rewrite <- traced_sentence. split; [apply trace_sound|]. intros [T <-]. apply trace_complete; [apply le_n|exact T].
Qed.
