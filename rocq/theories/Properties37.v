(** Words and separators: C67.

    The ranges with a character class, or a run of characters of a class: search_all lists the words of a text, split cuts it at
    separators. The lists of texts are [words] and [parts] (Words.v), which are defined by recursion over the text alone. *)
From Coq Require Import List ZArith NArith Bool Lia Arith String ZifyBool.
From Verif Require Import Chars Syntax First Utf8 View Eval Api Actions Parser Spec CharProofs Views EvalTop Match Term Iter Utf8Proofs RangeSim Anchor Mode ModeSem ModeCalls ModeTop Compiles
  Total Numbering RangeSpec UnicodeData Unicode UnicodeRef UnicodeTables UnicodeProps UnicodeFacts UnicodeNames Words Properties2 Properties12 Properties27 Properties28.
Import ListNotations.
Local Open Scope string_scope.
Local Open Scope list_scope.
Local Open Scope nat_scope.

(** * C67 *)
(** The text of a group of a result. *)
Definition shown (s : list Z) (id : nat) (c : caps) : option (list Z) := option_map (fun x => text s (fst x) (snd x)) (group c id).
(** From some fuel on, [X] is a list of results that show these texts. *)
Definition texts (X : nat -> res (list caps)) (s : list Z) (id : nat) (l : list (list Z)) : Prop :=
  exists cs N, (forall n, N <= n -> X n = Ok cs) /\ map (shown s id) cs = map Some l.

Lemma shown_zero : forall s r cs ms, Forall2 (reports r) cs ms -> map (shown s 0) cs = map Some (map (text_of s) ms).
Proof.
  intros s r cs ms F. induction F as [|c x cs ms [H _] F IH]; [reflexivity|]. cbn [map]. rewrite IH. f_equal. unfold shown. rewrite H. reflexivity.
Qed.
Lemma shown_one : forall s r id cs ms, In id (map fst (find_captures r)) -> Forall2 (reports r) cs ms -> map (shown s id) cs = map (group_of s id) ms.
Proof.
  intros s r id cs ms I F. induction F as [|c x cs ms [_ H] F IH]; [reflexivity|]. cbn [map]. rewrite IH. f_equal. unfold shown, group_of. rewrite (H id I). reflexivity.
Qed.

(** search_all of one or more characters of a class: the words, that is the longest stretches of its characters ... *)
Theorem C67_words : forall props u c opt s f, compile props u = CRegex (plus c) -> forallb val_ok s = true -> range_check opt f (plus c) = true ->
  texts (fun n => range_array GSearchAll opt n s f (plus c)) s 0 (words (cls_has (f_ci f) c) s).
Proof.
  intros props u c opt s f Hu V K.
  destruct (C57_text props u _ GSearchAll opt s f Hu V K eq_refl ltac:(discriminate)) as (cs & N & H1 & H2). exists cs, N. split; [exact H1|].
  rewrite (shown_zero s _ _ _ H2). f_equal. apply (search_words s f c (S (List.length s)) true [] s eq_refl). lia.
Qed.
Print Assumptions C67_words.
(** ... split at one character: all the parts between, also the empty ones ... *)
Theorem C67_split : forall props u c opt s f, compile props u = CRegex (RCls c) -> forallb val_ok s = true -> range_check opt f (RCls c) = true ->
  texts (fun n => range_array GSplit opt n s f (RCls c)) s 0 (parts (cls_has (f_ci f) c) s).
Proof.
  intros props u c opt s f Hu V K.
  destruct (C57_text props u _ GSplit opt s f Hu V K eq_refl (fun _ => eq_refl)) as (cs & N & H1 & H2). exists cs, N. split; [exact H1|].
  rewrite (shown_zero s _ _ _ H2). f_equal. apply (split_parts s f c (S (List.length s)) true [] [] s eq_refl); [constructor|lia].
Qed.
Print Assumptions C67_split.
(** ... and split at runs: those of the text in which a separator behind a separator is left out. *)
Theorem C67_split_runs : forall props u c opt s f, compile props u = CRegex (plus c) -> forallb val_ok s = true -> range_check opt f (plus c) = true ->
  texts (fun n => range_array GSplit opt n s f (plus c)) s 0 (parts (cls_has (f_ci f) c) (squeeze (cls_has (f_ci f) c) false s)).
Proof.
  intros props u c opt s f Hu V K.
  destruct (C57_text props u _ GSplit opt s f Hu V K eq_refl (fun _ => eq_refl)) as (cs & N & H1 & H2). exists cs, N. split; [exact H1|].
  rewrite (shown_zero s _ _ _ H2). f_equal. apply (split_squeezed s f c (S (List.length s)) true [] [] s eq_refl); [constructor|lia].
Qed.
Print Assumptions C67_split_runs.
(** README.md lines 250-253, [search_all<"([0-9]+),?">]: the group is each number of the text. *)
Theorem C67_numbers : forall opt s, forallb val_ok s = true -> exists r, compile no_props (codes "([0-9]+),?") = CRegex r /\
  texts (fun n => range_array GSearchAll opt n s plain_mode r) s 1 (words (fun v => (48 <=? v)%Z && (v <=? 57)%Z) s).
Proof.
  intros opt s V. set (c := CSet [CRange 48 57]). set (d := CChar 44). exists (item c d).
  assert (Hu : compile no_props (codes "([0-9]+),?") = CRegex (item c d)) by (vm_compute; reflexivity). split; [exact Hu|].
  assert (K : range_check opt plain_mode (item c d) = true) by (destruct opt; vm_compute; reflexivity).
  destruct (C57_text no_props _ _ GSearchAll opt s plain_mode Hu V K eq_refl ltac:(discriminate)) as (cs & N & H1 & H2). exists cs, N. split; [exact H1|].
  rewrite (shown_one s (item c d) 1 _ _ (or_introl eq_refl) H2).
  replace (words (fun v => (48 <=? v)%Z && (v <=? 57)%Z) s) with (words (cls_has (f_ci plain_mode) c) s).
  - apply (search_items s plain_mode c d (S (List.length s)) true [] s eq_refl). lia.
  - unfold words. f_equal. assert (E : forall v, cls_has (f_ci plain_mode) c v = (48 <=? v)%Z && (v <=? 57)%Z)
      by (intros v; cbn [cls_has existsb c]; unfold fold_test; cbn [plain_mode f_ci andb]; rewrite !orb_false_r; reflexivity).
    clear - E. induction s as [|v s IH]; [reflexivity|]. cbn [parts]. rewrite E, IH. reflexivity.
Qed.
Print Assumptions C67_numbers.

(** On the encoding of a text the same words, encoded. *)
Lemma moved_texts : forall t id cs l, map (shown t id) cs = map Some l -> map (shown (encode t) id) (map (move (offset t)) cs) = map Some (map encode l).
Proof.
  intros t id. induction cs as [|c cs IH]; intros [|w l] H; try discriminate; [reflexivity|]. cbn [map] in *. injection H as H1 H2. rewrite (IH l H2). f_equal.
  unfold shown in *. destruct (moved (offset t) c) as [_ M]. rewrite M. destruct (group c id) as [[b e]|]; [|discriminate]. cbn [option_map move_span fst snd] in *.
  injection H1 as <-. rewrite text_encode. reflexivity.
Qed.
Theorem C67_words_utf8 : forall props u c opt t f, compile props u = CRegex (plus c) -> wf_text t -> forallb val_ok t = true ->
  range_check opt f (plus c) = true -> u8_ok true (plus c) = true ->
  texts (fun n => range_u8 true GSearchAll opt n (encode t) f (plus c)) (encode t) 0 (map encode (words (cls_has (f_ci f) c) t)).
Proof.
  intros props u c opt t f Hu Ht V K U. destruct (C67_words props u c opt t f Hu V K) as (cs & N & H1 & H2).
  exists (map (move (offset t)) cs), N. split.
  - intros n Hn. rewrite range_text_same; try assumption; [|exact (compiled_well_numbered props u _ Hu)]. rewrite (H1 n Hn). reflexivity.
  - apply moved_texts. exact H2.
Qed.
Print Assumptions C67_words_utf8.
(** README.md line 271, [search_all<"\p{Letter}+">]: the words of letters of Unicode 14, except that eight dashes are taken for unassigned (C45). *)
Lemma prop_check : forall opt tbl, cls_ok false (CProp tbl) = true -> range_check opt plain_mode (plus (CProp tbl)) = true.
Proof.
  intros opt tbl H. cbn [cls_ok] in H. unfold range_check.
  assert (M : modes_in plain_mode (plus (CProp tbl)) = [(false, false)]) by reflexivity.
  unfold mpriority_check, mfragment. rewrite M. cbn -[Z.ltb Z.leb]. rewrite H. cbn -[Z.ltb Z.leb]. destruct opt; cbn -[Z.ltb Z.leb]; [|reflexivity].
  rewrite H, !orb_true_r. reflexivity.
Qed.
Lemma ok_inj : forall a b : bool, Ok a = Ok b -> a = b.
Proof. intros a b H. injection H as H. exact H. Qed.
Lemma prop_u8 : forall tbl, u8_ok true (plus (CProp tbl)) = true.
Proof. reflexivity. Qed.
Lemma prop_text : forall props tbl, props (codes "Letter") None = Some tbl -> compile props (codes "\p{Letter}+") = CRegex (plus (CProp tbl)).
Proof. intros props tbl H. vm_compute in H. vm_compute. rewrite H. reflexivity. Qed.
Lemma words_ext : forall P Q u, Forall (fun v => P v = Q v) u -> words P u = words Q u.
Proof.
  intros P Q u F. unfold words. f_equal. induction F as [|v u H F IH]; [reflexivity|]. cbn [parts]. rewrite H, IH. reflexivity.
Qed.
Theorem C67_letters : forall opt t, wf_text t -> Forall (fun v => ~ In v lost_dashes) t ->
  exists r, compile unicode_props (codes "\p{Letter}+") = CRegex r /\
  texts (fun n => range_u8 true GSearchAll opt n (encode t) plain_mode r) (encode t) 0
    (map encode (words (fun v => existsb (Z.eqb (ref_category v)) [gc_lu; gc_ll; gc_lt; gc_lm; gc_lo]) t)).
Proof.
  intros opt t Ht Hd. assert (I : In ("Letter", [gc_lu; gc_ll; gc_lt; gc_lm; gc_lo]) category_names).
  { unfold category_names. repeat (first [left; reflexivity | right]). }
  destruct (C46_category "Letter" _ I) as (g & Hg & Hc). clear I.
  assert (Hp : unicode_props (codes "Letter") None = Some (table_of g)) by (unfold unicode_props; rewrite Hg; reflexivity).
  exists (plus (CProp (table_of g))).
  pose proof (prop_text unicode_props (table_of g) Hp) as Hu.
  assert (V : forallb val_ok t = true).
  { apply forallb_forall. intros v I. unfold wf_text in Ht. rewrite Forall_forall in Ht. specialize (Ht v I). unfold scalar in Ht. unfold val_ok. lia. }
  split; [exact Hu|].
  rewrite (words_ext _ (cls_has (f_ci plain_mode) (CProp (table_of g))) t).
  - exact (C67_words_utf8 unicode_props _ (CProp (table_of g)) opt t plain_mode Hu Ht V (prop_check opt _ (table_cls_ok false g)) (prop_u8 _)).
  - apply Forall_forall. intros v I. unfold wf_text in Ht. rewrite Forall_forall in Ht, Hd. specialize (Ht v I). specialize (Hd v I).
    assert (B : (0 <= v <= top)%Z) by (unfold scalar in Ht; unfold top; lia). specialize (Hc v B Hd).
    rewrite (table_has false g v (property_good _ _ _ Hg) B) in Hc. apply ok_inj in Hc. symmetry. exact Hc.
Qed.
Print Assumptions C67_letters.

(** The checks hold, and the lists are not empty. *)
Example C67_example : forall opt,
  forallb (fun p => match compile no_props (codes p) with
                    | CRegex r => range_check opt plain_mode r && match r with RCls _ | RRep Greedy 1 0 [RCls _] => true | _ => false end
                    | _ => false end) ["[a-z]+"; "\w+"; "[^,]+"; "\s+"; "[;,]"; ","; "\s"; "[\r\n]+"; "[[:alpha:]]+"] = true /\
  words (fun v => (97 <=? v)%Z && (v <=? 122)%Z) (codes "one, two;;three") = map codes ["one"; "two"; "three"] /\
  parts (Z.eqb 44) (codes ",a,,b") = map codes [""; "a"; ""; "b"] /\ parts (Z.eqb 44) [] = [[]] /\
  parts (Z.eqb 44) (squeeze (Z.eqb 44) false (codes ",,a,,,b,,")) = map codes [""; "a"; "b"; ""].
Proof. intros [|]; vm_compute; auto. Qed.
Example C67_run_example : forall opt,
  let go a p t id := match range_array a opt 200 (codes t) plain_mode (rx p) with Ok cs => map (shown (codes t) id) cs | _ => [] end in
  go GSearchAll "[a-z]+" "one, two;;three" 0 = map (fun w => Some (codes w)) ["one"; "two"; "three"] /\
  go GSplit "," ",a,,b" 0 = map (fun w => Some (codes w)) [""; "a"; ""; "b"] /\
  go GSplit ",+" ",,a,,,b,," 0 = map (fun w => Some (codes w)) [""; "a"; "b"; ""] /\
  go GSearchAll "([0-9]+),?" "123,456,768" 1 = map (fun w => Some (codes w)) ["123"; "456"; "768"].
Proof. intros [|]; vm_compute; auto. Qed.
