(** Unicode properties: C44 (lookups), C45 (the data), C46 (names and [\p]).

    [range_lookup], [flat_lookup], [trie_lookup], [numeric] and [list_value] are the searches of the code, [property]
    the predicate chosen for [\p{name}] and [\p{name=value}]. The reference data ([ref_category] and so on) are not
    taken from /repo, see UnicodeRef.v. *)
From Coq Require Import List ZArith Bool Lia String ZifyBool.
From Verif Require Import Chars Syntax View Eval Api Parser Pattern UnicodeData Unicode UnicodeSearch UnicodeRef UnicodeTables UnicodeProps
  UnicodeFacts UnicodeNames.
Import ListNotations.
Local Open Scope string_scope.
Local Open Scope list_scope.
Local Open Scope Z_scope.

(** * C44 *)
(** Whatever name and value of a property are accepted, the lookup ends with an answer for every value that is not
    negative; it never reads outside of a table. *)
Theorem C44_total : forall name value f, property name value = Some f -> forall c, 0 <= c -> exists b, f c = Ok b.
Proof. intros name value f H. exact (proj2 (property_good name value f H)). Qed.
Print Assumptions C44_total.
(** So do the functions that give a value. *)
Theorem C44_values : forall c, 0 <= c -> (exists k, cp_category c = Ok k) /\ (exists k, cp_script c = Ok k) /\ (exists k, cp_age c = Ok k) /\
  (exists k, cp_block c = Ok k) /\ (exists v, cp_numeric_value c = Ok v).
Proof.
  intros c Hc. split; [exact (proj2 good_cp_category c Hc)|]. split; [exact (proj2 (good_get_script 0) c Hc)|].
  split; [exact (proj2 good_age c Hc)|]. split; [exact (proj2 good_block c Hc)|]. exact (proj2 good_numeric_value c Hc).
Qed.
Print Assumptions C44_values.
(** The search in a packed table finds the entry whose span has the value: the spans are those between two keys. *)
Theorem C44_range : forall data cp, In data ranges -> 0 <= cp ->
  exists b, range_lookup data cp = Ok b /\ (b = true <-> exists x, packed_entry data cp x /\ low x <> 0).
Proof. intros data cp H. destruct (range_shape data H) as [H1 H2]. exact (range_lookup_spec data cp H1 H2). Qed.
Print Assumptions C44_range.
Theorem C44_range_value : forall data cp d, In data ranges -> 0 <= cp ->
  (exists x, packed_entry data cp x /\ range_value data cp d = Ok (low x)) \/
  ((forall x, ~ packed_entry data cp x) /\ range_value data cp d = Ok d).
Proof. intros data cp d H. destruct (range_shape data H) as [H1 H2]. exact (range_value_spec data cp d H1 H2). Qed.
Print Assumptions C44_range_value.
(** The search in a plain list answers yes only for listed values, and for all of them if there are fewer than 20 of
    them or they are in order. *)
Theorem C44_flat : forall data u, (exists b, flat_lookup data u = Ok b) /\ (flat_lookup data u = Ok true -> In u data) /\
  ((List.length data < 20)%nat \/ ascending data = true -> In u data -> flat_lookup data u = Ok true).
Proof.
  intros data u. split; [apply flat_lookup_total|]. split; [apply flat_lookup_sound|]. intros H. exact (flat_lookup_complete data u H).
Qed.
Print Assumptions C44_flat.
(** The tables of numeric values are searched correctly. *)
Theorem C44_numeric : forall data cp, ascending (map fst data) = true -> numeric data cp = Ok (value_of data cp).
Proof. exact numeric_spec. Qed.
Print Assumptions C44_numeric.
Theorem C44_list : forall data cp d, ascending (map key data) = true ->
  list_value data cp d = Ok (match value_of (map (fun x => (key x, low x)) data) cp with Some v => v | None => d end).
Proof. exact list_value_spec. Qed.
Print Assumptions C44_list.
(** Four of the lists have more than 20 elements and are not in order: most of their elements are not found. *)
Definition unsorted : list (list Z) := [cat_pd; prop_dash_data; prop_ext_data; prop_sd_data].
Theorem C44_flat_refuted : forall data, In data unsorted -> exists u, In u data /\ flat_lookup data u = Ok false.
Proof.
  assert (H : forallb (fun data => existsb (fun u => match flat_lookup data u with Ok b => negb b | _ => false end) data) unsorted = true)
    by (vm_compute; reflexivity).
  intros data Hin. pose proof (proj1 (forallb_forall _ _) H _ Hin) as H'. cbv beta in H'. apply existsb_exists in H' as (u & Hu & E). exists u.
  split; [exact Hu|]. destruct (flat_lookup data u) as [[]| | | |]; try discriminate. reflexivity.
Qed.
Print Assumptions C44_flat_refuted.
Example C44_ex_lost : map (fun data => (List.length data, List.length (filter (fun u => match flat_lookup data u with Ok b => negb b | _ => false end) data)))
  unsorted = [(26, 15); (30, 20); (50, 46); (47, 41)]%nat.
Proof. vm_compute. reflexivity. Qed.
(** Beyond the last code point lookups in the tries go on, modulo a power of two. *)
Theorem C44_beyond_refuted : exists c, top < c < 2 ^ 32 /\ cat_is_lo c = Ok true /\ cp_category c = Ok gc_cn.
Proof. exists 0xFFFFFFE0. split; [unfold top; lia|]. split; vm_compute; reflexivity. Qed.
Print Assumptions C44_beyond_refuted.
Example C44_ex : cp_category 65 = Ok gc_lu /\ cp_category 0x3b1 = Ok gc_ll /\ cp_age 0x20ac = Ok 3 /\ cp_numeric_value 0xbd = Ok (Some (1, 2)) /\
  cp_script 0x3b1 = Ok 43 /\ range_lookup cat_cc 127 = Ok true /\ range_lookup cat_cc 0x110000 = Ok false.
Proof. vm_compute. repeat split. Qed.
Example C44_ex_entry : packed_entry cat_zs 32 (0x20 * 256 + 1).
Proof. exists (firstn 1 cat_zs), (0x21 * 256), (skipn 3 cat_zs). split; [reflexivity|]. vm_compute. split; [discriminate|reflexivity]. Qed.

(** * C45 *)
(** [cp_category] is the general category of Unicode 14, but for the dashes that are not found. *)
Theorem C45_category : forall u, 0 <= u <= top -> ~ In u lost_dashes -> cp_category u = Ok (ref_category u).
Proof.
  intros u Hu Hn. rewrite (proj1 (category_ref u Hu)). destruct (is_lost u) eqn:E; [|reflexivity].
  exfalso. apply Hn. unfold is_lost in E. apply existsb_exists in E as (x & Hx & Ex). apply Z.eqb_eq in Ex. subst x. exact Hx.
Qed.
Print Assumptions C45_category.
(** No code point has two categories. *)
Theorem C45_disjoint : forall f g v w u, In (f, v) category_order -> In (g, w) category_order -> 0 <= u <= top ->
  f u = Ok true -> g u = Ok true -> v = w.
Proof. exact categories_disjoint. Qed.
Print Assumptions C45_disjoint.
(** Lower case, upper case, identifiers, mirrored characters. *)
Theorem C45_lower : forall u, 0 <= u <= top -> prop_lower u = Ok (in_ranges ref_lowercase u).
Proof. exact lower_ref. Qed.
Print Assumptions C45_lower.
Theorem C45_upper : forall u, 0 <= u <= top -> prop_upper u = Ok (in_ranges ref_uppercase u).
Proof. exact upper_ref. Qed.
Print Assumptions C45_upper.
Theorem C45_xid_start : forall u, 0 <= u <= top -> prop_xids u = Ok (in_ranges ref_xid_start u).
Proof. exact xids_ref. Qed.
Print Assumptions C45_xid_start.
Theorem C45_xid_continue : forall u, 0 <= u <= top -> prop_xidc u = Ok (in_ranges ref_xid_continue u).
Proof. exact xidc_ref. Qed.
Print Assumptions C45_xid_continue.
Theorem C45_bidi_mirrored : forall u, 0 <= u <= top -> prop_bidi_m u = Ok (in_ranges ref_bidi_mirrored u).
Proof. exact bidi_ref. Qed.
Print Assumptions C45_bidi_mirrored.
(** Numeric values, as fractions. *)
Theorem C45_numeric : forall u, 0 <= u <= top ->
  exists v, cp_numeric_value u = Ok v /\ same_fraction v (ref_numeric_value u) = true.
Proof. exact numeric_ref. Qed.
Print Assumptions C45_numeric.
(** A code point has an age exactly if it is assigned. *)
Theorem C45_age : forall u, 0 <= u <= top -> exists k, cp_age u = Ok k /\ 0 <= k <= 24 /\ (k <> 0 <-> ref_category u <> gc_cn).
Proof. exact age_ref. Qed.
Print Assumptions C45_age.
(** What has a script is assigned. *)
Theorem C45_script : forall u, 0 <= u <= top -> exists k, cp_script u = Ok k /\ (k <> script_unknown -> cp_is_assigned u = Ok true).
Proof. exact script_assigned. Qed.
Print Assumptions C45_script.
(** Properties that Unicode derives from others. *)
Theorem C45_alphabetic : forall u, 0 <= u <= top ->
  prop_alpha u = prop_lower u ||| prop_upper u ||| cat_is_lt u ||| cat_is_lm u ||| cat_is_lo u ||| cat_is_nl u ||| trie_lookup prop_oalpha_data u.
Proof. intros u Hu. exact (alpha_derived u Hu). Qed.
Print Assumptions C45_alphabetic.
Theorem C45_grapheme_base : forall u, 0 <= u <= top ->
  prop_gr_base u = cp_is_assigned u &&&
    notr (cat_is_cc u ||| cat_is_cf u ||| cat_is_cs u ||| cat_is_co u ||| cat_is_zl u ||| cat_is_zp u ||| prop_gr_ext u).
Proof. intros u Hu. exact (gr_base_derived u Hu). Qed.
Print Assumptions C45_grapheme_base.
(** Properties that imply others. *)
Theorem C45_subsets : forall f g, In (f, g) subsets -> forall u, 0 <= u <= top -> f u = Ok true -> g u = Ok true.
Proof. exact subset_all. Qed.
Print Assumptions C45_subsets.
Example C45_ex : map ref_category [65; 97; 48; 32; 45; 0x378; 0xE000; 0x10FFFF] = [gc_lu; gc_ll; gc_nd; gc_zs; gc_pd; gc_cn; gc_co; gc_cn] /\
  prop_lower 0xaa = Ok true /\ cat_is_ll 0xaa = Ok false /\ cp_numeric_value 0x2189 = Ok (Some (0, 1)) /\ List.length subsets = 15%nat.
Proof. vm_compute. repeat split. Qed.
(** The hyphen is said to be unassigned, and so are all of the lost dashes. *)
Theorem C45_category_refuted : forall u, In u lost_dashes -> ref_category u = gc_pd /\ cp_category u = Ok gc_cn.
Proof.
  assert (H : forallb (fun u => (0 <=? u) && (u <=? top) && is_lost u) lost_dashes = true) by (vm_compute; reflexivity).
  intros u Hu. pose proof (proj1 (forallb_forall _ _) H _ Hu) as H'. cbv beta in H'.
  apply andb_true_iff in H' as [H1 H2]. destruct (category_ref u) as [H3 H4]; [lia|]. rewrite H2 in H3. split; [exact (H4 H2)|exact H3].
Qed.
Print Assumptions C45_category_refuted.
(** Private use characters and surrogates are assigned in Unicode; here they are not. *)
Theorem C45_assigned_refuted : exists u, 0 <= u <= top /\ ref_category u <> gc_cn /\ cp_is_assigned u = Ok false.
Proof. exists 0xE000. vm_compute. repeat split; discriminate. Qed.
Print Assumptions C45_assigned_refuted.
(** The group C (Other) has the unassigned code points in it; here it has not. *)
Theorem C45_other_refuted : exists u, 0 <= u <= top /\ ref_category u = gc_cn /\ cat_is_c u = Ok false.
Proof. exists 0x378. vm_compute. repeat split; discriminate. Qed.
Print Assumptions C45_other_refuted.
(** Every nonspacing mark is case-ignorable; here nothing is. *)
Theorem C45_case_ignorable_refuted : exists u, 0 <= u <= top /\ ref_category u = gc_mn /\ prop_ci u = Ok false.
Proof. exists 0x300. vm_compute. repeat split; discriminate. Qed.
Print Assumptions C45_case_ignorable_refuted.
(** [age=] includes the code points that were never assigned. *)
Theorem C45_age_refuted : exists u, 0 <= u <= top /\ ref_category u = gc_cn /\ forall k, 0 <= k -> age_is k u = Ok true.
Proof.
  exists 0x378. split; [unfold top; lia|]. split; [vm_compute; reflexivity|]. intros k Hk. unfold age_is.
  replace (cp_age 0x378) with (@Ok Z 0) by (vm_compute; reflexivity). cbn [bind]. f_equal. lia.
Qed.
Print Assumptions C45_age_refuted.

(** * C46 *)
(** Letters of either case, spaces, hyphens and low lines are not told apart in names and values. *)
Theorem C46_loose : forall n n' v v', folded n = folded n' -> option_map folded v = option_map folded v' -> property n v = property n' v'.
Proof. exact property_fold. Qed.
Print Assumptions C46_loose.
Example C46_ex_loose : folded (codes "Uppercase-LETTER") = folded (codes "uppercase_letter") /\ folded (codes "lu") <> folded (codes "ll").
Proof. split; [reflexivity|]. vm_compute. discriminate. Qed.
(** Every listed name means what it is listed with; none is hidden by an earlier one. *)
Theorem C46_binary : forall n k, In (n, k) binary_prop_names -> binary_prop_from_string (codes n) = k /\ exists f, property (codes n) None = Some f.
Proof. intros n k H. split; [exact (binary_unshadowed n k H)|exact (binary_defined n k H)]. Qed.
Print Assumptions C46_binary.
Theorem C46_scripts : forall n k, In (n, k) scripts_names -> k <> script_unknown ->
  property (codes n) None = Some (script_is k) /\ property (codes "script") (Some (codes n)) = Some (script_is k) /\
  property (codes "sc") (Some (codes n)) = Some (script_is k) /\ property (codes "scx") (Some (codes n)) = Some (script_ext_is k).
Proof. exact script_named. Qed.
Print Assumptions C46_scripts.
Theorem C46_blocks : forall n k, In (n, k) blocks_names -> block_from_string (codes n) = k.
Proof. exact block_unshadowed. Qed.
Print Assumptions C46_blocks.
(** The names of the general categories in the Unicode standard mean those categories. *)
Theorem C46_category : forall n l, In (n, l) category_names -> exists f, property (codes n) None = Some f /\
  forall u, 0 <= u <= top -> ~ In u lost_dashes -> f u = Ok (existsb (Z.eqb (ref_category u)) l).
Proof. exact category_named. Qed.
Print Assumptions C46_category.
(** From the text of the pattern to the answer: [\p] and [\P] with a property compile to a pattern that matches
    exactly the single code points that have, or do not have, the property. *)
Theorem C46_match : forall name value g opt n s f, is_property name -> (forall w, value = Some w -> is_property w) ->
  property name value = Some g -> Forall (fun x => 0 <= x <= top) s ->
  let inside := name ++ match value with None => [] | Some w => codes "=" ++ w end ++ codes "}" in
  (exists r c, compile unicode_props (codes "\p{" ++ inside) = CRegex r /\ ctre_match opt (6 + n) s f r = Ok c /\
     (matched c = true <-> exists x, s = [x] /\ g x = Ok true)) /\
  (exists r c, compile unicode_props (codes "\P{" ++ inside) = CRegex r /\ ctre_match opt (6 + n) s f r = Ok c /\
     (matched c = true <-> exists x, s = [x] /\ g x = Ok false)).
Proof. exact property_match. Qed.
Print Assumptions C46_match.
(** For the categories: [\p{Lu}] matches exactly the upper case letters of Unicode 14, and so on. *)
Theorem C46_category_match : forall name l opt n s f, In (name, l) category_names -> Forall (fun x => 0 <= x <= top /\ ~ In x lost_dashes) s ->
  exists r c, compile unicode_props (codes "\p{" ++ codes name ++ codes "}") = CRegex r /\ ctre_match opt (6 + n) s f r = Ok c /\
    (matched c = true <-> exists x, s = [x] /\ In (ref_category x) l).
Proof.
  assert (H : forallb (fun p => negb (Nat.eqb (List.length (codes (fst p))) 0) &&
      forallb (fun c => ((97 <=? c) && (c <=? 122)) || ((65 <=? c) && (c <=? 90)) || (c =? 95)) (codes (fst p))) category_names = true)
    by (vm_compute; reflexivity).
  intros name l opt n s f Hin Hs. destruct (category_named name l Hin) as (g & Hg & Hgu).
  assert (Hp : is_property (codes name)).
  { pose proof (proj1 (forallb_forall _ _) H _ Hin) as H'. cbn [fst snd] in H'. apply andb_true_iff in H' as [H1 H2]. split.
    - intros E. rewrite E in H1. discriminate.
    - apply Forall_forall. intros c Hc. pose proof (proj1 (forallb_forall _ _) H2 c Hc) as H3. left. unfold name_part, name_start, is_letter. cbv beta in H3. lia. }
  destruct (C46_match (codes name) None g opt n s f Hp) as [(r & c & H1 & H2 & H3) _].
  - intros w E. discriminate.
  - exact Hg.
  - revert Hs. apply Forall_impl. tauto.
  - exists r, c. split; [exact H1|]. split; [exact H2|]. rewrite H3. split; intros (x & -> & E); exists x; (split; [reflexivity|]); inversion Hs as [|? ? [Hx Hl] _]; subst.
    + rewrite (Hgu x Hx Hl) in E. injection E as E. apply existsb_exists in E as (k & Hk & Ek). apply Z.eqb_eq in Ek. rewrite Ek. exact Hk.
    + rewrite (Hgu x Hx Hl). f_equal. apply existsb_exists. exists (ref_category x). split; [exact E|apply Z.eqb_refl].
Qed.
Print Assumptions C46_category_match.
Definition asked (p : string) (x : Z) : option bool :=
  match compile unicode_props (codes p) with
  | CRegex r => match ctre_match true 20 [x] (mkFlags false false false) r with Ok c => Some (matched c) | _ => None end
  | _ => None
  end.
Example C46_ex : map (asked "\p{Lu}") [65; 97] = [Some true; Some false] /\ asked "\p{script=Greek}" 0x3b1 = Some true /\
  asked "\p{scx=Greek}" 0x342 = Some true /\ asked "\P{block=basic_latin}" 97 = Some false /\ asked "\p{nonsense}" 97 = None.
Proof. vm_compute. repeat split. Qed.
(** The hyphen is no dash. *)
Theorem C46_dash_refuted : exists x, ref_category x = gc_pd /\ asked "\p{Pd}" x = Some false /\ asked "\p{Dash}" x = Some false /\ asked "\p{Cn}" x = Some true.
Proof. exists 45. vm_compute. repeat split. Qed.
Print Assumptions C46_dash_refuted.
(** The standard name of the property Script_Extensions is not accepted, [script_extension] is. *)
Theorem C46_script_extensions_refuted : forall v, property (codes "script_extensions") (Some v) = None.
Proof. intros v. reflexivity. Qed.
Print Assumptions C46_script_extensions_refuted.
Example C46_ex_script_extension : exists g, property (codes "Script_Extension") (Some (codes "Greek")) = Some g.
Proof. eexists. reflexivity. Qed.
