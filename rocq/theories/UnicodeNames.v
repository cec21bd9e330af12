(** Names of Unicode properties, and [\p] from the text of the pattern to the answer. *)
From Coq Require Import ZArith List String Bool Lia ZifyBool ZifyNat.
From Verif Require Import Chars Syntax View Eval Api Actions Parser CharProofs Spec Pattern PatternLink
  UnicodeData Unicode UnicodeSearch UnicodeRef UnicodeTables UnicodeProps UnicodeFacts Properties5.
Import ListNotations.
Local Open Scope string_scope.
Local Open Scope list_scope.
Open Scope Z_scope.

(** * Comparing names *)
Definition folded (s : list Z) : list Z := map propcharnorm s.
Lemma charcomp_zero : forall a b, propcharcomp a b = 0 <-> propcharnorm a = propcharnorm b.
Proof.
  intros a b. unfold propcharcomp. cbv zeta. destruct (Z.eqb_spec (propcharnorm a) (propcharnorm b)); [tauto|].
  destruct (_ <? _); split; intros H; try discriminate; contradiction.
Qed.
Lemma namecomp_zero : forall a b, propnamecomp a b = 0 <-> folded a = folded b.
Proof.
  intros a b. unfold propnamecomp, folded. revert b. induction a as [|x a IH]; intros [|y b]; cbn [propname_loop map List.length].
  - cbn. tauto.
  - cbn. split; discriminate.
  - cbn. split; discriminate.
  - destruct (Z.eqb_spec (propcharcomp x y) 0) as [E|E].
    + specialize (IH b). destruct (propname_loop a b) as [r|].
      * rewrite IH. apply charcomp_zero in E. rewrite E. split; [intros H; congruence|]. intros H. injection H as H. exact H.
      * cbn [Nat.ltb Nat.leb]. change (Nat.ltb (S (List.length a)) (S (List.length b))) with (Nat.ltb (List.length a) (List.length b)).
        change (Nat.ltb (S (List.length b)) (S (List.length a))) with (Nat.ltb (List.length b) (List.length a)).
        rewrite IH. apply charcomp_zero in E. rewrite E. split; [intros H; congruence|]. intros H. injection H as H. exact H.
    + split; [intros H; contradiction|]. intros H. injection H as H _. apply charcomp_zero in H. contradiction.
Qed.
Lemma namecomp_fold : forall a a' b, folded a = folded a' -> (propnamecomp a b =? 0) = (propnamecomp a' b =? 0).
Proof.
  intros a a' b H. apply eq_true_iff_eq. rewrite !Z.eqb_eq, !namecomp_zero, H. tauto.
Qed.
Lemma from_string_fold : forall l a a' d, folded a = folded a' -> from_string l a d = from_string l a' d.
Proof.
  induction l as [|[n v] l IH]; intros a a' d H; [reflexivity|]. cbn [from_string].
  rewrite (namecomp_fold a a' _ H), (IH a a' d H). reflexivity.
Qed.
Lemma age_index_fold : forall l a a' i, folded a = folded a' -> age_index l a i = age_index l a' i.
Proof.
  induction l as [|n l IH]; intros a a' i H; [reflexivity|]. cbn [age_index].
  rewrite (namecomp_fold a a' _ H), (IH a a' _ H). reflexivity.
Qed.
Lemma type_fold : forall a a', folded a = folded a' -> property_type_from_name a = property_type_from_name a'.
Proof.
  intros a a' H. unfold property_type_from_name, is_named. rewrite !(namecomp_fold a a' _ H). reflexivity.
Qed.
Lemma script_fold : forall a a', folded a = folded a' -> script_from_string a = script_from_string a'.
Proof. intros a a' H. exact (from_string_fold scripts_names a a' script_unknown H). Qed.
Lemma block_fold : forall a a', folded a = folded a' -> block_from_string a = block_from_string a'.
Proof. intros a a' H. exact (from_string_fold blocks_names a a' 0 H). Qed.
Lemma age_fold : forall a a', folded a = folded a' -> age_from_string a = age_from_string a'.
Proof. intros a a' H. exact (age_index_fold age_strings a a' 0 H). Qed.
Lemma binary_fold : forall a a', folded a = folded a' -> binary_prop_from_string a = binary_prop_from_string a'.
Proof. intros a a' H. exact (from_string_fold binary_prop_names a a' binary_unknown H). Qed.
Theorem property_fold : forall n n' v v', folded n = folded n' -> option_map folded v = option_map folded v' ->
  property n v = property n' v'.
Proof.
  intros n n' v v' Hn Hv. unfold property. destruct v as [v|], v' as [v'|]; try discriminate Hv.
  - injection Hv as Hv. rewrite (type_fold n n' Hn), (script_fold v v' Hv), (block_fold v v' Hv), (age_fold v v' Hv). reflexivity.
  - rewrite (binary_fold n n' Hn). reflexivity.
Qed.

(** Every listed name means what it is listed with. *)
Fixpoint from_coded (names : list (list Z * Z)) (s : list Z) (d : Z) : Z :=
  match names with
  | [] => d
  | (n, v) :: tl => if propnamecomp s n =? 0 then v else from_coded tl s d
  end.
Definition coded (l : list (string * Z)) : list (list Z * Z) := map (fun p => (codes (fst p), snd p)) l.
Lemma from_coded_eq : forall l s d, from_string l s d = from_coded (coded l) s d.
Proof. induction l as [|[n v] l IH]; intros s d; [reflexivity|]. cbn [from_string coded map from_coded fst snd]. rewrite IH. reflexivity. Qed.
Definition unshadowed (l : list (string * Z)) (d : Z) : bool :=
  let cl := coded l in forallb (fun p => from_coded cl (fst p) d =? snd p) cl.
Lemma unshadowed_spec : forall l d, unshadowed l d = true -> forall n k, In (n, k) l -> from_string l (codes n) d = k.
Proof.
  intros l d H n k Hin. unfold unshadowed in H. cbv zeta in H. rewrite forallb_forall in H. rewrite from_coded_eq.
  specialize (H (codes n, k)). cbn [fst snd] in H. apply Z.eqb_eq. apply H. unfold coded. apply in_map_iff. exists (n, k). split; [reflexivity|exact Hin].
Qed.
Lemma binary_unshadowed : forall n k, In (n, k) binary_prop_names -> binary_prop_from_string (codes n) = k.
Proof. apply (unshadowed_spec binary_prop_names). vm_cast_no_check (eq_refl true). Qed.
Lemma script_unshadowed : forall n k, In (n, k) scripts_names -> script_from_string (codes n) = k.
Proof. apply (unshadowed_spec scripts_names). vm_cast_no_check (eq_refl true). Qed.
Lemma block_unshadowed : forall n k, In (n, k) blocks_names -> block_from_string (codes n) = k.
Proof. apply (unshadowed_spec blocks_names). vm_cast_no_check (eq_refl true). Qed.
Lemma binary_defined : forall n k, In (n, k) binary_prop_names -> exists f, property (codes n) None = Some f.
Proof.
  assert (H : forallb (fun p => (0 <=? snd p) && (snd p <? 249)) binary_prop_names = true) by (vm_compute; reflexivity).
  intros n k Hin. pose proof (proj1 (forallb_forall _ _) H _ Hin) as H'. cbn [snd] in H'. unfold property. cbv zeta.
  rewrite (binary_unshadowed n k Hin). change binary_unknown with 249. destruct (Z.eqb_spec k 249); [lia|]. unfold get_binary_prop.
  destruct (nth_error binary_props (Z.to_nat k)) as [p|] eqn:E; [eexists; reflexivity|].
  apply nth_error_None in E. change (List.length binary_props) with 249%nat in E. lia.
Qed.

(** * The names of the general categories *)
(** As in the Unicode Standard, table 4-4 and PropertyValueAliases.txt: the categories a name stands for. The group
    C (Other) is left out, see [C45_other_refuted]. *)
Definition category_names : list (string * list Z) :=
  [("Lu", [gc_lu]); ("Uppercase_Letter", [gc_lu]);
   ("Ll", [gc_ll]); ("Lowercase_Letter", [gc_ll]);
   ("Lt", [gc_lt]); ("Titlecase_Letter", [gc_lt]);
   ("Lm", [gc_lm]); ("Modifier_Letter", [gc_lm]);
   ("Lo", [gc_lo]); ("Other_Letter", [gc_lo]);
   ("Mn", [gc_mn]); ("Nonspacing_Mark", [gc_mn]);
   ("Mc", [gc_mc]); ("Spacing_Mark", [gc_mc]);
   ("Me", [gc_me]); ("Enclosing_Mark", [gc_me]);
   ("Nd", [gc_nd]); ("Decimal_Number", [gc_nd]);
   ("Nl", [gc_nl]); ("Letter_Number", [gc_nl]);
   ("No", [gc_no]); ("Other_Number", [gc_no]);
   ("Pc", [gc_pc]); ("Connector_Punctuation", [gc_pc]);
   ("Pd", [gc_pd]); ("Dash_Punctuation", [gc_pd]);
   ("Ps", [gc_ps]); ("Open_Punctuation", [gc_ps]);
   ("Pe", [gc_pe]); ("Close_Punctuation", [gc_pe]);
   ("Pi", [gc_pi]); ("Initial_Punctuation", [gc_pi]);
   ("Pf", [gc_pf]); ("Final_Punctuation", [gc_pf]);
   ("Po", [gc_po]); ("Other_Punctuation", [gc_po]);
   ("Sm", [gc_sm]); ("Math_Symbol", [gc_sm]);
   ("Sc", [gc_sc]); ("Currency_Symbol", [gc_sc]);
   ("Sk", [gc_sk]); ("Modifier_Symbol", [gc_sk]);
   ("So", [gc_so]); ("Other_Symbol", [gc_so]);
   ("Zs", [gc_zs]); ("Space_Separator", [gc_zs]);
   ("Zl", [gc_zl]); ("Line_Separator", [gc_zl]);
   ("Zp", [gc_zp]); ("Paragraph_Separator", [gc_zp]);
   ("Cc", [gc_cc]); ("Control", [gc_cc]);
   ("Cf", [gc_cf]); ("Format", [gc_cf]);
   ("Cs", [gc_cs]); ("Surrogate", [gc_cs]);
   ("Co", [gc_co]); ("Private_Use", [gc_co]);
   ("Cn", [gc_cn]); ("Unassigned", [gc_cn]);
   ("LC", [gc_lu; gc_ll; gc_lt]); ("Cased_Letter", [gc_lu; gc_ll; gc_lt]);
   ("L", [gc_lu; gc_ll; gc_lt; gc_lm; gc_lo]); ("Letter", [gc_lu; gc_ll; gc_lt; gc_lm; gc_lo]);
   ("M", [gc_mn; gc_mc; gc_me]); ("Mark", [gc_mn; gc_mc; gc_me]);
   ("N", [gc_nd; gc_nl; gc_no]); ("Number", [gc_nd; gc_nl; gc_no]);
   ("P", [gc_pc; gc_pd; gc_ps; gc_pe; gc_pi; gc_pf; gc_po]); ("Punctuation", [gc_pc; gc_pd; gc_ps; gc_pe; gc_pi; gc_pf; gc_po]);
   ("S", [gc_sm; gc_sc; gc_sk; gc_so]); ("Symbol", [gc_sm; gc_sc; gc_sk; gc_so]);
   ("Z", [gc_zs; gc_zl; gc_zp]); ("Separator", [gc_zs; gc_zl; gc_zp])].
(** Their places in [binary_props]. *)
Definition category_places : list (nat * list Z) :=
  [(49%nat, [gc_cc]); (50%nat, [gc_cf]); (51%nat, [gc_cn]); (52%nat, [gc_co]); (53%nat, [gc_cs]); (54%nat, [gc_lu;
   gc_ll; gc_lt; gc_lm; gc_lo]); (55%nat, [gc_lu; gc_ll; gc_lt]); (56%nat, [gc_ll]); (57%nat, [gc_lm]); (58%nat,
   [gc_lo]); (59%nat, [gc_lt]); (60%nat, [gc_lu]); (61%nat, [gc_mn; gc_mc; gc_me]); (62%nat, [gc_mc]); (63%nat,
   [gc_me]); (64%nat, [gc_mn]); (65%nat, [gc_nd; gc_nl; gc_no]); (66%nat, [gc_nd]); (67%nat, [gc_nl]); (68%nat,
   [gc_no]); (69%nat, [gc_pc; gc_pd; gc_ps; gc_pe; gc_pi; gc_pf; gc_po]); (70%nat, [gc_pc]); (71%nat, [gc_pd]);
   (72%nat, [gc_pe]); (73%nat, [gc_pf]); (74%nat, [gc_pi]); (75%nat, [gc_po]); (76%nat, [gc_ps]); (77%nat, [gc_sm;
   gc_sc; gc_sk; gc_so]); (78%nat, [gc_sc]); (79%nat, [gc_sk]); (80%nat, [gc_sm]); (81%nat, [gc_so]); (82%nat,
   [gc_zs; gc_zl; gc_zp]); (83%nat, [gc_zl]); (84%nat, [gc_zp]); (85%nat, [gc_zs])].
Lemma category_placed : forall i l, In (i, l) category_places -> exists f, option_map snd (nth_error binary_props i) = Some f /\
  forall u, 0 <= u <= top -> ~ In u lost_dashes -> f u = Ok (existsb (Z.eqb (ref_category u)) l).
Proof.
  assert (Hl : forall u, ~ In u lost_dashes -> is_lost u = false).
  { intros u H. destruct (is_lost u) eqn:E; [|reflexivity]. exfalso. apply H. unfold is_lost in E.
    apply existsb_exists in E as (x & Hx & Ex). replace u with x by lia. exact Hx. }
  assert (H1 : forall f k, In (f, k) category_order -> k <> gc_pd -> forall u, 0 <= u <= top -> ~ In u lost_dashes ->
            f u = Ok (existsb (Z.eqb (ref_category u)) [k])).
  { intros f k H1 H2 u Hu _. rewrite (category_tables_ref f k H1 H2 u Hu). cbn [existsb]. rewrite orb_false_r. reflexivity. }
  assert (Hpd : forall u, 0 <= u <= top -> ~ In u lost_dashes -> cat_is_pd u = Ok (existsb (Z.eqb (ref_category u)) [gc_pd])).
  { intros u Hu Hn. rewrite (pd_ref u Hu), (Hl u Hn). cbn [existsb]. rewrite orb_false_r, andb_true_r. reflexivity. }
  assert (Hcn : forall u, 0 <= u <= top -> ~ In u lost_dashes -> cat_is_cn u = Ok (existsb (Z.eqb (ref_category u)) [gc_cn])).
  { intros u Hu Hn. unfold cat_is_cn. rewrite (proj1 (category_ref u Hu)), (Hl u Hn). cbn [bind existsb]. rewrite orb_false_r. reflexivity. }
  assert (Hg : forall f l l', (forall u, 0 <= u <= top -> f u = Ok (is_one l' u)) -> (forall k, existsb (Z.eqb k) l = existsb (Z.eqb k) l') ->
            forall u, 0 <= u <= top -> ~ In u lost_dashes -> f u = Ok (existsb (Z.eqb (ref_category u)) l)).
  { intros f l l' Hf He u Hu _. rewrite (Hf u Hu), He. reflexivity. }
  assert (Hperm : forall l l' : list Z, (forall x, In x l <-> In x l') -> forall k, existsb (Z.eqb k) l = existsb (Z.eqb k) l').
  { intros l l' H k. apply eq_true_iff_eq. rewrite !existsb_exists. split; intros (x & Hx & Ex); exists x; (split; [apply H; exact Hx|exact Ex]). }
  intros i l Hin. unfold category_places in Hin. cbn [In] in Hin.
  destruct Hin as [Hin|Hin]; [injection Hin as <- <-; eexists; split; [cbn [nth_error binary_props option_map snd]; reflexivity|]; apply H1; [match goal with |- In (?f, _) _ => unfold f end; unfold category_order; find_in|discriminate]|].
  destruct Hin as [Hin|Hin]; [injection Hin as <- <-; eexists; split; [cbn [nth_error binary_props option_map snd]; reflexivity|]; apply H1; [match goal with |- In (?f, _) _ => unfold f end; unfold category_order; find_in|discriminate]|].
  destruct Hin as [Hin|Hin]; [injection Hin as <- <-; eexists; split; [cbn [nth_error binary_props option_map snd]; reflexivity|]; exact Hcn|].
  destruct Hin as [Hin|Hin]; [injection Hin as <- <-; eexists; split; [cbn [nth_error binary_props option_map snd]; reflexivity|]; apply H1; [match goal with |- In (?f, _) _ => unfold f end; unfold category_order; find_in|discriminate]|].
  destruct Hin as [Hin|Hin]; [injection Hin as <- <-; eexists; split; [cbn [nth_error binary_props option_map snd]; reflexivity|]; apply H1; [match goal with |- In (?f, _) _ => unfold f end; unfold category_order; find_in|discriminate]|].
  destruct Hin as [Hin|Hin]; [injection Hin as <- <-; eexists; split; [cbn [nth_error binary_props option_map snd]; reflexivity|]; apply (Hg _ _ _ cat_l_ref); apply Hperm; intros x; cbn; tauto|].
  destruct Hin as [Hin|Hin]; [injection Hin as <- <-; eexists; split; [cbn [nth_error binary_props option_map snd]; reflexivity|]; apply (Hg _ _ _ cat_lc_ref); apply Hperm; intros x; cbn; tauto|].
  destruct Hin as [Hin|Hin]; [injection Hin as <- <-; eexists; split; [cbn [nth_error binary_props option_map snd]; reflexivity|]; apply H1; [match goal with |- In (?f, _) _ => unfold f end; unfold category_order; find_in|discriminate]|].
  destruct Hin as [Hin|Hin]; [injection Hin as <- <-; eexists; split; [cbn [nth_error binary_props option_map snd]; reflexivity|]; apply H1; [match goal with |- In (?f, _) _ => unfold f end; unfold category_order; find_in|discriminate]|].
  destruct Hin as [Hin|Hin]; [injection Hin as <- <-; eexists; split; [cbn [nth_error binary_props option_map snd]; reflexivity|]; apply H1; [match goal with |- In (?f, _) _ => unfold f end; unfold category_order; find_in|discriminate]|].
  destruct Hin as [Hin|Hin]; [injection Hin as <- <-; eexists; split; [cbn [nth_error binary_props option_map snd]; reflexivity|]; apply H1; [match goal with |- In (?f, _) _ => unfold f end; unfold category_order; find_in|discriminate]|].
  destruct Hin as [Hin|Hin]; [injection Hin as <- <-; eexists; split; [cbn [nth_error binary_props option_map snd]; reflexivity|]; apply H1; [match goal with |- In (?f, _) _ => unfold f end; unfold category_order; find_in|discriminate]|].
  destruct Hin as [Hin|Hin]; [injection Hin as <- <-; eexists; split; [cbn [nth_error binary_props option_map snd]; reflexivity|]; apply (Hg _ _ _ cat_m_ref); apply Hperm; intros x; cbn; tauto|].
  destruct Hin as [Hin|Hin]; [injection Hin as <- <-; eexists; split; [cbn [nth_error binary_props option_map snd]; reflexivity|]; apply H1; [match goal with |- In (?f, _) _ => unfold f end; unfold category_order; find_in|discriminate]|].
  destruct Hin as [Hin|Hin]; [injection Hin as <- <-; eexists; split; [cbn [nth_error binary_props option_map snd]; reflexivity|]; apply H1; [match goal with |- In (?f, _) _ => unfold f end; unfold category_order; find_in|discriminate]|].
  destruct Hin as [Hin|Hin]; [injection Hin as <- <-; eexists; split; [cbn [nth_error binary_props option_map snd]; reflexivity|]; apply H1; [match goal with |- In (?f, _) _ => unfold f end; unfold category_order; find_in|discriminate]|].
  destruct Hin as [Hin|Hin]; [injection Hin as <- <-; eexists; split; [cbn [nth_error binary_props option_map snd]; reflexivity|]; apply (Hg _ _ _ cat_n_ref); apply Hperm; intros x; cbn; tauto|].
  destruct Hin as [Hin|Hin]; [injection Hin as <- <-; eexists; split; [cbn [nth_error binary_props option_map snd]; reflexivity|]; apply H1; [match goal with |- In (?f, _) _ => unfold f end; unfold category_order; find_in|discriminate]|].
  destruct Hin as [Hin|Hin]; [injection Hin as <- <-; eexists; split; [cbn [nth_error binary_props option_map snd]; reflexivity|]; apply H1; [match goal with |- In (?f, _) _ => unfold f end; unfold category_order; find_in|discriminate]|].
  destruct Hin as [Hin|Hin]; [injection Hin as <- <-; eexists; split; [cbn [nth_error binary_props option_map snd]; reflexivity|]; apply H1; [match goal with |- In (?f, _) _ => unfold f end; unfold category_order; find_in|discriminate]|].
  destruct Hin as [Hin|Hin]; [injection Hin as <- <-; eexists; split; [cbn [nth_error binary_props option_map snd]; reflexivity|]; intros u Hu Hn; rewrite (cat_p_ref u Hu Hn); unfold is_one; f_equal; apply (Hperm [_; _; _; _; _; _; _]); intros x; cbn; tauto|].
  destruct Hin as [Hin|Hin]; [injection Hin as <- <-; eexists; split; [cbn [nth_error binary_props option_map snd]; reflexivity|]; apply H1; [match goal with |- In (?f, _) _ => unfold f end; unfold category_order; find_in|discriminate]|].
  destruct Hin as [Hin|Hin]; [injection Hin as <- <-; eexists; split; [cbn [nth_error binary_props option_map snd]; reflexivity|]; exact Hpd|].
  destruct Hin as [Hin|Hin]; [injection Hin as <- <-; eexists; split; [cbn [nth_error binary_props option_map snd]; reflexivity|]; apply H1; [match goal with |- In (?f, _) _ => unfold f end; unfold category_order; find_in|discriminate]|].
  destruct Hin as [Hin|Hin]; [injection Hin as <- <-; eexists; split; [cbn [nth_error binary_props option_map snd]; reflexivity|]; apply H1; [match goal with |- In (?f, _) _ => unfold f end; unfold category_order; find_in|discriminate]|].
  destruct Hin as [Hin|Hin]; [injection Hin as <- <-; eexists; split; [cbn [nth_error binary_props option_map snd]; reflexivity|]; apply H1; [match goal with |- In (?f, _) _ => unfold f end; unfold category_order; find_in|discriminate]|].
  destruct Hin as [Hin|Hin]; [injection Hin as <- <-; eexists; split; [cbn [nth_error binary_props option_map snd]; reflexivity|]; apply H1; [match goal with |- In (?f, _) _ => unfold f end; unfold category_order; find_in|discriminate]|].
  destruct Hin as [Hin|Hin]; [injection Hin as <- <-; eexists; split; [cbn [nth_error binary_props option_map snd]; reflexivity|]; apply H1; [match goal with |- In (?f, _) _ => unfold f end; unfold category_order; find_in|discriminate]|].
  destruct Hin as [Hin|Hin]; [injection Hin as <- <-; eexists; split; [cbn [nth_error binary_props option_map snd]; reflexivity|]; apply (Hg _ _ _ cat_s_ref); apply Hperm; intros x; cbn; tauto|].
  destruct Hin as [Hin|Hin]; [injection Hin as <- <-; eexists; split; [cbn [nth_error binary_props option_map snd]; reflexivity|]; apply H1; [match goal with |- In (?f, _) _ => unfold f end; unfold category_order; find_in|discriminate]|].
  destruct Hin as [Hin|Hin]; [injection Hin as <- <-; eexists; split; [cbn [nth_error binary_props option_map snd]; reflexivity|]; apply H1; [match goal with |- In (?f, _) _ => unfold f end; unfold category_order; find_in|discriminate]|].
  destruct Hin as [Hin|Hin]; [injection Hin as <- <-; eexists; split; [cbn [nth_error binary_props option_map snd]; reflexivity|]; apply H1; [match goal with |- In (?f, _) _ => unfold f end; unfold category_order; find_in|discriminate]|].
  destruct Hin as [Hin|Hin]; [injection Hin as <- <-; eexists; split; [cbn [nth_error binary_props option_map snd]; reflexivity|]; apply H1; [match goal with |- In (?f, _) _ => unfold f end; unfold category_order; find_in|discriminate]|].
  destruct Hin as [Hin|Hin]; [injection Hin as <- <-; eexists; split; [cbn [nth_error binary_props option_map snd]; reflexivity|]; apply (Hg _ _ _ cat_z_ref); apply Hperm; intros x; cbn; tauto|].
  destruct Hin as [Hin|Hin]; [injection Hin as <- <-; eexists; split; [cbn [nth_error binary_props option_map snd]; reflexivity|]; apply H1; [match goal with |- In (?f, _) _ => unfold f end; unfold category_order; find_in|discriminate]|].
  destruct Hin as [Hin|Hin]; [injection Hin as <- <-; eexists; split; [cbn [nth_error binary_props option_map snd]; reflexivity|]; apply H1; [match goal with |- In (?f, _) _ => unfold f end; unfold category_order; find_in|discriminate]|].
  destruct Hin as [Hin|Hin]; [injection Hin as <- <-; eexists; split; [cbn [nth_error binary_props option_map snd]; reflexivity|]; apply H1; [match goal with |- In (?f, _) _ => unfold f end; unfold category_order; find_in|discriminate]|].
  contradiction.
Qed.
Lemma binary_coded : forall s, binary_prop_from_string s = from_coded (coded binary_prop_names) s binary_unknown.
Proof. intros s. exact (from_coded_eq binary_prop_names s binary_unknown). Qed.
Lemma category_named : forall n l, In (n, l) category_names -> exists f, property (codes n) None = Some f /\
  forall u, 0 <= u <= top -> ~ In u lost_dashes -> f u = Ok (existsb (Z.eqb (ref_category u)) l).
Proof.
  set (eqb := fun l l' : list Z => if list_eq_dec Z.eq_dec l l' then true else false).
  assert (H : forallb (fun p => let k := from_coded (coded binary_prop_names) (codes (fst p)) binary_unknown in
    (0 <=? k) && (k <? 249) && existsb (fun q => Nat.eqb (fst q) (Z.to_nat k) && eqb (snd q) (snd p)) category_places) category_names = true)
    by (vm_cast_no_check (eq_refl true)).
  intros n l Hin. pose proof (proj1 (forallb_forall _ _) H _ Hin) as H'. cbn [fst snd] in H'. cbv zeta in H'. rewrite <- binary_coded in H'.
  apply andb_true_iff in H' as [Hk H']. apply existsb_exists in H' as ([i l'] & Hi & E). cbn [fst snd] in E.
  apply andb_true_iff in E as [E1 E2]. unfold eqb in E2. destruct (list_eq_dec Z.eq_dec l' l) as [->|]; [|discriminate].
  apply Nat.eqb_eq in E1. subst i. destruct (category_placed _ _ Hi) as (f & Ef & Hf). exists f. split; [|exact Hf].
  unfold property. cbv zeta. change binary_unknown with 249. destruct (Z.eqb_spec (binary_prop_from_string (codes n)) 249); [lia|]. exact Ef.
Qed.

(** * Scripts *)
Lemma script_places : map snd (skipn 86 binary_props) = map script_is (upto 163).
Proof. reflexivity. Qed.
Lemma script_place : forall k, 0 <= k < 163 -> option_map snd (nth_error binary_props (Z.to_nat (86 + k))) = Some (script_is k).
Proof.
  intros k Hk.
  assert (E : nth_error (map snd (skipn 86 binary_props)) (Z.to_nat k) = Some (script_is k)).
  { rewrite script_places. unfold upto. rewrite !nth_error_map.
    rewrite (nth_error_nth' (seq 0 163) 0%nat) by (rewrite seq_length; lia). rewrite seq_nth by lia. cbn [option_map].
    do 2 f_equal. lia. }
  rewrite nth_error_map in E. rewrite <- E. f_equal.
  rewrite <- (firstn_skipn 86 binary_props) at 1. rewrite nth_error_app2.
  - f_equal. change (List.length (firstn 86 binary_props)) with 86%nat. lia.
  - change (List.length (firstn 86 binary_props)) with 86%nat. lia.
Qed.
(** A script's name alone and with [script=] or [sc=]. *)
Lemma script_named : forall n k, In (n, k) scripts_names -> k <> script_unknown ->
  property (codes n) None = Some (script_is k) /\ property (codes "script") (Some (codes n)) = Some (script_is k) /\
  property (codes "sc") (Some (codes n)) = Some (script_is k) /\ property (codes "scx") (Some (codes n)) = Some (script_ext_is k).
Proof.
  assert (H : forallb (fun p => (0 <=? snd p) && (snd p <? 163) && (from_coded (coded binary_prop_names) (codes (fst p)) binary_unknown =? 86 + snd p)) scripts_names = true)
    by (vm_cast_no_check (eq_refl true)).
  intros n k Hin Hk. pose proof (proj1 (forallb_forall _ _) H _ Hin) as H'. cbn [fst snd] in H'. rewrite <- binary_coded in H'.
  assert (Hs : script_from_string (codes n) =? script_unknown = false) by (rewrite (script_unshadowed n k Hin); lia).
  unfold property. cbv zeta. replace (property_type_from_name (codes "script")) with PT_script by reflexivity.
  replace (property_type_from_name (codes "sc")) with PT_script by reflexivity.
  replace (property_type_from_name (codes "scx")) with PT_script_extension by reflexivity. rewrite Hs, (script_unshadowed n k Hin).
  split; [|split; [|split]]; try reflexivity. change binary_unknown with 249. change script_unknown with 162 in Hk.
  replace (binary_prop_from_string (codes n)) with (86 + k) by lia. destruct (Z.eqb_spec (86 + k) 249); [lia|].
  unfold get_binary_prop. apply script_place. lia.
Qed.

(** * From the pattern to the answer *)
Lemma property_pattern : forall props B n v t, is_property n -> (forall w, v = Some w -> is_property w) -> props n v = Some t ->
  let inside := n ++ match v with None => [] | Some w => codes "=" ++ w end ++ codes "}" in
  pattern_text props B (codes "\p{" ++ inside) (RCls (CProp t)) /\
  pattern_text props B (codes "\P{" ++ inside) (RCls (CNegate [CProp t])).
Proof.
  intros props B n v t Hn Hv Ht inside.
  assert (IT : forall u x, property_escape props u x -> pattern_text props B (92 :: u) (RCls x)).
  { intros u x H. exists 0%nat. apply al_branch, bt_one. rewrite <- (app_nil_r (92 :: u)).
    econstructor; [|constructor]. apply at_leaf. apply lt_property. exact H. }
  unfold inside. destruct v as [w|].
  - specialize (Hv w eq_refl). split; apply IT; rewrite <- app_assoc; [apply pe_value|apply pe_not_value]; assumption.
  - split; apply IT; [apply pe_name|apply pe_not_name]; assumption.
Qed.
Lemma one_class_total : forall opt n s f k, exists c, ctre_match opt (6 + n) s f (RCls k) = Ok c.
Proof.
  intros opt n s f k. unfold ctre_match, exec_match. change (6 + n)%nat with (S (S (S (S (S (S n)))))). destruct s as [|x [|y s]];
    cbn [eval eval_assert arr_view vend vget vnext vconv List.length Nat.eqb nth_error or_ub Nat.ltb Nat.leb];
    try (destruct (match_cls (f_ci f) k x)); eexists; reflexivity.
Qed.
Lemma u32_small : forall u, 0 <= u <= top -> u32 u = u.
Proof. intros u Hu. unfold u32. unfold top in Hu. apply Z.mod_small. lia. Qed.
Lemma table_cls_ok : forall ci f, cls_ok ci (CProp (table_of f)) = true.
Proof.
  intros ci f. cbn [cls_ok]. apply forallb_forall. intros p Hp. pose proof (table_range f p Hp) as H. unfold top in H. lia.
Qed.
Lemma table_has : forall ci f u, good f -> 0 <= u <= top -> f u = Ok (cls_has ci (CProp (table_of f)) u).
Proof.
  intros ci f u Hf Hu. rewrite (table_spec f u Hf Hu). f_equal. cbn [cls_has]. unfold match_prop. rewrite u32_small by exact Hu. reflexivity.
Qed.
Lemma negated_cls_ok : forall ci k, cls_ok ci k = true -> cls_ok ci (CNegate [k]) = true.
Proof. intros ci k H. cbn [cls_ok forallb]. rewrite H. reflexivity. Qed.
Lemma ok_bool : forall b, b = true <-> Ok b = Ok true.
Proof. intros []; split; congruence. Qed.
Lemma ok_negated : forall ci k x, cls_has ci (CNegate [k]) x = true <-> Ok (cls_has ci k x) = Ok false.
Proof. intros ci k x. cbn [cls_has existsb]. rewrite orb_false_r. destruct (cls_has ci k x); cbn; split; congruence. Qed.
Theorem property_match : forall name value g opt n s f, is_property name -> (forall w, value = Some w -> is_property w) ->
  property name value = Some g -> Forall (fun x => 0 <= x <= top) s ->
  let inside := name ++ match value with None => [] | Some w => codes "=" ++ w end ++ codes "}" in
  (exists r c, compile unicode_props (codes "\p{" ++ inside) = CRegex r /\ ctre_match opt (6 + n) s f r = Ok c /\
     (matched c = true <-> exists x, s = [x] /\ g x = Ok true)) /\
  (exists r c, compile unicode_props (codes "\P{" ++ inside) = CRegex r /\ ctre_match opt (6 + n) s f r = Ok c /\
     (matched c = true <-> exists x, s = [x] /\ g x = Ok false)).
Proof.
  intros name value g opt n s f Hn Hv Hg Hs inside.
  assert (Hp : unicode_props name value = Some (table_of g)) by (unfold unicode_props; rewrite Hg; reflexivity).
  pose proof (property_good _ _ _ Hg) as Hgood.
  destruct (property_pattern unicode_props library_builders name value _ Hn Hv Hp) as [P1 P2]. fold inside in P1, P2.
  assert (Main : forall k b, cls_ok (f_ci f) k = true -> (forall x, 0 <= x <= top -> (cls_has (f_ci f) k x = true <-> g x = Ok b)) ->
    exists c, ctre_match opt (6 + n) s f (RCls k) = Ok c /\ (matched c = true <-> exists x, s = [x] /\ g x = Ok b)).
  { intros k b Hk Hh. destruct s as [|x [|y s']].
    - destruct (one_class_total opt n [] f k) as (c & E). exists c. split; [exact E|]. split.
      + intros M. pose proof (C18_one_character _ _ _ _ _ _ E M) as L. discriminate L.
      + intros (x & Ex & _). discriminate Ex.
    - inversion Hs as [|? ? Hx _]; subst.
      destruct (C18_class opt n f k x) as (c & E & M); [exact Hk|unfold val_ok; unfold top in Hx; lia|]. exists c. split; [exact E|].
      rewrite M, (Hh x Hx). split; [intros H; eauto|]. intros (x' & Ex & H). injection Ex as <-. exact H.
    - destruct (one_class_total opt n (x :: y :: s') f k) as (c & E). exists c. split; [exact E|]. split.
      + intros M. pose proof (C18_one_character _ _ _ _ _ _ E M) as L. discriminate L.
      + intros (x0 & Ex & _). discriminate Ex. }
  split.
  - destruct (Main (CProp (table_of g)) true) as (c & E & M).
    + apply table_cls_ok.
    + intros x Hx. rewrite (table_has (f_ci f) g x Hgood Hx). apply ok_bool.
    + exists (RCls (CProp (table_of g))), c. split; [apply text_compiles; exact P1|]. split; [exact E|exact M].
  - destruct (Main (CNegate [CProp (table_of g)]) false) as (c & E & M).
    + apply negated_cls_ok, table_cls_ok.
    + intros x Hx. rewrite (table_has (f_ci f) g x Hgood Hx). apply ok_negated.
    + exists (RCls (CNegate [CProp (table_of g)])), c. split; [apply text_compiles; exact P2|]. split; [exact E|exact M].
Qed.
