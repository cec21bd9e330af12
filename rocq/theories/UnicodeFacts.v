(** Facts about the Unicode data, decided for all code points. *)
From Coq Require Import ZArith List String Bool Lia ZifyBool ZifyNat.
From Verif Require Import Chars Eval Parser UnicodeData Unicode UnicodeSearch UnicodeRef UnicodeTables UnicodeProps.
Import ListNotations.
Local Open Scope list_scope.
Open Scope Z_scope.

(** * Sweeps *)
Lemma sweep : forall (f : Z -> bool), pw B f -> forallb f Bt = true -> forall u, 0 <= u <= top -> f u = true.
Proof. intros f Hf Hc. apply (pw_check Bt); [apply Bt_ascending|reflexivity|apply pw_Bt; exact Hf|exact Hc]. Qed.
Definition reqb (a b : res bool) : bool := match a, b with Ok x, Ok y => Bool.eqb x y | _, _ => false end.
Lemma reqb_eq : forall a b, reqb a b = true -> a = b.
Proof. intros [] []; cbn; try discriminate. intros H. apply eqb_prop in H. congruence. Qed.
Lemma sweep_eq : forall f g, pw B f -> pw B g -> forallb (fun u => reqb (f u) (g u)) Bt = true ->
  forall u, 0 <= u <= top -> f u = g u.
Proof.
  intros f g Hf Hg Hc u Hu. apply reqb_eq. apply (sweep (fun u => reqb (f u) (g u))); [|exact Hc|exact Hu].
  apply (pw_map2 _ _ _ B f g reqb); assumption.
Qed.
Definition rimp (a b : res bool) : bool := match a, b with Ok x, Ok y => implb x y | _, _ => false end.
Lemma sweep_imp : forall f g, pw B f -> pw B g -> forallb (fun u => rimp (f u) (g u)) Bt = true ->
  forall u, 0 <= u <= top -> f u = Ok true -> g u = Ok true.
Proof.
  intros f g Hf Hg Hc u Hu E.
  assert (H : rimp (f u) (g u) = true).
  { apply (sweep (fun u => rimp (f u) (g u))); [|exact Hc|exact Hu]. apply (pw_map2 _ _ _ B f g rimp); assumption. }
  rewrite E in H. destruct (g u) as [[]| | | |]; cbn in H; congruence.
Qed.

(** The values of a function at [Bt] may be computed by other means. *)
Lemma sweep_values : forall A (g : Z -> A) (h : A -> bool) vs, map g Bt = vs -> pw B (fun u => h (g u)) -> forallb h vs = true ->
  forall u, 0 <= u <= top -> h (g u) = true.
Proof.
  intros A g h vs <- Hp Hc. apply (sweep (fun u => h (g u))); [exact Hp|]. rewrite forallb_forall in *.
  intros b Hb. apply Hc. apply in_map. exact Hb.
Qed.
Lemma map_pair : forall A C (f : Z -> A) (g : Z -> C) l, map (fun u => (f u, g u)) l = combine (map f l) (map g l).
Proof. intros A C f g. induction l as [|a l IH]; [reflexivity|]. cbn [map combine]. rewrite IH. reflexivity. Qed.

(** The value a list of ranges gives a number, and its values at the numbers of an ascending list in one pass. *)
Definition look {A} (d : A) (l : list (Z * Z * A)) (u : Z) : A :=
  match find (fun p => (fst (fst p) <=? u) && (u <=? snd (fst p))) l with Some p => snd p | None => d end.
Fixpoint walk {A} (d : A) (l : list (Z * Z * A)) : list Z -> list A :=
  match l with
  | [] => map (fun _ => d)
  | (lo, hi, v) :: l' => fix inner (bs : list Z) : list A :=
      match bs with
      | [] => []
      | b :: bs' => if b <? lo then d :: inner bs' else if b <=? hi then v :: inner bs' else walk d l' bs
      end
  end.
Fixpoint in_order {A} (m : Z) (l : list (Z * Z * A)) : bool :=
  match l with [] => true | (lo, hi, _) :: l' => (m <? lo) && (lo <=? hi) && in_order hi l' end.
Lemma in_order_none : forall A (d : A) l m u, in_order m l = true -> u <= m -> look d l u = d.
Proof.
  intros A d. induction l as [|[[lo hi] v] l IH]; intros m u H Hu; [reflexivity|]. cbn [in_order] in H.
  apply andb_true_iff in H as [H H']. unfold look. cbn [find fst snd].
  destruct ((lo <=? u) && (u <=? hi)) eqn:E; [lia|]. apply (IH hi u H'). lia.
Qed.
Lemma walk_spec : forall A (d : A) l m bs, in_order m l = true -> ascending bs = true -> walk d l bs = map (look d l) bs.
Proof.
  intros A d. induction l as [|[[lo hi] v] l IH]; intros m bs Hl Hb; [reflexivity|]. cbn [in_order] in Hl.
  apply andb_true_iff in Hl as [Hlo Hl]. revert Hb. induction bs as [|b bs IHb]; intros Hb; [reflexivity|].
  change (walk d ((lo, hi, v) :: l) (b :: bs)) with
    (if b <? lo then d :: walk d ((lo, hi, v) :: l) bs else if b <=? hi then v :: walk d ((lo, hi, v) :: l) bs else walk d l (b :: bs)).
  cbn [map].
  assert (Hs : look d ((lo, hi, v) :: l) b = if (lo <=? b) && (b <=? hi) then v else look d l b).
  { unfold look. cbn [find fst snd]. destruct ((lo <=? b) && (b <=? hi)); reflexivity. }
  destruct (Z.ltb_spec b lo).
  - f_equal; [|apply IHb; exact (ascending_tail _ _ Hb)]. rewrite Hs. replace ((lo <=? b) && (b <=? hi)) with false by lia.
    symmetry. apply (in_order_none _ d l hi b Hl). lia.
  - destruct (Z.leb_spec b hi).
    + f_equal; [|apply IHb; exact (ascending_tail _ _ Hb)]. rewrite Hs. replace (lo <=? b) with true by lia. reflexivity.
    + rewrite (IH hi (b :: bs) Hl Hb). cbn [map]. f_equal; [rewrite Hs; replace (lo <=? b) with true by lia; reflexivity|].
      apply map_ext_in. intros x Hx. pose proof (ascending_le _ _ x Hb Hx). unfold look. cbn [find fst snd].
      replace ((lo <=? x) && (x <=? hi)) with false by lia. reflexivity.
Qed.
Lemma values_look : forall A (d : A) l vs, (if in_order (-1) l then walk d l Bt else []) = vs -> vs <> [] -> map (look d l) Bt = vs.
Proof.
  intros A d l vs <- Hne. destruct (in_order (-1) l) eqn:E; [|contradiction]. symmetry. apply (walk_spec A d l (-1)); [exact E|apply Bt_ascending].
Qed.
Lemma values_walk : forall A (d : A) l, in_order (-1) l = true -> map (look d l) Bt = walk d l Bt.
Proof. intros A d l H. symmetry. apply (walk_spec A d l (-1)); [exact H|apply Bt_ascending]. Qed.
Lemma values_eq : forall A (f : Z -> A) g vs, (forall u, 0 <= u <= top -> f u = g u) -> map g Bt = vs -> map f Bt = vs.
Proof. intros A f g vs H <-. apply map_ext_in. intros b Hb. apply H. apply Bt_range. exact Hb. Qed.

(** * The reference data *)
Definition range_breaks (l : list (Z * Z)) : list Z := flat_map (fun p => [fst p; snd p + 1]) l.
Lemma range_breaks_spec : forall l p x y, (forall b, In b (range_breaks l) -> ~ (x < b <= y)) -> x <= y -> In p l ->
  (fst p <=? x) && (x <=? snd p) = ((fst p <=? y) && (y <=? snd p)).
Proof.
  intros l p x y H Hxy Hp.
  assert (H1 : In (fst p) (range_breaks l)) by (apply in_flat_map; exists p; split; [exact Hp|left; reflexivity]).
  assert (H2 : In (snd p + 1) (range_breaks l)) by (apply in_flat_map; exists p; split; [exact Hp|right; left; reflexivity]).
  apply H in H1. apply H in H2. lia.
Qed.
Lemma pw_in_ranges : forall l, pw (range_breaks l) (in_ranges l).
Proof.
  intros l x y H1 H2 H3. unfold in_ranges.
  assert (E : forall l', (forall p, In p l' -> In p l) ->
    existsb (fun p => (fst p <=? x) && (x <=? snd p)) l' = existsb (fun p => (fst p <=? y) && (y <=? snd p)) l'); [|apply E; auto].
  induction l' as [|p l' IH]; intros Hs; [reflexivity|]. cbn [existsb].
  rewrite (range_breaks_spec l p x y H3 ltac:(lia) (Hs p (or_introl eq_refl))).
  rewrite IH by (intros; apply Hs; right; assumption). reflexivity.
Qed.
Lemma pw_ref_category : pw (range_breaks (map fst ref_categories)) ref_category.
Proof.
  intros x y H1 H2 H3. unfold ref_category.
  assert (E : forall l', (forall p, In p l' -> In p ref_categories) ->
    find (fun p => (fst (fst p) <=? x) && (x <=? snd (fst p))) l' =
    find (fun p => (fst (fst p) <=? y) && (y <=? snd (fst p))) l'); [|rewrite E; auto].
  induction l' as [|p l' IH]; intros Hs; [reflexivity|]. cbn [find].
  rewrite (range_breaks_spec (map fst ref_categories) (fst p) x y H3 ltac:(lia) (in_map fst _ _ (Hs p (or_introl eq_refl)))).
  rewrite IH by (intros; apply Hs; right; assumption). reflexivity.
Qed.
Lemma pw_ref_numeric : pw (flat_breaks (map fst ref_numeric)) ref_numeric_value.
Proof.
  intros x y H1 H2 H3. unfold ref_numeric_value. f_equal.
  assert (E : forall l', (forall p, In p l' -> In p ref_numeric) ->
    find (fun p => fst p =? x) l' = find (fun p => fst p =? y) l'); [|apply E; auto].
  induction l' as [|p l' IH]; intros Hs; [reflexivity|]. cbn [find].
  pose proof (flat_breaks_spec (map fst ref_numeric) x y (fst p) H1 H3 (in_map fst _ _ (Hs p (or_introl eq_refl)))) as Hp.
  replace (fst p =? x) with (fst p =? y) by lia.
  rewrite IH by (intros; apply Hs; right; assumption). reflexivity.
Qed.
Lemma merged_in : forall l x, merge (sorted_of l) B = B -> In x l -> In x B.
Proof. intros l x H Hx. rewrite <- H. apply merge_in. left. apply sorted_of_in. exact Hx. Qed.
Ltac merged := let b := fresh "b" in let H := fresh "H" in intros b H; eapply merged_in; [|exact H]; vm_compute; reflexivity.
(** Values of the reference data at [Bt]. *)
Definition ones (l : list (Z * Z)) : list (Z * Z * bool) := map (fun p => (fst p, snd p, true)) l.
Lemma in_ranges_look : forall l u, in_ranges l u = look false (ones l) u.
Proof.
  induction l as [|[lo hi] l IH]; intros u; [reflexivity|]. unfold in_ranges, look in *. cbn [ones map existsb find fst snd].
  destruct (_ && _); [reflexivity|]. cbn [orb]. apply IH.
Qed.
Definition points (l : list (Z * Z)) : list (Z * Z * option Z) := map (fun p => (fst p, fst p, Some (snd p))) l.
Definition points2 (l : list (Z * (Z * Z))) : list (Z * Z * option (Z * Z)) := map (fun p => (fst p, fst p, Some (snd p))) l.
Lemma value_of_look : forall l u, value_of l u = look None (points l) u.
Proof.
  induction l as [|[k v] l IH]; intros u; [reflexivity|]. unfold value_of, look in *. cbn [points map find fst snd].
  replace ((k <=? u) && (u <=? k)) with (k =? u) by lia. destruct (k =? u); [reflexivity|]. apply IH.
Qed.
Lemma ref_numeric_look : forall u, ref_numeric_value u = look None (points2 ref_numeric) u.
Proof.
  intros u. unfold ref_numeric_value, look, points2. generalize ref_numeric as l.
  induction l as [|[k v] l IH]; [reflexivity|]. cbn [map find fst snd].
  replace ((k <=? u) && (u <=? k)) with (k =? u) by lia. destruct (k =? u); [reflexivity|exact IH].
Qed.
Fixpoint packed_spans (data : list Z) : list (Z * Z * Z) :=
  match data with
  | x :: tl => match tl with [] => [] | y :: _ => (key x, key y - 1, low x) :: packed_spans tl end
  | [] => []
  end.
Lemma packed_spans_entry : forall d pre x y post cp, ascending (map key (pre ++ x :: y :: post)) = true -> key x <= cp < key y ->
  look d (packed_spans (pre ++ x :: y :: post)) cp = low x.
Proof.
  intros d. induction pre as [|a pre IH]; intros x y post cp Ha Hc.
  - cbn [app packed_spans]. unfold look. cbn [find fst snd]. replace ((key x <=? cp) && (cp <=? key y - 1)) with true by lia. reflexivity.
  - cbn [app map] in Ha. cbn [app]. specialize (IH x y post cp (ascending_tail _ _ Ha) Hc).
    destruct (pre ++ x :: y :: post) as [|b l] eqn:E; [destruct pre; discriminate|].
    change (packed_spans (a :: b :: l)) with ((key a, key b - 1, low a) :: packed_spans (b :: l)).
    unfold look in *. cbn [find fst snd].
    assert (Hb : key b <= key x).
    { destruct pre as [|b' pre]; cbn [app] in E; injection E as -> <-; [lia|].
      cbn [map] in Ha. pose proof (ascending_le (map key (pre ++ x :: y :: post)) (key b) (key x) (ascending_tail _ _ Ha)) as H.
      rewrite map_app in H.
      assert (key b < key x) by (apply H; apply in_or_app; right; left; reflexivity). lia. }
    replace ((key a <=? cp) && (cp <=? key b - 1)) with false by lia. exact IH.
Qed.
Lemma packed_spans_find : forall data cp d, look d (packed_spans data) cp = d \/ exists x, packed_entry data cp x.
Proof.
  induction data as [|a data IH]; intros cp d; [left; reflexivity|]. destruct data as [|b data]; [left; reflexivity|].
  change (packed_spans (a :: b :: data)) with ((key a, key b - 1, low a) :: packed_spans (b :: data)).
  unfold look. cbn [find fst snd]. destruct ((key a <=? cp) && (cp <=? key b - 1)) eqn:E.
  - right. exists a, [], b, data. split; [reflexivity|]. lia.
  - destruct (IH cp d) as [H|(x & pre & y & post & H & H')]; [left; exact H|right]. exists x, (a :: pre), y, post.
    split; [cbn [app]; rewrite <- H; reflexivity|exact H'].
Qed.
Lemma packed_look : forall data cp d, starts_at_zero data -> ascending (map key data) = true -> 0 <= cp ->
  range_value data cp d = Ok (look d (packed_spans data) cp).
Proof.
  intros data cp d Hz Ha Hc. destruct (range_value_spec data cp d Hz Ha Hc) as [(x & (pre & y & post & E & H) & ->)|(Hn & ->)].
  - f_equal. subst data. symmetry. apply packed_spans_entry; assumption.
  - f_equal. destruct (packed_spans_find data cp d) as [->|(x & H)]; [reflexivity|]. exfalso. exact (Hn x H).
Qed.
Definition category_values : list Z := Eval vm_compute in walk gc_cn ref_categories Bt.
Lemma category_values_eq : map ref_category Bt = category_values.
Proof.
  apply (values_eq _ _ (look gc_cn ref_categories)); [reflexivity|]. apply values_look; [vm_cast_no_check (eq_refl category_values)|discriminate].
Qed.
Lemma pw_category : pw B ref_category.
Proof. apply (pw_mono _ (range_breaks (map fst ref_categories))); [merged|apply pw_ref_category]. Qed.
Lemma pw_lowercase : pw B (in_ranges ref_lowercase).
Proof. apply (pw_mono _ (range_breaks ref_lowercase)); [merged|apply pw_in_ranges]. Qed.
Lemma pw_uppercase : pw B (in_ranges ref_uppercase).
Proof. apply (pw_mono _ (range_breaks ref_uppercase)); [merged|apply pw_in_ranges]. Qed.
Lemma pw_xid_start : pw B (in_ranges ref_xid_start).
Proof. apply (pw_mono _ (range_breaks ref_xid_start)); [merged|apply pw_in_ranges]. Qed.
Lemma pw_xid_continue : pw B (in_ranges ref_xid_continue).
Proof. apply (pw_mono _ (range_breaks ref_xid_continue)); [merged|apply pw_in_ranges]. Qed.
Lemma pw_bidi_mirrored : pw B (in_ranges ref_bidi_mirrored).
Proof. apply (pw_mono _ (range_breaks ref_bidi_mirrored)); [merged|apply pw_in_ranges]. Qed.
Lemma pw_numeric_value : pw B ref_numeric_value.
Proof. apply (pw_mono _ (flat_breaks (map fst ref_numeric))); [merged|apply pw_ref_numeric]. Qed.

(** * Agreement with the reference data *)
Ltac pwb := match goal with
  | |- pw B (fun c => Ok (@?g c)) => apply (pw_map _ _ B g Ok); pwb
  | |- pw B (fun c => _ ||| _) => apply pw_orelse; pwb
  | |- pw B (fun c => _ &&& _) => apply pw_andthen; pwb
  | |- pw B (fun c => notr (@?g c)) => apply (pw_map _ _ B g notr); pwb
  | |- pw B (in_ranges ref_lowercase) => apply pw_lowercase
  | |- pw B (in_ranges ref_uppercase) => apply pw_uppercase
  | |- pw B (in_ranges ref_xid_start) => apply pw_xid_start
  | |- pw B (in_ranges ref_xid_continue) => apply pw_xid_continue
  | |- pw B (in_ranges ref_bidi_mirrored) => apply pw_bidi_mirrored
  | |- pw B (fun c => ?f c) => change (pw B f); pwb
  | |- pw B ?f => apply (proj1 (A := pw B f) (B := total f)); change (good f); first [good1 | good_prop]
  end.
Ltac vm_true := vm_cast_no_check (eq_refl true).
Ltac swept := first [apply sweep_eq | apply sweep_imp]; [pwb|pwb|vm_true].

Lemma sweep_ranges : forall f l, pw B f -> pw B (in_ranges l) ->
  (let vs := if in_order (-1) (ones l) then walk false (ones l) Bt else [] in
   match vs with [] => false | _ :: _ => forallb (fun p => reqb (f (fst p)) (Ok (snd p))) (combine Bt vs) end) = true ->
  forall u, 0 <= u <= top -> f u = Ok (in_ranges l u).
Proof.
  intros f l Hf Hl Hc u Hu. cbv zeta in Hc. set (vs := if in_order (-1) (ones l) then walk false (ones l) Bt else []) in *.
  assert (Hv : map (look false (ones l)) Bt = vs) by (apply values_look; [reflexivity|]; destruct vs; discriminate).
  apply reqb_eq. apply (sweep_values (Z * bool) (fun u => (u, in_ranges l u)) (fun p => reqb (f (fst p)) (Ok (snd p))) (combine Bt vs)); [| |destruct vs; [discriminate|exact Hc]|exact Hu].
  - rewrite map_pair, map_id. f_equal. rewrite <- Hv. apply map_ext. apply in_ranges_look.
  - cbn [fst snd]. apply (pw_map2 _ _ _ B f (in_ranges l) (fun a b => reqb a (Ok b))); assumption.
Qed.
Ltac swept_ranges := apply sweep_ranges; [pwb|pwb|vm_true].

(** The code points of category Pd that are listed but not found. *)
Definition lost_dashes : list Z :=
  [0x2d; 0x58a; 0x5be; 0x2010; 0x2011; 0x2012; 0x2e3a; 0x2e3b; 0x2e40; 0x2e5d; 0x3030; 0xfe31; 0xfe32; 0xff0d; 0x10ead].
Definition is_lost (u : Z) : bool := existsb (fun x => x =? u) lost_dashes.
Lemma pw_lost : pw B is_lost.
Proof.
  apply (pw_mono _ (flat_breaks lost_dashes)); [merged|]. intros x y H1 H2 H3.
  pose proof (pw_flat_lookup lost_dashes x y H1 H2 H3) as H. unfold flat_lookup in H. cbn [Nat.ltb] in H.
  change (Nat.ltb (List.length lost_dashes) 20) with true in H. cbn beta iota in H. injection H as H. exact H.
Qed.

Lemma sweep_category : forall h, pw B (fun u => h u (ref_category u)) ->
  forallb (fun p => h (fst p) (snd p)) (combine Bt category_values) = true ->
  forall u, 0 <= u <= top -> h u (ref_category u) = true.
Proof.
  intros h Hp Hc u Hu. apply (sweep_values (Z * Z) (fun u => (u, ref_category u)) (fun p => h (fst p) (snd p)) (combine Bt category_values)); [|exact Hp|exact Hc|exact Hu].
  rewrite map_pair, map_id, category_values_eq. reflexivity.
Qed.
Lemma category_ref : forall u, 0 <= u <= top ->
  cp_category u = Ok (if is_lost u then gc_cn else ref_category u) /\ (is_lost u = true -> ref_category u = gc_pd).
Proof.
  intros u Hu.
  assert (H : (match cp_category u with Ok k => (k =? (if is_lost u then gc_cn else ref_category u)) | _ => false end) &&
              implb (is_lost u) (ref_category u =? gc_pd) = true).
  { apply (sweep_category (fun u k' => (match cp_category u with Ok k => (k =? (if is_lost u then gc_cn else k')) | _ => false end) &&
              implb (is_lost u) (k' =? gc_pd))); [|vm_true|exact Hu].
    pose proof (proj1 good_cp_category) as Hc. pose proof pw_category as Hr. pose proof pw_lost as Hl.
    intros x y H1 H2 H3. rewrite (Hc x y H1 H2 H3), (Hr x y H1 H2 H3), (Hl x y H1 H2 H3). reflexivity. }
  apply andb_true_iff in H as [H1 H2]. split.
  - destruct (cp_category u); try discriminate. f_equal. lia.
  - intros E. rewrite E in H2. cbn in H2. lia.
Qed.

Lemma lower_ref : forall u, 0 <= u <= top -> prop_lower u = Ok (in_ranges ref_lowercase u).
Proof. swept_ranges. Qed.
Lemma upper_ref : forall u, 0 <= u <= top -> prop_upper u = Ok (in_ranges ref_uppercase u).
Proof. swept_ranges. Qed.
Lemma xids_ref : forall u, 0 <= u <= top -> prop_xids u = Ok (in_ranges ref_xid_start u).
Proof. swept_ranges. Qed.
Lemma xidc_ref : forall u, 0 <= u <= top -> prop_xidc u = Ok (in_ranges ref_xid_continue u).
Proof. swept_ranges. Qed.
Lemma bidi_ref : forall u, 0 <= u <= top -> prop_bidi_m u = Ok (in_ranges ref_bidi_mirrored u).
Proof. swept_ranges. Qed.

(** Every table of [category_order] is the set of code points of that category. *)
Lemma category_tables_ref : forall f k, In (f, k) category_order -> k <> gc_pd ->
  forall u, 0 <= u <= top -> f u = Ok (ref_category u =? k).
Proof.
  assert (H : forall u, 0 <= u <= top -> forallb (fun p => (snd p =? gc_pd) || reqb (fst p u) (Ok (ref_category u =? snd p))) category_order = true).
  { apply (sweep_category (fun u k => forallb (fun p => (snd p =? gc_pd) || reqb (fst p u) (Ok (k =? snd p))) category_order)).
    - assert (E : forall l, Forall (fun p => good (fst p)) l ->
        pw B (fun u => forallb (fun p : (Z -> res bool) * Z => (snd p =? gc_pd) || reqb (fst p u) (Ok (ref_category u =? snd p))) l)).
      { induction l as [|[f k] l IH]; intros Hl; cbn [forallb]; [apply pw_const|]. inversion Hl as [|? ? Hf Hl']; subst.
        cbn [fst snd] in *. apply pw_andb; [|apply IH; exact Hl'].
        pose proof (proj1 Hf) as Hp. pose proof pw_category as Hr. intros x y H1 H2 H3.
        rewrite (Hp x y H1 H2 H3), (Hr x y H1 H2 H3). reflexivity. }
      apply E. apply good_category.
    - vm_true. }
  intros f k Hin Hk u Hu. specialize (H u Hu). pose proof (proj1 (forallb_forall _ _) H _ Hin) as H'. cbn [fst snd] in H'.
  apply orb_true_iff in H' as [H'|H']; [lia|]. apply reqb_eq. exact H'.
Qed.
Lemma pd_ref : forall u, 0 <= u <= top -> cat_is_pd u = Ok ((ref_category u =? gc_pd) && negb (is_lost u)).
Proof.
  intros u Hu. apply reqb_eq.
  apply (sweep_category (fun u k => reqb (cat_is_pd u) (Ok ((k =? gc_pd) && negb (is_lost u))))); [|vm_true|exact Hu].
  assert (Hd : pw B cat_is_pd) by pwb. pose proof pw_category as Hr. pose proof pw_lost as Hl. intros x y H1 H2 H3.
  rewrite (Hd x y H1 H2 H3), (Hr x y H1 H2 H3), (Hl x y H1 H2 H3). reflexivity.
Qed.

(** The groups of categories. *)
Definition is_one (l : list Z) (u : Z) : bool := existsb (fun k => ref_category u =? k) l.
Lemma or_is_one : forall a b l1 l2 u, a = Ok (is_one l1 u) -> b = Ok (is_one l2 u) -> a ||| b = Ok (is_one (l1 ++ l2) u).
Proof.
  intros a b l1 l2 u -> ->. unfold is_one. rewrite existsb_app. cbn [orelse bind]. destruct (existsb _ l1); reflexivity.
Qed.
Lemma single_is_one : forall f k, In (f, k) category_order -> k <> gc_pd -> forall u, 0 <= u <= top -> f u = Ok (is_one [k] u).
Proof.
  intros f k H1 H2 u Hu. rewrite (category_tables_ref f k H1 H2 u Hu). unfold is_one. cbn [existsb]. rewrite orb_false_r. reflexivity.
Qed.
Ltac find_pair := match goal with
  | |- In (?f, _) ((?f, _) :: _) => left; reflexivity
  | |- In _ (_ :: _) => right; find_pair
  end.
Ltac one := match goal with
  | |- _ ||| _ = _ => eapply or_is_one; one
  | |- _ => first [eassumption | eapply single_is_one; [unfold category_order; find_pair|discriminate|assumption]]
  end.
Ltac grouped := unfold cat_is_co, cat_is_lo, cat_is_so, cat_is_ll, cat_is_cs, cat_is_mn, cat_is_lu, cat_is_sm, cat_is_no, cat_is_nd,
    cat_is_po, cat_is_mc, cat_is_lm, cat_is_nl, cat_is_cf, cat_is_sk, cat_is_ps, cat_is_pe, cat_is_cc, cat_is_sc,
    cat_is_lt, cat_is_zs, cat_is_me, cat_is_pi, cat_is_pf, cat_is_pc, cat_is_zp, cat_is_zl;
  eapply eq_trans; [one|reflexivity].
Lemma cat_l_ref : forall u, 0 <= u <= top -> cat_is_l u = Ok (is_one [gc_lo; gc_ll; gc_lu; gc_lm; gc_lt] u).
Proof. intros u Hu. unfold cat_is_l. grouped. Qed.
Lemma cat_lc_ref : forall u, 0 <= u <= top -> cat_is_lc u = Ok (is_one [gc_ll; gc_lu; gc_lt] u).
Proof. intros u Hu. unfold cat_is_lc. grouped. Qed.
Lemma cat_m_ref : forall u, 0 <= u <= top -> cat_is_m u = Ok (is_one [gc_mn; gc_mc; gc_me] u).
Proof. intros u Hu. unfold cat_is_m. grouped. Qed.
Lemma cat_n_ref : forall u, 0 <= u <= top -> cat_is_n u = Ok (is_one [gc_no; gc_nd; gc_nl] u).
Proof. intros u Hu. unfold cat_is_n. grouped. Qed.
Lemma cat_s_ref : forall u, 0 <= u <= top -> cat_is_s u = Ok (is_one [gc_so; gc_sm; gc_sk; gc_sc] u).
Proof. intros u Hu. unfold cat_is_s. grouped. Qed.
Lemma cat_z_ref : forall u, 0 <= u <= top -> cat_is_z u = Ok (is_one [gc_zs; gc_zp; gc_zl] u).
Proof. intros u Hu. unfold cat_is_z. grouped. Qed.
Lemma cat_c_ref : forall u, 0 <= u <= top -> cat_is_c u = Ok (is_one [gc_co; gc_cs; gc_cf; gc_cc] u).
Proof. intros u Hu. unfold cat_is_c. grouped. Qed.
Lemma cat_p_ref : forall u, 0 <= u <= top -> ~ In u lost_dashes ->
  cat_is_p u = Ok (is_one [gc_po; gc_ps; gc_pe; gc_pd; gc_pi; gc_pf; gc_pc] u).
Proof.
  intros u Hu Hl.
  assert (Hd : cat_is_pd u = Ok (is_one [gc_pd] u)).
  { rewrite (pd_ref u Hu). unfold is_one. cbn [existsb]. rewrite orb_false_r. f_equal.
    destruct (is_lost u) eqn:E; [|apply andb_true_r]. exfalso. apply Hl. unfold is_lost in E.
    apply existsb_exists in E as (x & Hx & Ex). replace u with x by lia. exact Hx. }
  unfold cat_is_p. grouped.
Qed.
(** No code point has two categories. *)
Lemma categories_disjoint : forall f g v w u, In (f, v) category_order -> In (g, w) category_order -> 0 <= u <= top ->
  f u = Ok true -> g u = Ok true -> v = w.
Proof.
  assert (H : forall f v u, In (f, v) category_order -> 0 <= u <= top -> f u = Ok true -> ref_category u = v).
  { intros f v u Hin Hu Hf. destruct (Z.eq_dec v gc_pd) as [->|Hne].
    - assert (Ef : f = cat_is_pd).
      { clear -Hin. unfold category_order in Hin. cbn [In] in Hin.
        repeat (destruct Hin as [Hin|Hin]; [first [discriminate (f_equal snd Hin) | exact (eq_sym (f_equal fst Hin))]|]).
        contradiction. }
      rewrite Ef, (pd_ref u Hu) in Hf. injection Hf as Hf. lia.
    - rewrite (category_tables_ref f v Hin Hne u Hu) in Hf. injection Hf as Hf. lia. }
  intros f g v w u H1 H2 Hu Hf Hg. rewrite <- (H f v u H1 Hu Hf), <- (H g w u H2 Hu Hg). reflexivity.
Qed.

(** Numeric values, as fractions. *)
Definition same_fraction (a b : option (Z * Z)) : bool :=
  match a, b with
  | None, None => true
  | Some (n, d), Some (n', d') => (0 <? d) && (0 <? d') && (n * d' =? n' * d)
  | _, _ => false
  end.
(** The value from what the five tables say. *)
Definition number (a b c d : option Z) (e : Z) : option (Z * Z) :=
  match (match (match (match a with Some v => Some v | None => b end) with Some v => Some v | None => c end) with
         | Some v => Some v | None => if e =? 255 then None else Some e end) with
  | Some v => Some (v, match d with Some d => d | None => 1 end)
  | None => None
  end.
Definition numeric8 : list (Z * Z * Z) := map (fun x => (key x, key x, low x)) numeric_data8.
Lemma numeric8_look : forall u, match value_of (map (fun x => (key x, low x)) numeric_data8) u with Some v => v | None => 255 end = look 255 numeric8 u.
Proof.
  intros u. unfold value_of, look, numeric8. generalize numeric_data8 as l.
  induction l as [|x l IH]; [reflexivity|]. cbn [map find fst snd].
  replace ((key x <=? u) && (u <=? key x)) with (key x =? u) by lia. destruct (key x =? u); [reflexivity|exact IH].
Qed.
Lemma numeric_ascending : ascending (map fst numeric_data64) && ascending (map fst numeric_data32) && ascending (map fst numeric_data16) &&
  ascending (map fst numeric_data_d) && ascending (map key numeric_data8) = true.
Proof. vm_true. Qed.
Lemma numeric_number : forall u, cp_numeric_value u =
  Ok (number (look None (points numeric_data64) u) (look None (points numeric_data32) u) (look None (points numeric_data16) u)
             (look None (points numeric_data_d) u) (look 255 numeric8 u)).
Proof.
  intros u. pose proof numeric_ascending as H. rewrite !andb_true_iff in H. destruct H as [[[[H64 H32] H16] Hd] H8].
  unfold cp_numeric_value. rewrite (numeric_spec _ u H64), (numeric_spec _ u H32), (numeric_spec _ u H16), (numeric_spec _ u Hd), (list_value_spec _ u 255 H8).
  rewrite numeric8_look, !value_of_look. unfold number.
  destruct (look None (points numeric_data64) u); [reflexivity|]. cbn [bind].
  destruct (look None (points numeric_data32) u); [reflexivity|]. cbn [bind].
  destruct (look None (points numeric_data16) u); [reflexivity|]. cbn [bind].
  destruct (look 255 numeric8 u =? 255); reflexivity.
Qed.
Lemma ok_inj : forall A (a b : A), Ok a = Ok b -> a = b.
Proof. intros A a b H. injection H. auto. Qed.
Lemma numeric_in_order : in_order (-1) (points numeric_data64) && in_order (-1) (points numeric_data32) && in_order (-1) (points numeric_data16) &&
  in_order (-1) (points numeric_data_d) && in_order (-1) numeric8 && in_order (-1) (points2 ref_numeric) = true.
Proof. vm_true. Qed.
Definition numeric_values : list (option Z * (option Z * (option Z * (option Z * (Z * option (Z * Z)))))) :=
  combine (walk None (points numeric_data64) Bt) (combine (walk None (points numeric_data32) Bt) (combine (walk None (points numeric_data16) Bt)
    (combine (walk None (points numeric_data_d) Bt) (combine (walk 255 numeric8 Bt) (walk None (points2 ref_numeric) Bt))))).
Lemma numeric_ref : forall u, 0 <= u <= top -> exists v, cp_numeric_value u = Ok v /\ same_fraction v (ref_numeric_value u) = true.
Proof.
  intros u Hu. rewrite numeric_number, ref_numeric_look. eexists. split; [reflexivity|].
  apply (sweep_values _ (fun u => (look None (points numeric_data64) u, (look None (points numeric_data32) u, (look None (points numeric_data16) u,
             (look None (points numeric_data_d) u, (look 255 numeric8 u, look None (points2 ref_numeric) u))))))
    (fun p => let '(a, (b, (c, (d, (e, r))))) := p in same_fraction (number a b c d e) r) numeric_values); [| |vm_true|exact Hu].
  - pose proof numeric_in_order as H. rewrite !andb_true_iff in H. destruct H as [[[[[H64 H32] H16] Hd] H8] Hr].
    rewrite !map_pair. rewrite (values_walk _ None _ H64), (values_walk _ None _ H32), (values_walk _ None _ H16), (values_walk _ None _ Hd),
      (values_walk _ 255 _ H8), (values_walk _ None _ Hr). unfold numeric_values. reflexivity.
  - pose proof (proj1 good_numeric_value) as Hc. pose proof pw_numeric_value as Hr. intros x y H1 H2 H3.
    specialize (Hc x y H1 H2 H3). specialize (Hr x y H1 H2 H3). rewrite !numeric_number in Hc. rewrite !ref_numeric_look in Hr.
    apply ok_inj in Hc. rewrite Hc, Hr. reflexivity.
Qed.

(** * Properties derived from others (Unicode Standard, DerivedCoreProperties) *)
Lemma alpha_derived : forall u, 0 <= u <= top ->
  prop_alpha u = (fun u => prop_lower u ||| prop_upper u ||| cat_is_lt u ||| cat_is_lm u ||| cat_is_lo u ||| cat_is_nl u ||| trie_lookup prop_oalpha_data u) u.
Proof. swept. Qed.
Lemma gr_base_derived : forall u, 0 <= u <= top ->
  prop_gr_base u = (fun u => cp_is_assigned u &&& notr (cat_is_cc u ||| cat_is_cf u ||| cat_is_cs u ||| cat_is_co u ||| cat_is_zl u ||| cat_is_zp u ||| prop_gr_ext u)) u.
Proof. swept. Qed.
Definition subsets : list ((Z -> res bool) * (Z -> res bool)) :=
  [(prop_xids, prop_ids); (prop_xidc, prop_idc); (prop_ids, prop_idc); (prop_xids, prop_xidc); (cat_is_zs, prop_wspace);
   (prop_uideo, prop_ideo); (prop_ahex, prop_hex); (prop_sterm, prop_term); (prop_emoji_modifier, prop_emoji);
   (prop_emoji_presentation, prop_emoji); (prop_emoji_modifier_base, prop_emoji); (cat_is_sm, prop_math);
   (prop_lower, prop_cased); (prop_upper, prop_cased); (prop_cased, prop_alpha)].
Lemma subset_all : forall f g, In (f, g) subsets -> forall u, 0 <= u <= top -> f u = Ok true -> g u = Ok true.
Proof.
  intros f g H. unfold subsets in H. cbn [In] in H.
  repeat (destruct H as [H|H]; [injection H as <- <-; swept|]). contradiction.
Qed.

(** * Scripts, ages *)
Lemma pw_res : forall A (f : Z -> res A), good f -> pw B f.
Proof. intros A f [H _]. exact H. Qed.
Definition script_values : list Z := Eval vm_compute in
  match script_data with [] => [] | t :: _ => walk script_unknown (packed_spans t) Bt end.
Definition age_values : list Z := Eval vm_compute in walk 0 (packed_spans age_data) Bt.
Definition script_table : list Z := nth 0 script_data [].
Lemma script_look : forall u, 0 <= u <= top -> cp_script u = Ok (look script_unknown (packed_spans script_table) u).
Proof.
  intros u Hu. unfold cp_script, cp_script_n. change 0x10FFFF with top. destruct (Z.ltb_spec top u); [lia|].
  change (nth_error script_data 0) with (Some script_table).
  destruct (range_shape script_table) as [H1 H2]; [unfold ranges; apply in_or_app; right; left; reflexivity|].
  apply packed_look; [exact H1|exact H2|lia].
Qed.
Lemma age_look : forall u, 0 <= u <= top -> cp_age u = Ok (look 0 (packed_spans age_data) u).
Proof.
  intros u Hu. unfold cp_age. destruct (range_shape age_data) as [H1 H2]; [unfold ranges; find_range|].
  apply packed_look; [exact H1|exact H2|lia].
Qed.
Lemma script_values_eq : map (look script_unknown (packed_spans script_table)) Bt = script_values.
Proof. apply values_look; [vm_cast_no_check (eq_refl script_values)|discriminate]. Qed.
Lemma age_values_eq : map (look 0 (packed_spans age_data)) Bt = age_values.
Proof. apply values_look; [vm_cast_no_check (eq_refl age_values)|discriminate]. Qed.
Lemma pw_look : forall A (f : Z -> res A) g, good f -> (forall u, 0 <= u <= top -> f u = Ok (g u)) -> pw B g.
Proof.
  intros A f g [Hf _] H x y H1 H2 H3. specialize (Hf x y H1 H2 H3). rewrite !H in Hf by lia. congruence.
Qed.
Lemma script_assigned : forall u, 0 <= u <= top -> exists k, cp_script u = Ok k /\ (k <> script_unknown -> cp_is_assigned u = Ok true).
Proof.
  intros u Hu. exists (look script_unknown (packed_spans script_table) u). split; [apply script_look; exact Hu|].
  intros Hk.
  assert (H : (look script_unknown (packed_spans script_table) u =? script_unknown) || reqb (cp_is_assigned u) (Ok true) = true).
  { apply (sweep_values _ (fun u => (u, look script_unknown (packed_spans script_table) u))
      (fun p => (snd p =? script_unknown) || reqb (cp_is_assigned (fst p)) (Ok true)) (combine Bt script_values)); [| |vm_true|exact Hu].
    - rewrite map_pair, map_id, script_values_eq. reflexivity.
    - assert (Ha : pw B cp_is_assigned) by pwb.
      pose proof (pw_look _ _ _ (good_script_n 0 ltac:(lia)) script_look) as Hs. intros x y H1 H2 H3. cbn [fst snd].
      rewrite (Hs x y H1 H2 H3), (Ha x y H1 H2 H3). reflexivity. }
  apply reqb_eq. destruct (Z.eqb_spec (look script_unknown (packed_spans script_table) u) script_unknown); [contradiction|exact H].
Qed.
(** A code point has an age iff its category is not Cn. *)
Lemma age_ref : forall u, 0 <= u <= top -> exists k, cp_age u = Ok k /\ 0 <= k <= 24 /\ (k <> 0 <-> ref_category u <> gc_cn).
Proof.
  intros u Hu. exists (look 0 (packed_spans age_data) u). split; [apply age_look; exact Hu|].
  assert (H : (fun k c => (0 <=? k) && (k <=? 24) && Bool.eqb (k =? 0) (c =? gc_cn)) (look 0 (packed_spans age_data) u) (ref_category u) = true).
  { apply (sweep_values _ (fun u => (look 0 (packed_spans age_data) u, ref_category u))
      (fun p => (0 <=? fst p) && (fst p <=? 24) && Bool.eqb (fst p =? 0) (snd p =? gc_cn)) (combine age_values category_values)); [| |vm_true|exact Hu].
    - rewrite map_pair, age_values_eq, category_values_eq. reflexivity.
    - pose proof pw_category as Hr. pose proof (pw_look _ _ _ good_age age_look) as Ha. intros x y H1 H2 H3. cbn [fst snd].
      rewrite (Ha x y H1 H2 H3), (Hr x y H1 H2 H3). reflexivity. }
  cbn beta in H. apply andb_true_iff in H as [H H']. split; [lia|]. apply eqb_prop in H'. lia.
Qed.
