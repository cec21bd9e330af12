(** Every Unicode property test ends, stays inside its tables and changes only at the code points of [B]. *)
From Coq Require Import ZArith List String Bool Lia ZifyBool ZifyNat.
From Verif Require Import Chars Eval Parser UnicodeData Unicode UnicodeSearch UnicodeRef UnicodeTables.
Import ListNotations.
Local Open Scope list_scope.
Open Scope Z_scope.

Definition total {A} (f : Z -> res A) : Prop := forall c, 0 <= c -> exists a, f c = Ok a.
Definition good {A} (f : Z -> res A) : Prop := pw B f /\ total f.

Lemma in_B : forall l b, In l ([sorted_of constants] ++ map trie_breaks tries ++ map (map key) ranges ++
             map sorted_breaks flats) -> In b l -> In b B.
Proof. intros l b H1 H2. rewrite <- B_eq. unfold all_breaks. apply (merge_all_in _ l); assumption. Qed.
Lemma const_in_B : forall k, In k constants -> In k B.
Proof. intros k H. apply (in_B (sorted_of constants)); [left; reflexivity|apply sorted_of_in; exact H]. Qed.

Lemma tries_ok : forallb trie_ok tries = true.
Proof. vm_compute. reflexivity. Qed.
Definition zero_and_ascending (d : list Z) : bool :=
  match d with [] => false | x :: _ => key x =? 0 end && ascending (map key d).
Lemma ranges_ok : forallb zero_and_ascending ranges = true.
Proof. vm_compute. reflexivity. Qed.

Lemma trie_good : forall t, In t tries -> good (trie_lookup t).
Proof.
  intros t Ht. pose proof (proj1 (forallb_forall _ _) tries_ok t Ht) as Hok. split.
  - apply (pw_mono _ (trie_breaks t)); [|apply pw_trie; exact Hok]. intros b Hb. apply (in_B (trie_breaks t)); [|exact Hb].
    apply in_or_app. right. apply in_or_app. left. apply in_map. exact Ht.
  - intros c Hc. apply trie_lookup_ok; assumption.
Qed.
Lemma range_shape : forall d, In d ranges -> starts_at_zero d /\ ascending (map key d) = true.
Proof.
  intros d Hd. pose proof (proj1 (forallb_forall _ _) ranges_ok d Hd) as Hok. unfold zero_and_ascending in Hok.
  apply andb_true_iff in Hok as [H1 H2]. split; [|exact H2]. destruct d as [|x d]; [discriminate|].
  exists x, d. split; [reflexivity|lia].
Qed.
Lemma range_in_B : forall d b, In d ranges -> In b (map key d) -> In b B.
Proof.
  intros d b Hd Hb. apply (in_B (map key d)); [|exact Hb]. apply in_or_app. right. apply in_or_app. right.
  apply in_or_app. left. apply (in_map (map key)). exact Hd.
Qed.
Lemma flat_in_B : forall d b, In d flats -> In b (flat_breaks d) -> In b B.
Proof.
  intros d b Hd Hb. apply (in_B (sorted_breaks d)); [|apply sorted_breaks_in; exact Hb]. apply in_or_app. right.
  apply in_or_app. right. apply in_or_app. right. apply (in_map sorted_breaks). exact Hd.
Qed.
Lemma range_good : forall d, In d ranges -> good (range_lookup d).
Proof.
  intros d Hd. destruct (range_shape d Hd) as [H1 H2]. split.
  - apply (pw_mono _ (map key d)); [|apply pw_range_lookup]. intros b. apply range_in_B. exact Hd.
  - intros c Hc. destruct (range_lookup_spec d c H1 H2 Hc) as (b & E & _). eauto.
Qed.
Lemma value_good : forall d v, In d ranges -> good (fun c => range_value d c v).
Proof.
  intros d v Hd. destruct (range_shape d Hd) as [H1 H2]. split.
  - apply (pw_mono _ (map key d)); [|apply pw_range_value]. intros b. apply range_in_B. exact Hd.
  - intros c Hc. destruct (range_value_spec d c v H1 H2 Hc) as [(x & _ & E)|(_ & E)]; eauto.
Qed.
Lemma flat_good : forall d, In d flats -> good (flat_lookup d).
Proof.
  intros d Hd. split.
  - apply (pw_mono _ (flat_breaks d)); [|apply pw_flat_lookup]. intros b. apply flat_in_B. exact Hd.
  - intros c Hc. apply flat_lookup_total.
Qed.
Lemma numeric_total : forall d c, exists v, numeric d c = Ok v.
Proof.
  intros d c. unfold numeric. destruct (bound_total (map fst d) (fun x => x <? c)) as (i & -> & H & _). cbn [bind].
  rewrite map_length in H. destruct (Nat.eqb_spec i (List.length d)); [eauto|].
  destruct (nth_error d i) as [[k v]|] eqn:E; [destruct (k =? c); eauto|]. apply nth_error_None in E. lia.
Qed.
Lemma numeric_good : forall d, In (map fst d) flats -> good (numeric d).
Proof.
  intros d Hd. split.
  - apply (pw_mono _ (flat_breaks (map fst d))); [|apply pw_numeric]. intros b. apply flat_in_B. exact Hd.
  - intros c Hc. apply numeric_total.
Qed.
Lemma list_good : forall d v, In (map key d) flats -> good (fun c => list_value d c v).
Proof.
  intros d v Hd. split.
  - apply (pw_mono _ (flat_breaks (map key d))); [|apply pw_list_value]. intros b. apply flat_in_B. exact Hd.
  - intros c Hc. unfold list_value. destruct (bound_total d (fun x => key x <? c)) as (i & -> & H & _). cbn [bind].
    destruct (Nat.eqb_spec i (List.length d)); [eauto|].
    destruct (nth_error d i) as [x|] eqn:E; [destruct (key x =? c); eauto|]. apply nth_error_None in E. lia.
Qed.

Lemma good_const : forall A (a : A), good (fun _ => Ok a).
Proof. intros A a. split; [apply pw_const|intros c _; eauto]. Qed.
Lemma good_pure : forall A (g : Z -> A), pw B g -> good (fun c => Ok (g c)).
Proof. intros A g H. split; [apply (pw_map _ _ B g Ok); exact H|intros c _; eauto]. Qed.
Lemma good_bind : forall A C (f : Z -> res A) (k : Z -> A -> res C), good f -> (forall a, good (fun c => k c a)) ->
  good (fun c => bind (f c) (k c)).
Proof.
  intros A C f k [H1 H2] Hk. split.
  - apply pw_bind; [exact H1|]. intros a. apply Hk.
  - intros c Hc. destruct (H2 c Hc) as (a & ->). cbn [bind]. apply (proj2 (Hk a) c Hc).
Qed.
Lemma good_if : forall A (g : Z -> bool) (f1 f2 : Z -> res A), pw B g -> good f1 -> good f2 ->
  good (fun c => if g c then f1 c else f2 c).
Proof.
  intros A g f1 f2 H [H1 H2] [H3 H4]. split.
  - intros x y Hx Hy Hb. rewrite (H x y Hx Hy Hb), (H1 x y Hx Hy Hb), (H3 x y Hx Hy Hb). reflexivity.
  - intros c Hc. destruct (g c); auto.
Qed.
Lemma good_orelse : forall f g, good f -> good g -> good (fun c => f c ||| g c).
Proof.
  intros f g Hf Hg. unfold orelse. apply (good_bind bool bool f (fun c x => if x then Ok true else g c)); [exact Hf|].
  intros [|]; [apply good_const|exact Hg].
Qed.
Lemma good_andthen : forall f g, good f -> good g -> good (fun c => f c &&& g c).
Proof.
  intros f g Hf Hg. unfold andthen. apply (good_bind bool bool f (fun c x => if x then g c else Ok false)); [exact Hf|].
  intros [|]; [exact Hg|apply good_const].
Qed.
Lemma good_notr : forall f, good f -> good (fun c => notr (f c)).
Proof.
  intros f Hf. unfold notr. apply (good_bind bool bool f (fun c x => Ok (negb x))); [exact Hf|].
  intros a. apply good_const.
Qed.
Lemma pw_andb : forall f g, pw B f -> pw B g -> pw B (fun c => f c && g c).
Proof. intros. apply (pw_map2 _ _ _ B f g andb); assumption. Qed.
Lemma pw_orb : forall f g, pw B f -> pw B g -> pw B (fun c => f c || g c).
Proof. intros. apply (pw_map2 _ _ _ B f g orb); assumption. Qed.

Ltac find_in := match goal with
  | |- In ?x (?x :: _) => left; reflexivity
  | |- In _ (_ :: _) => right; find_in
  end.
Ltac find_range := apply in_or_app; left; find_in.
Ltac const := apply const_in_B; vm_compute; tauto.
Ltac good1 := first
  [ apply trie_good; unfold tries; find_in
  | apply range_good; unfold ranges; find_range
  | apply flat_good; unfold flats; find_in
  | apply good_const ].
Ltac good2 := first [good1 | apply good_orelse; good2 | apply good_andthen; good2 | apply good_notr; good2].

(** * The base tables *)
Lemma good_category : Forall (fun p => good (fst p)) category_order.
Proof. unfold category_order. repeat (constructor; [cbn [fst]; good1|]). constructor. Qed.
Lemma good_first_of : forall l d, Forall (fun p => good (fst p)) l -> good (first_of l d).
Proof.
  induction l as [|[f k] l IH]; intros d H; [apply good_const|]. inversion H as [|? ? Hf Hl]; subst. cbn [fst] in Hf.
  cbn [first_of]. apply (good_bind bool Z f (fun c b => if b then Ok k else first_of l d c)); [exact Hf|].
  intros [|]; [apply good_const|]. apply IH. exact Hl.
Qed.
Lemma good_get_category : good get_category.
Proof. unfold get_category. apply good_first_of. apply good_category. Qed.
Lemma good_cp_category : good cp_category.
Proof.
  unfold cp_category. apply (good_if Z (fun c => 1114111 <? c)); [apply pw_gt; unfold top; lia|apply good_const|].
  apply good_get_category.
Qed.
Lemma good_script_n : forall n, (n < 22)%nat -> good (cp_script_n n).
Proof.
  intros n Hn. unfold cp_script_n.
  destruct (nth_error script_data n) as [t|] eqn:E.
  2:{ apply nth_error_None in E. change (List.length script_data) with 22%nat in E. lia. }
  apply (good_if Z (fun c => 1114111 <? c)); [apply pw_gt; unfold top; lia|apply good_const|].
  apply value_good. unfold ranges. apply in_or_app. right. exact (nth_error_In _ _ E).
Qed.
Lemma good_get_script : forall n, good (fun c => get_cp_script c n).
Proof.
  intros n. unfold get_cp_script. destruct (Nat.ltb_spec n 22) as [H|H]; [apply good_script_n; exact H|apply good_const].
Qed.
Lemma good_script_is : forall k, good (script_is k).
Proof.
  intros k. unfold script_is, cp_script. apply (good_bind Z bool (cp_script_n 0) (fun c x => Ok (x =? k))).
  - apply good_script_n. lia.
  - intros a. apply good_const.
Qed.
Lemma ext_loop_total : forall n k c cur idx, 0 <= c -> (1 <= n)%nat -> (23 <= n + idx)%nat ->
  ((22 <= idx)%nat -> cur = script_unknown) -> exists b, ext_loop n k c cur idx = Ok b.
Proof.
  induction n as [|n IH]; intros k c cur idx Hc H1 H2 H3; [lia|]. cbn [ext_loop].
  destruct (Z.eqb_spec cur script_unknown); [eauto|]. destruct (cur =? k); [eauto|].
  destruct (proj2 (good_get_script (S idx)) c Hc) as (nx & E). rewrite E. cbn [bind].
  destruct (le_lt_dec 22 idx) as [Hi|Hi]; [specialize (H3 Hi); contradiction|].
  apply IH; [exact Hc|lia|lia|]. intros Hs. revert E. unfold get_cp_script.
  destruct (Nat.ltb_spec (S idx) 22); [lia|]. intros E. injection E as <-. reflexivity.
Qed.
Lemma ext_loop_pw : forall n k cur idx, pw B (fun c => ext_loop n k c cur idx).
Proof.
  induction n as [|n IH]; intros k cur idx; cbn [ext_loop]; [apply pw_const|].
  destruct (cur =? script_unknown); [apply pw_const|]. destruct (cur =? k); [apply pw_const|].
  apply (pw_bind Z bool B (fun c => get_cp_script c (S idx)) (fun c nx => ext_loop n k c nx (S idx))).
  - apply good_get_script.
  - intros a. apply IH.
Qed.
Lemma good_script_ext_is : forall k, good (script_ext_is k).
Proof.
  intros k. unfold script_ext_is.
  apply (good_bind Z bool ext_first (fun c x => ext_loop 23 k c x 1)).
  - unfold ext_first. apply (good_bind Z Z (fun c => get_cp_script c 1) (fun c x => if x =? script_unknown then cp_script c else Ok x)).
    + apply good_get_script.
    + intros a. destruct (a =? script_unknown); [|apply good_const]. apply good_script_n. lia.
  - intros a. split; [apply ext_loop_pw|]. intros c Hc. apply ext_loop_total; [exact Hc|lia|lia|lia].
Qed.
Lemma good_age : good cp_age.
Proof. unfold cp_age. apply value_good. unfold ranges. find_range. Qed.
Lemma good_age_is : forall k, good (age_is k).
Proof. intros k. unfold age_is. apply (good_bind Z bool cp_age (fun c x => Ok (x <=? k))); [apply good_age|intros a; apply good_const]. Qed.
Lemma good_block : good cp_block.
Proof.
  assert (Hd : In block_data ranges) by (unfold ranges; find_range).
  destruct (range_shape block_data Hd) as [Hz Ha]. split.
  - apply (pw_mono _ (map key block_data)); [intros b; apply range_in_B; exact Hd|]. unfold cp_block.
    apply (pw_bind nat Z _ (packed block_data)); [apply pw_packed|]. intros a. apply pw_const.
  - intros c Hc. unfold cp_block. destruct (packed_found block_data c Hz Hc) as (i & -> & H). cbn [bind].
    destruct H as [->|(Hne & x & -> & _)].
    + rewrite Nat.eqb_refl. eauto.
    + destruct (Nat.eqb_spec i (List.length block_data)); [contradiction|]. cbn [bind]. cbv zeta.
      destruct (low x =? 0); eauto.
Qed.
Lemma good_block_is : forall k, good (block_is k).
Proof. intros k. unfold block_is. apply (good_bind Z bool cp_block (fun c x => Ok (x =? k))); [apply good_block|intros a; apply good_const]. Qed.

Lemma good_numeric_value : good cp_numeric_value.
Proof.
  unfold cp_numeric_value.
  assert (H64 : good (numeric numeric_data64)) by (apply numeric_good; unfold flats; find_in).
  assert (H32 : good (numeric numeric_data32)) by (apply numeric_good; unfold flats; find_in).
  assert (H16 : good (numeric numeric_data16)) by (apply numeric_good; unfold flats; find_in).
  assert (Hd : good (numeric numeric_data_d)) by (apply numeric_good; unfold flats; find_in).
  assert (H8 : good (fun c => list_value numeric_data8 c 255)) by (apply list_good; unfold flats; find_in).
  refine (good_bind _ _ (numeric numeric_data64) (fun c a => _) H64 _). intros a.
  refine (good_bind _ _ (fun c => match a with Some v => Ok (Some v) | None => numeric numeric_data32 c end) (fun c a => _) _ _).
  { destruct a; [apply good_const|exact H32]. }
  clear a. intros a.
  refine (good_bind _ _ (fun c => match a with Some v => Ok (Some v) | None => numeric numeric_data16 c end) (fun c a => _) _ _).
  { destruct a; [apply good_const|exact H16]. }
  clear a. intros a.
  refine (good_bind _ _ (fun c => match a with Some v => Ok (Some v) | None =>
    bind (list_value numeric_data8 c 255) (fun v => Ok (if v =? 255 then None else Some v)) end) (fun c a => _) _ _).
  { destruct a; [apply good_const|].
    refine (good_bind _ _ (fun c => list_value numeric_data8 c 255) (fun c v => Ok (if v =? 255 then None else Some v)) H8 _).
    intros v. apply good_const. }
  clear a. intros a. destruct a as [v|]; [|apply good_const].
  refine (good_bind _ _ (numeric numeric_data_d) (fun c d => Ok (Some (v, match d with Some d => d | None => 1 end))) Hd _).
  intros d. apply good_const.
Qed.

(** * The properties that combine others *)
Lemma nchar_iff : forall c, 0 <= c <= top ->
  (Z.land c 0xfffe =? 0xfffe) = existsb (fun k => (k * 65536 + 65534 <=? c) && (c <=? (k + 1) * 65536 - 1)) (upto 17).
Proof.
  intros c Hc.
  assert (E : (Z.land c 0xfffe =? 0xfffe) = (c mod 65536 / 2 =? 32767)).
  { assert (El : Z.land c 0xfffe = Z.shiftl (Z.land (Z.shiftr c 1) (Z.ones 15)) 1).
    { apply Z.bits_inj'. intros n Hn. rewrite Z.land_spec.
      destruct (Z.eq_dec n 0) as [->|Hn0].
      - rewrite Z.shiftl_spec_low by lia. change (Z.testbit 0xfffe 0) with false. apply andb_false_r.
      - rewrite Z.shiftl_spec by lia. rewrite Z.land_spec, Z.shiftr_spec by lia. replace (n - 1 + 1) with n by lia.
        f_equal. destruct (Z_lt_le_dec (n - 1) 15).
        + rewrite Z.ones_spec_low by lia. assert (Hb : In n (upto 16)) by (apply in_upto; lia).
          cbn in Hb. repeat (destruct Hb as [<-|Hb]; [try lia; reflexivity|]). contradiction.
        + rewrite Z.ones_spec_high by lia. apply (Z.bits_above_log2 0xfffe n); [lia|].
          change (Z.log2 0xfffe) with 15. lia. }
    rewrite El, Z.land_ones, Z.shiftr_div_pow2, Z.shiftl_mul_pow2 by lia. change (2 ^ 1) with 2. change (2 ^ 15) with 32768.
    pose proof (Z.div_mod c 65536 ltac:(lia)) as D1. pose proof (Z.mod_pos_bound c 65536 ltac:(lia)) as M1.
    replace ((c / 2) mod 32768) with (c mod 65536 / 2); [lia|].
    change 65536 with (2 * 32768). rewrite Z.rem_mul_r by lia.
    rewrite Z.mul_comm, Z.div_add by lia. rewrite (Z.div_small (c mod 2)) by (apply Z.mod_pos_bound; lia). lia. }
  rewrite E. pose proof (Z.div_mod c 65536 ltac:(lia)) as D1. pose proof (Z.mod_pos_bound c 65536 ltac:(lia)) as M1.
  assert (Hq : 0 <= c / 65536 < 17) by (unfold top in Hc; split; [apply Z.div_pos; lia|apply Z.div_lt_upper_bound; lia]).
  apply eq_true_iff_eq. rewrite existsb_exists. split.
  - intros H. exists (c / 65536). split; [apply in_upto; lia|].
    assert (65534 <= c mod 65536) by (pose proof (Z.div_mod (c mod 65536) 2 ltac:(lia)); pose proof (Z.mod_pos_bound (c mod 65536) 2 ltac:(lia)); lia).
    lia.
  - intros (k & _ & Hk). assert (Ek : c / 65536 = k) by (symmetry; apply Z.div_unique with (c - 65536 * k); lia).
    assert (65534 <= c mod 65536) by lia.
    pose proof (Z.div_mod (c mod 65536) 2 ltac:(lia)); pose proof (Z.mod_pos_bound (c mod 65536) 2 ltac:(lia)); lia.
Qed.
Lemma pw_existsb : forall (l : list Z) (g : Z -> Z -> bool), (forall k, In k l -> pw B (g k)) -> pw B (fun c => existsb (fun k => g k c) l).
Proof.
  induction l as [|k l IH]; intros g H; cbn [existsb]; [apply pw_const|].
  apply pw_orb; [apply H; left; reflexivity|apply IH; intros k' Hk'; apply H; right; exact Hk'].
Qed.
Lemma good_nchar : good prop_nchar.
Proof.
  unfold prop_nchar. apply good_pure. apply pw_orb.
  - assert (H : pw B (fun c => existsb (fun k => (k * 65536 + 65534 <=? c) && (c <=? (k + 1) * 65536 - 1)) (upto 17))).
    { apply (pw_existsb (upto 17) (fun k c => (k * 65536 + 65534 <=? c) && (c <=? (k + 1) * 65536 - 1))).
      intros k Hk. apply pw_andb.
      - apply pw_le. apply const_in_B. unfold constants. apply in_or_app. right. apply in_or_app. right.
        apply (in_map (fun k => k * 65536 + 65534)). exact Hk.
      - destruct (Z.eq_dec k 16) as [->|Hne].
        + intros x y Hx Hy _. unfold top in Hy. lia.
        + apply pw_lt. apply const_in_B. unfold constants. apply in_or_app. right. apply in_or_app. left.
          replace ((k + 1) * 65536 - 1 + 1) with ((k + 1) * 65536) by lia. apply (in_map (fun k => k * 65536)).
          unfold upto in Hk. apply in_map_iff in Hk as (n & <- & Hn). apply in_seq in Hn. apply in_upto. lia. }
    intros x y Hx Hy Hb. cbn beta. rewrite !nchar_iff by lia. exact (H x y Hx Hy Hb).
  - apply pw_andb; [apply pw_le; const|apply pw_lt; const].
Qed.
Lemma good_wspace : good prop_wspace.
Proof. unfold prop_wspace. good1. Qed.
Lemma good_di : good prop_di.
Proof.
  unfold prop_di.
  refine (good_bind bool bool (fun c => flat_lookup prop_odi_data c ||| cat_is_cf c ||| prop_vs c) (fun c maybe => _) _ _).
  { unfold cat_is_cf, prop_vs. good2. }
  intros maybe. destruct (negb maybe); [apply good_const|].
  apply (good_if bool (fun c => (0xFFF9 <=? c) && (c <=? 0xFFFB))); [apply pw_andb; [apply pw_le|apply pw_lt]; const|apply good_const|].
  apply (good_if bool (fun c => (0x13430 <=? c) && (c <=? 0x13438))); [apply pw_andb; [apply pw_le|apply pw_lt]; const|apply good_const|].
  refine (good_bind bool bool prop_wspace (fun c b => if b then Ok false else _) good_wspace _).
  intros b. destruct b; [apply good_const|].
  refine (good_bind bool bool prop_pcm (fun c b => if b then Ok false else Ok true) _ _).
  { unfold prop_pcm. good1. }
  intros b. destruct b; apply good_const.
Qed.
Lemma good_cat_l : good cat_is_l.
Proof. unfold cat_is_l, cat_is_lc, cat_is_ll, cat_is_lu, cat_is_lt, cat_is_lm, cat_is_lo. good2. Qed.
Ltac good3 := first [apply good_cat_l | good1 | apply good_orelse; good3].
Lemma good_ids : good prop_ids.
Proof.
  unfold prop_ids.
  refine (good_bind bool bool (fun c => cat_is_l c ||| cat_is_nl c ||| flat_lookup prop_oids_data c) (fun c maybe => _) _ _).
  { unfold cat_is_nl. good3. }
  intros maybe. destruct (negb maybe); [apply good_const|]. unfold prop_pat_syn, prop_pat_ws. good2.
Qed.
Lemma good_idc : good prop_idc.
Proof.
  unfold prop_idc.
  refine (good_bind bool bool (fun c => cat_is_l c ||| cat_is_nl c ||| flat_lookup prop_oids_data c ||| cat_is_mn c ||| cat_is_mc c |||
        cat_is_nd c ||| cat_is_pc c ||| range_lookup prop_oidc_data c) (fun c maybe => _) _ _).
  { unfold cat_is_nl, cat_is_mn, cat_is_mc, cat_is_nd, cat_is_pc. good3. }
  intros maybe. destruct (negb maybe); [apply good_const|]. unfold prop_pat_syn, prop_pat_ws. good2.
Qed.
Lemma good_cn : good cat_is_cn.
Proof.
  unfold cat_is_cn. apply (good_bind Z bool cp_category (fun c k => Ok (k =? gc_cn))); [apply good_cp_category|].
  intros a. apply good_const.
Qed.
Lemma good_valid : good cp_is_valid.
Proof. unfold cp_is_valid. apply good_pure. intros x y Hx Hy _. unfold top in Hy. lia. Qed.
Lemma good_ascii : good cp_is_ascii.
Proof. unfold cp_is_ascii. apply good_pure. apply pw_lt. const. Qed.

Ltac head f := match f with ?g _ => head g | _ => f end.
Ltac good_prop := first
  [ apply good_script_is | apply good_nchar | apply good_di | apply good_ids | apply good_idc | apply good_cn
  | apply good_valid | apply good_ascii | apply good_cat_l | apply good_wspace
  | match goal with |- good ?f => unfold f; good2 end
  | match goal with |- good ?f => unfold f;
      unfold prop_lower, prop_upper, cat_is_lc, cat_is_l, cat_is_m, cat_is_n, cat_is_p, cat_is_s, cat_is_z, cat_is_c;
      unfold cat_is_co, cat_is_lo, cat_is_so, cat_is_ll, cat_is_cs, cat_is_mn, cat_is_lu, cat_is_sm, cat_is_no, cat_is_nd,
        cat_is_po, cat_is_mc, cat_is_lm, cat_is_nl, cat_is_cf, cat_is_sk, cat_is_ps, cat_is_pe, cat_is_cc, cat_is_sc,
        cat_is_lt, cat_is_pd, cat_is_zs, cat_is_me, cat_is_pi, cat_is_pf, cat_is_pc, cat_is_zp, cat_is_zl; good2 end ].
Lemma good_binary : Forall (fun p => good (snd p)) binary_props.
Proof. unfold binary_props. repeat (constructor; [cbn [snd]; good_prop|]). constructor. Qed.

Theorem property_good : forall name value f, property name value = Some f -> good f.
Proof.
  intros name value f. unfold property. destruct value as [v|].
  - destruct (property_type_from_name name).
    + destruct (_ =? _); [discriminate|]. intros H. injection H as <-. apply good_script_is.
    + destruct (_ =? _); [discriminate|]. intros H. injection H as <-. apply good_script_ext_is.
    + destruct (_ =? _); [discriminate|]. intros H. injection H as <-. apply good_age_is.
    + destruct (_ =? _); [discriminate|]. intros H. injection H as <-. apply good_block_is.
    + discriminate.
  - cbv zeta. destruct (_ =? _); [discriminate|]. unfold get_binary_prop. intros H.
    destruct (nth_error binary_props _) as [[n g]|] eqn:E; [|discriminate]. cbn in H. injection H as <-.
    exact (proj1 (Forall_forall _ _) good_binary _ (nth_error_In _ _ E)).
Qed.

(** * Range tables *)
(** The code points up to U+10FFFF that pass a test, as ranges between the code points of [B]. *)
Fixpoint spans (f : Z -> bool) (l : list Z) : list (Z * Z) :=
  match l with
  | [] => []
  | b :: tl => let e := match tl with b' :: _ => b' - 1 | [] => top end in
               if f b then (b, e) :: spans f tl else spans f tl
  end.
Definition holds (f : Z -> res bool) (c : Z) : bool := match f c with Ok b => b | _ => false end.

Lemma spans_in : forall f l u, ascending l = true -> (forall b, In b l -> b <= top) ->
  existsb (fun p => (fst p <=? u) && (u <=? snd p)) (spans f l) = true <->
  exists b, In b l /\ b <= u <= top /\ (forall b', In b' l -> ~ (b < b' <= u)) /\ f b = true.
Proof.
  intros f. induction l as [|b l IH]; intros u Ha Ht.
  { cbn. split; [discriminate|intros (b & [] & _)]. }
  cbn [spans]. set (e := match l with b' :: _ => b' - 1 | [] => top end).
  specialize (IH u (ascending_tail _ _ Ha) (fun b' H => Ht b' (or_intror H))).
  assert (He : (b <= u <= e) <-> (b <= u <= top /\ forall b', In b' (b :: l) -> ~ (b < b' <= u))).
  { unfold e. destruct l as [|b1 l].
    - split; [intros H; split; [exact H|intros b' [<-|[]]; lia]|tauto].
    - pose proof (Ht b1 (or_intror (or_introl eq_refl))) as Hb1. split.
      + intros H. split; [lia|]. intros b' [<-|[<-|H']]; [lia|lia|].
        pose proof (ascending_le _ _ b' (ascending_tail _ _ Ha) H'). lia.
      + intros [H1 H2]. specialize (H2 b1 (or_intror (or_introl eq_refl))).
        pose proof (ascending_le _ _ b1 Ha (or_introl eq_refl)). lia. }
  assert (Hl : (exists b', In b' l /\ b' <= u <= top /\ (forall b'', In b'' l -> ~ (b' < b'' <= u)) /\ f b' = true) <->
               (exists b', In b' l /\ b' <= u <= top /\ (forall b'', In b'' (b :: l) -> ~ (b' < b'' <= u)) /\ f b' = true)).
  { split; intros (b' & H1 & H2 & H3 & H4); exists b'; repeat split; try tauto.
    - intros b'' [<-|H'']; [|exact (H3 b'' H'')]. pose proof (ascending_le _ _ b' Ha H1). lia.
    - intros b'' H''. apply H3. right. exact H''. }
  assert (Hmain : (exists b', In b' (b :: l) /\ b' <= u <= top /\ (forall b'', In b'' (b :: l) -> ~ (b' < b'' <= u)) /\ f b' = true) <->
     ((b <= u <= e /\ f b = true) \/
      existsb (fun p => (fst p <=? u) && (u <=? snd p)) (spans f l) = true)).
  { rewrite IH, Hl, He. split.
    - intros (b' & [<-|H1] & H2 & H3 & H4); [left; tauto|right; exists b'; tauto].
    - intros [[[H1 H2] H3]|(b' & H1 & H2 & H3 & H4)]; [exists b|exists b']; (split; [cbn; tauto|tauto]). }
  rewrite Hmain. destruct (f b).
  - cbn [existsb fst snd]. rewrite orb_true_iff, andb_true_iff, !Z.leb_le. tauto.
  - split; [tauto|]. intros [[_ H]|H]; [discriminate|exact H].
Qed.
(** The tables list a key behind U+10FFFF, too. *)
Definition Bt : list Z := Eval vm_compute in filter (fun b => b <=? top) B.
Lemma Bt_eq : filter (fun b => b <=? top) B = Bt.
Proof. vm_cast_no_check (eq_refl Bt). Qed.
Lemma Bt_range : forall b, In b Bt -> 0 <= b <= top.
Proof.
  assert (H : forallb (fun b => (0 <=? b) && (b <=? top)) Bt = true) by (vm_compute; reflexivity).
  intros b Hb. pose proof (proj1 (forallb_forall _ _) H b Hb) as H'. cbn beta in H'. lia.
Qed.
Lemma Bt_ascending : ascending Bt = true.
Proof. vm_compute. reflexivity. Qed.
Lemma pw_Bt : forall A (f : Z -> A), pw B f -> pw Bt f.
Proof.
  intros A f H x y H1 H2 H3. apply H; [exact H1|exact H2|]. intros b Hb Hr. apply (H3 b); [|exact Hr].
  rewrite <- Bt_eq. apply filter_In. split; [exact Hb|]. lia.
Qed.

Lemma floor_hd : forall l u, ascending l = true -> hd 1 l = 0 -> 0 <= u ->
  exists b, In b l /\ b <= u /\ forall b', In b' l -> ~ (b < b' <= u).
Proof.
  intros [|b0 l] u Ha Hz Hu; [discriminate Hz|]. cbn in Hz. subst b0. exact (floor_in l 0 u Ha Hu).
Qed.

Definition table_of (f : Z -> res bool) : list (Z * Z) := spans (holds f) Bt.
Theorem table_spec : forall f u, good f -> 0 <= u <= top -> f u = Ok (match_prop (table_of f) u).
Proof.
  intros f u [Hp Ht] Hu. destruct (Ht u ltac:(lia)) as (b & Eb). rewrite Eb. f_equal.
  assert (Hh : holds f u = b) by (unfold holds; rewrite Eb; reflexivity). rewrite <- Hh.
  apply eq_true_iff_eq. unfold match_prop, table_of.
  assert (Eu : u32 u = u) by (unfold u32; unfold top in Hu; rewrite Z.mod_small by lia; reflexivity). rewrite Eu.
  rewrite (spans_in (holds f) Bt u Bt_ascending (fun b H => proj2 (Bt_range b H))).
  assert (Hph : pw Bt (holds f)) by (apply pw_Bt; unfold holds; apply (pw_map _ _ B f (fun r => match r with Ok b => b | _ => false end)); exact Hp).
  pose proof (fun b H => proj1 (Bt_range b H)) as Hb0.
  split.
  - intros Hu'. destruct (floor_hd Bt u Bt_ascending eq_refl ltac:(lia)) as (x & H1 & H2 & H3). exists x.
    split; [exact H1|]. split; [lia|]. split; [exact H3|]. rewrite <- Hu'. apply Hph; [|lia|exact H3].
    split; [apply Hb0; exact H1|exact H2].
  - intros (x & H1 & H2 & H3 & H4). rewrite <- H4. symmetry. apply Hph; [|lia|exact H3]. split; [apply Hb0; exact H1|lia].
Qed.
(** The tables hold code points. *)
Lemma spans_range : forall f l p, (forall b, In b l -> 0 <= b <= top) -> In p (spans f l) -> 0 <= fst p /\ snd p <= top.
Proof.
  intros f. induction l as [|b l IH]; intros p H Hp; [contradiction|]. cbn [spans] in Hp.
  assert (Htl : In p (spans f l) -> 0 <= fst p /\ snd p <= top) by (apply IH; intros; apply H; right; assumption).
  destruct (f b); [|auto]. destruct Hp as [<-|Hp]; [|auto]. cbn [fst snd]. pose proof (H b (or_introl eq_refl)) as Hb.
  split; [lia|]. destruct l as [|b1 l]; [lia|]. pose proof (H b1 (or_intror (or_introl eq_refl))). lia.
Qed.
Lemma table_range : forall f p, In p (table_of f) -> 0 <= fst p /\ snd p <= top.
Proof.
  intros f p. apply spans_range. apply Bt_range.
Qed.

(** The meaning of a property name for [Parser.compile]: its table. *)
Definition unicode_props (name : list Z) (value : option (list Z)) : option (list (Z * Z)) :=
  option_map table_of (property name value).
Theorem unicode_props_spec : forall name value f, property name value = Some f ->
  exists tbl, unicode_props name value = Some tbl /\ forall u, 0 <= u <= top -> f u = Ok (match_prop tbl u).
Proof.
  intros name value f H. exists (table_of f). unfold unicode_props. rewrite H. split; [reflexivity|].
  intros u Hu. apply table_spec; [exact (property_good _ _ _ H)|exact Hu].
Qed.
