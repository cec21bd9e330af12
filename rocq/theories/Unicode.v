(** Lookups in the Unicode data base. Source: /repo/include/unicode-db/unicode-db.hpp, and
    /repo/include/ctre/atoms_unicode.hpp for the use made of it by [\p]. *)
From Coq Require Import ZArith List String Bool.
From Verif Require Import Chars Eval Parser UnicodeData.
Import ListNotations.
Open Scope Z_scope.

(** Element [i] of a C array of [n] elements initialised by the list [a] (missing initialisers are
    zero). Reading outside of the array is undefined. *)
Definition rd (a : list Z) (n i : Z) : res Z :=
  if (0 <=? i) && (i <? n) then Ok (nth (Z.to_nat i) a 0) else UB.
Definition bind {A B} (x : res A) (k : A -> res B) : res B :=
  match x with Ok a => k a | No => No | Fuel => Fuel | UB => UB | Ill => Ill end.
(** [a || b], [!a], [a && b]. *)
Definition orelse (a b : res bool) : res bool := bind a (fun x => if x then Ok true else b).
Definition notr (a : res bool) : res bool := bind a (fun x => Ok (negb x)).
Definition andthen (a b : res bool) : res bool := bind a (fun x => if x then b else Ok false).
Infix "|||" := orelse (at level 50, left associativity).
Infix "&&&" := andthen (at level 40, left associativity).

(** * Searching (lines 107-168) *)
(** Lines 107-124 [upper_bound] and 126-162 [lower_bound]: the same loop; [right x] tells that
    the search goes on behind the element [x]. Positions are offsets in the array. *)
Fixpoint bound_loop (n : nat) (data : list Z) (right : Z -> bool) (first count : nat) : res nat :=
  match n with
  | O => Fuel
  | S n' =>
      match count with
      | O => Ok first
      | _ =>
          let step := Nat.div count 2 in
          let it := (first + step)%nat in
          match nth_error data it with
          | None => UB
          | Some x => if right x then bound_loop n' data right (S it) (count - (step + 1))%nat
                      else bound_loop n' data right first step
          end
      end
  end.
Definition bound (data : list Z) (right : Z -> bool) : res nat :=
  bound_loop (S (List.length data)) data right 0 (List.length data).

(** Lines 164-168. *)
Definition binary_search (data : list Z) (v : Z) : res bool :=
  bind (bound data (fun x => x <? v)) (fun i =>
  if Nat.eqb i (List.length data) then Ok false
  else match nth_error data i with None => UB | Some x => Ok (negb (v <? x)) end).

(** The element before position [i]: [it--; *it]. *)
Definition before (data : list Z) (i : nat) : res Z :=
  match i with O => UB | S j => match nth_error data j with None => UB | Some x => Ok x end end.

(** Key and value of a packed entry. *)
Definition key (x : Z) : Z := Z.shiftr x 8.
Definition low (x : Z) : Z := Z.land x 255.

(** The search shared by lines 172-178, 302-308 and 7372-7377: [!(cp < (v >> 8))] goes right. *)
Definition packed (data : list Z) (cp : Z) : res nat := bound data (fun x => negb (cp <? key x)).

(** Lines 169-184: [compact_range::value]. *)
Definition range_value (data : list Z) (cp d : Z) : res Z :=
  bind (packed data cp) (fun i =>
  if Nat.eqb i (List.length data) then Ok d else bind (before data i) (fun x => Ok (low x))).

(** Lines 188-203: [compact_list::value]. *)
Definition list_value (data : list Z) (cp d : Z) : res Z :=
  bind (bound data (fun x => key x <? cp)) (fun i =>
  if Nat.eqb i (List.length data) then Ok d
  else match nth_error data i with
       | None => UB
       | Some x => if key x =? cp then Ok (low x) else Ok d
       end).

(** Lines 299-314: [range_array::lookup]. *)
Definition range_lookup (data : list Z) (cp : Z) : res bool :=
  bind (packed data cp) (fun i =>
  if Nat.eqb i (List.length data) then Ok false
  else bind (before data i) (fun x => Ok (negb (low x =? 0)))).

(** Lines 281-297: [flat_array::lookup]: a loop over fewer than 20 elements, a binary search otherwise. *)
Definition flat_lookup (data : list Z) (u : Z) : res bool :=
  if (Nat.ltb (List.length data) 20) then Ok (existsb (fun x => x =? u) data) else binary_search data u.

(** * Bit tries (lines 219-279) *)
(** Lines 276-278. *)
Definition trie_range_leaf (c chunk : Z) : bool := Z.testbit (Z.shiftr chunk (Z.land c 63)) 0.

(** Lines 237-274. *)
Definition trie_lookup (t : bool_trie) (c : Z) : res bool :=
  if c <? 0x800 then
    if t_r1s t =? 0 then Ok false
    else bind (rd (t_r1 t) 32 (Z.shiftr c 6)) (fun x => Ok (trie_range_leaf c x))
  else if c <? 0x10000 then
    if t_r3s t =? 0 then Ok false
    else
      let i := Z.shiftr c 6 - 0x20 in
      bind (if (t_r2f t <=? i) && (i <? t_r2f t + t_r2s t) then rd (t_r2 t) (t_r2s t) (i - t_r2f t) else Ok 0)
        (fun child => bind (rd (t_r3 t) (t_r3s t) child) (fun x => Ok (trie_range_leaf c x)))
  else
    if t_r6s t =? 0 then Ok false
    else
      let i4 := Z.shiftr c 12 - 0x10 in
      bind (if (0 <? t_r4s t) && ((t_r4f t <=? i4) && (i4 <? t_r4f t + t_r4s t))
            then rd (t_r4 t) (t_r4s t) (i4 - t_r4f t) else Ok 0) (fun child =>
      let i5 := Z.shiftl child 6 + Z.land (Z.shiftr c 6) 63 in
      bind (if negb (t_r5s t =? 0) && ((t_r5f t <=? i5) && (i5 <? t_r5f t + t_r5s t))
            then rd (t_r5 t) (t_r5s t) (i5 - t_r5f t) else Ok 0) (fun leaf =>
      bind (rd (t_r6 t) (t_r6s t) leaf) (fun x => Ok (trie_range_leaf c x)))).

(** * General categories *)
(** Lines 424-502: the enumeration [category]. *)
Definition gc_c : Z := 0.
Definition gc_cc : Z := 1.
Definition gc_cf : Z := 2.
Definition gc_cn : Z := 3.
Definition gc_co : Z := 4.
Definition gc_cs : Z := 5.
Definition gc_l : Z := 6.
Definition gc_lc : Z := 7.
Definition gc_ll : Z := 8.
Definition gc_lm : Z := 9.
Definition gc_lo : Z := 10.
Definition gc_lt : Z := 11.
Definition gc_lu : Z := 12.
Definition gc_m : Z := 13.
Definition gc_mc : Z := 14.
Definition gc_me : Z := 15.
Definition gc_mn : Z := 16.
Definition gc_n : Z := 17.
Definition gc_nd : Z := 18.
Definition gc_nl : Z := 19.
Definition gc_no : Z := 20.
Definition gc_p : Z := 21.
Definition gc_pc : Z := 22.
Definition gc_pd : Z := 23.
Definition gc_pe : Z := 24.
Definition gc_pf : Z := 25.
Definition gc_pi : Z := 26.
Definition gc_po : Z := 27.
Definition gc_ps : Z := 28.
Definition gc_s : Z := 29.
Definition gc_sc : Z := 30.
Definition gc_sk : Z := 31.
Definition gc_sm : Z := 32.
Definition gc_so : Z := 33.
Definition gc_z : Z := 34.
Definition gc_zl : Z := 35.
Definition gc_zp : Z := 36.
Definition gc_zs : Z := 37.

(** Lines 2926-2986: [get_category], the first table with the code point. *)
Fixpoint first_of (l : list ((Z -> res bool) * Z)) (d c : Z) : res Z :=
  match l with
  | [] => Ok d
  | (f, v) :: tl => bind (f c) (fun b => if b then Ok v else first_of tl d c)
  end.
Definition category_order : list ((Z -> res bool) * Z) :=
  [(range_lookup cat_co, gc_co);
   (trie_lookup cat_lo, gc_lo);
   (trie_lookup cat_so, gc_so);
   (trie_lookup cat_ll, gc_ll);
   (range_lookup cat_cs, gc_cs);
   (trie_lookup cat_mn, gc_mn);
   (trie_lookup cat_lu, gc_lu);
   (trie_lookup cat_sm, gc_sm);
   (trie_lookup cat_no, gc_no);
   (trie_lookup cat_nd, gc_nd);
   (trie_lookup cat_po, gc_po);
   (trie_lookup cat_mc, gc_mc);
   (trie_lookup cat_lm, gc_lm);
   (range_lookup cat_nl, gc_nl);
   (range_lookup cat_cf, gc_cf);
   (trie_lookup cat_sk, gc_sk);
   (trie_lookup cat_ps, gc_ps);
   (trie_lookup cat_pe, gc_pe);
   (range_lookup cat_cc, gc_cc);
   (range_lookup cat_sc, gc_sc);
   (range_lookup cat_lt, gc_lt);
   (flat_lookup cat_pd, gc_pd);
   (range_lookup cat_zs, gc_zs);
   (range_lookup cat_me, gc_me);
   (flat_lookup cat_pi, gc_pi);
   (flat_lookup cat_pf, gc_pf);
   (flat_lookup cat_pc, gc_pc);
   (flat_lookup cat_zp, gc_zp);
   (flat_lookup cat_zl, gc_zl)].
Definition get_category (c : Z) : res Z := first_of category_order gc_cn c.
(** Lines 7254-7258: [cp_category]. *)
Definition cp_category (c : Z) : res Z := if 0x10FFFF <? c then Ok gc_cn else get_category c.

(** Lines 2988-3202: [cp_category_is]. *)
Definition cat_is_co : Z -> res bool := range_lookup cat_co.
Definition cat_is_lo : Z -> res bool := trie_lookup cat_lo.
Definition cat_is_so : Z -> res bool := trie_lookup cat_so.
Definition cat_is_ll : Z -> res bool := trie_lookup cat_ll.
Definition cat_is_cs : Z -> res bool := range_lookup cat_cs.
Definition cat_is_mn : Z -> res bool := trie_lookup cat_mn.
Definition cat_is_lu : Z -> res bool := trie_lookup cat_lu.
Definition cat_is_sm : Z -> res bool := trie_lookup cat_sm.
Definition cat_is_no : Z -> res bool := trie_lookup cat_no.
Definition cat_is_nd : Z -> res bool := trie_lookup cat_nd.
Definition cat_is_po : Z -> res bool := trie_lookup cat_po.
Definition cat_is_mc : Z -> res bool := trie_lookup cat_mc.
Definition cat_is_lm : Z -> res bool := trie_lookup cat_lm.
Definition cat_is_nl : Z -> res bool := range_lookup cat_nl.
Definition cat_is_cf : Z -> res bool := range_lookup cat_cf.
Definition cat_is_sk : Z -> res bool := trie_lookup cat_sk.
Definition cat_is_ps : Z -> res bool := trie_lookup cat_ps.
Definition cat_is_pe : Z -> res bool := trie_lookup cat_pe.
Definition cat_is_cc : Z -> res bool := range_lookup cat_cc.
Definition cat_is_sc : Z -> res bool := range_lookup cat_sc.
Definition cat_is_lt : Z -> res bool := range_lookup cat_lt.
Definition cat_is_pd : Z -> res bool := flat_lookup cat_pd.
Definition cat_is_zs : Z -> res bool := range_lookup cat_zs.
Definition cat_is_me : Z -> res bool := range_lookup cat_me.
Definition cat_is_pi : Z -> res bool := flat_lookup cat_pi.
Definition cat_is_pf : Z -> res bool := flat_lookup cat_pf.
Definition cat_is_pc : Z -> res bool := flat_lookup cat_pc.
Definition cat_is_zp : Z -> res bool := flat_lookup cat_zp.
Definition cat_is_zl : Z -> res bool := flat_lookup cat_zl.
(** Lines 3105-3113. *)
Definition cat_is_lc (c : Z) : res bool :=
  cat_is_ll c ||| cat_is_lu c ||| cat_is_lt c.
(** Lines 3115-3127. *)
Definition cat_is_l (c : Z) : res bool :=
  cat_is_lo c ||| cat_is_ll c ||| cat_is_lu c ||| cat_is_lm c ||| cat_is_lt c.
(** Lines 3129-3137. *)
Definition cat_is_m (c : Z) : res bool :=
  cat_is_mn c ||| cat_is_mc c ||| cat_is_me c.
(** Lines 3139-3147. *)
Definition cat_is_n (c : Z) : res bool :=
  cat_is_no c ||| cat_is_nd c ||| cat_is_nl c.
(** Lines 3149-3165. *)
Definition cat_is_p (c : Z) : res bool :=
  cat_is_po c ||| cat_is_ps c ||| cat_is_pe c ||| cat_is_pd c ||| cat_is_pi c ||| cat_is_pf c ||| cat_is_pc c.
(** Lines 3167-3177. *)
Definition cat_is_s (c : Z) : res bool :=
  cat_is_so c ||| cat_is_sm c ||| cat_is_sk c ||| cat_is_sc c.
(** Lines 3179-3187. *)
Definition cat_is_z (c : Z) : res bool :=
  cat_is_zs c ||| cat_is_zp c ||| cat_is_zl c.
(** Lines 3189-3199. *)
Definition cat_is_c (c : Z) : res bool :=
  cat_is_co c ||| cat_is_cs c ||| cat_is_cf c ||| cat_is_cc c.
Definition cat_is_cn (c : Z) : res bool := bind (cp_category c) (fun k => Ok (k =? gc_cn)).

(** * Properties *)
(** Lines 7106-7245: [cp_property_is] with a table of its own. *)
Definition prop_ahex : Z -> res bool := range_lookup prop_ahex_data.
Definition prop_alpha : Z -> res bool := trie_lookup prop_alpha_data.
Definition prop_bidi_c : Z -> res bool := range_lookup prop_bidi_c_data.
Definition prop_bidi_m : Z -> res bool := trie_lookup prop_bidi_m_data.
Definition prop_dash : Z -> res bool := flat_lookup prop_dash_data.
Definition prop_dep : Z -> res bool := flat_lookup prop_dep_data.
Definition prop_dia : Z -> res bool := trie_lookup prop_dia_data.
Definition prop_emoji : Z -> res bool := trie_lookup prop_emoji_data.
Definition prop_emoji_component : Z -> res bool := range_lookup prop_emoji_component_data.
Definition prop_emoji_modifier : Z -> res bool := range_lookup prop_emoji_modifier_data.
Definition prop_emoji_modifier_base : Z -> res bool := trie_lookup prop_emoji_modifier_base_data.
Definition prop_emoji_presentation : Z -> res bool := trie_lookup prop_emoji_presentation_data.
Definition prop_ext : Z -> res bool := flat_lookup prop_ext_data.
Definition prop_extended_pictographic : Z -> res bool := trie_lookup prop_extended_pictographic_data.
Definition prop_gr_base : Z -> res bool := trie_lookup prop_gr_base_data.
Definition prop_hex : Z -> res bool := range_lookup prop_hex_data.
Definition prop_ideo : Z -> res bool := range_lookup prop_ideo_data.
Definition prop_idsb : Z -> res bool := range_lookup prop_idsb_data.
Definition prop_idst : Z -> res bool := flat_lookup prop_idst_data.
Definition prop_join_c : Z -> res bool := flat_lookup prop_join_c_data.
Definition prop_loe : Z -> res bool := range_lookup prop_loe_data.
Definition prop_pat_syn : Z -> res bool := trie_lookup prop_pat_syn_data.
Definition prop_pat_ws : Z -> res bool := flat_lookup prop_pat_ws_data.
Definition prop_pcm : Z -> res bool := flat_lookup prop_pcm_data.
Definition prop_qmark : Z -> res bool := range_lookup prop_qmark_data.
Definition prop_radical : Z -> res bool := range_lookup prop_radical_data.
Definition prop_ri : Z -> res bool := range_lookup prop_ri_data.
Definition prop_sd : Z -> res bool := flat_lookup prop_sd_data.
Definition prop_sterm : Z -> res bool := trie_lookup prop_sterm_data.
Definition prop_term : Z -> res bool := trie_lookup prop_term_data.
Definition prop_uideo : Z -> res bool := range_lookup prop_uideo_data.
Definition prop_vs : Z -> res bool := range_lookup prop_vs_data.
Definition prop_wspace : Z -> res bool := range_lookup prop_wspace_data.
Definition prop_xidc : Z -> res bool := trie_lookup prop_xidc_data.
Definition prop_xids : Z -> res bool := trie_lookup prop_xids_data.

(** Lines 7390-7393: noncharacter_code_point. *)
Definition prop_nchar (c : Z) : res bool :=
  Ok ((Z.land c 0xfffe =? 0xfffe) || ((0xfdd0 <=? c) && (c <=? 0xfdef))).
(** Lines 7395-7400: lowercase. *)
Definition prop_lower (c : Z) : res bool := cat_is_ll c ||| range_lookup prop_olower_data c.
(** Lines 7402-7407: uppercase. *)
Definition prop_upper (c : Z) : res bool := cat_is_lu c ||| range_lookup prop_oupper_data c.
(** Lines 7409-7414: cased. *)
Definition prop_cased (c : Z) : res bool := prop_lower c ||| prop_upper c ||| cat_is_lt c.
(** Lines 7416-7421: math. *)
Definition prop_math (c : Z) : res bool := cat_is_sm c ||| trie_lookup prop_omath_data c.
(** Lines 7423-7427: case_ignorable. *)
Definition prop_ci (c : Z) : res bool := Ok false.
(** Lines 7429-7435: grapheme_extend. *)
Definition prop_gr_ext (c : Z) : res bool := cat_is_me c ||| cat_is_mn c ||| trie_lookup prop_ogr_ext_data c.
(** Lines 7437-7446. *)
Definition cp_is_valid (c : Z) : res bool := Ok (c <=? 0x10FFFF).
Definition cp_is_assigned (c : Z) : res bool := trie_lookup prop_assigned c.
Definition cp_is_ascii (c : Z) : res bool := Ok (c <=? 0x7F).
(** Lines 7448-7467: default_ignorable_code_point. *)
Definition prop_di (c : Z) : res bool :=
  bind (flat_lookup prop_odi_data c ||| cat_is_cf c ||| prop_vs c) (fun maybe =>
  if negb maybe then Ok false
  else if (0xFFF9 <=? c) && (c <=? 0xFFFB) then Ok false
  else if (0x13430 <=? c) && (c <=? 0x13438) then Ok false
  else bind (prop_wspace c) (fun b => if b then Ok false
  else bind (prop_pcm c) (fun b => if b then Ok false else Ok true))).
(** Lines 7469-7478: id_start. *)
Definition prop_ids (c : Z) : res bool :=
  bind (cat_is_l c ||| cat_is_nl c ||| flat_lookup prop_oids_data c) (fun maybe =>
  if negb maybe then Ok false else notr (prop_pat_syn c) &&& notr (prop_pat_ws c)).
(** Lines 7480-7491: id_continue. *)
Definition prop_idc (c : Z) : res bool :=
  bind (cat_is_l c ||| cat_is_nl c ||| flat_lookup prop_oids_data c ||| cat_is_mn c ||| cat_is_mc c |||
        cat_is_nd c ||| cat_is_pc c ||| range_lookup prop_oidc_data c) (fun maybe =>
  if negb maybe then Ok false else notr (prop_pat_syn c) &&& notr (prop_pat_ws c)).

(** * Scripts, ages and blocks *)
(** Lines 958-1279 (1277): the enumerator [unknown] (or [zzzz]) of [script]. *)
Definition script_unknown : Z := 162.
(** Lines 4457-4465: [cp_script<N>]. *)
Definition cp_script_n (n : nat) (cp : Z) : res Z :=
  if 0x10FFFF <? cp then Ok script_unknown
  else match nth_error script_data n with
       | None => Ill
       | Some t => range_value t cp script_unknown
       end.
(** Lines 4466-4492: [get_cp_script], a switch over 0..21. *)
Definition get_cp_script (cp : Z) (idx : nat) : res Z :=
  if Nat.ltb idx 22 then cp_script_n idx cp else Ok script_unknown.
(** Lines 7312-7314. *)
Definition cp_script (cp : Z) : res Z := cp_script_n 0 cp.
(** atoms_unicode.hpp lines 43-47: [binary_property<uni::script, Script>]. *)
Definition script_is (k cp : Z) : res bool := bind (cp_script cp) (fun x => Ok (x =? k)).

(** unicode-db.hpp lines 7316-7365, atoms_unicode.hpp lines 49-56: the loop over
    [cp_script_extensions(c)]; the iterator carries the current script and an index. *)
Fixpoint ext_loop (n : nat) (k cp cur : Z) (idx : nat) : res bool :=
  match n with
  | O => Fuel
  | S n' =>
      if cur =? script_unknown then Ok false
      else if cur =? k then Ok true
      else bind (get_cp_script cp (S idx)) (fun nxt => ext_loop n' k cp nxt (S idx))
  end.
Definition ext_first (cp : Z) : res Z :=
  bind (get_cp_script cp 1) (fun x => if x =? script_unknown then cp_script cp else Ok x).
Definition script_ext_is (k cp : Z) : res bool := bind (ext_first cp) (fun x => ext_loop 23 k cp x 1).

(** Lines 7367-7369 [cp_age] and atoms_unicode.hpp lines 58-62. *)
Definition cp_age (cp : Z) : res Z := range_value age_data cp 0.
Definition age_is (k cp : Z) : res bool := bind (cp_age cp) (fun x => Ok (x <=? k)).

(** Lines 7371-7388 [cp_block] and atoms_unicode.hpp lines 64-68. *)
Definition cp_block (cp : Z) : res Z :=
  bind (packed block_data cp) (fun i =>
  if Nat.eqb i (List.length block_data) then Ok 0
  else bind (before block_data i) (fun x =>
  let offset := low x in
  if offset =? 0 then Ok 0
  else Ok ((Z.of_nat (i - 1) - (offset - 1)) + 1))).
Definition block_is (k cp : Z) : res bool := bind (cp_block cp) (fun x => Ok (x =? k)).

(** * Numeric values *)
(** Lines 7495-7503: [get_numeric_value]. *)
Definition numeric (data : list (Z * Z)) (cp : Z) : res (option Z) :=
  bind (bound (map fst data) (fun x => x <? cp)) (fun i =>
  if Nat.eqb i (List.length data) then Ok None
  else match nth_error data i with
       | None => UB
       | Some (k, v) => if k =? cp then Ok (Some v) else Ok None
       end).
(** Lines 7507-7521: [cp_numeric_value]: numerator and denominator, [None] when not valid. *)
Definition cp_numeric_value (cp : Z) : res (option (Z * Z)) :=
  bind (numeric numeric_data64 cp) (fun a =>
  bind (match a with Some v => Ok (Some v) | None => numeric numeric_data32 cp end) (fun a =>
  bind (match a with Some v => Ok (Some v) | None => numeric numeric_data16 cp end) (fun a =>
  bind (match a with
        | Some v => Ok (Some v)
        | None => bind (list_value numeric_data8 cp 255) (fun v => Ok (if v =? 255 then None else Some v))
        end) (fun a =>
  match a with
  | None => Ok None
  | Some v => bind (numeric numeric_data_d cp) (fun d => Ok (Some (v, match d with Some d => d | None => 1 end)))
  end)))).

(** * Names *)
(** Lines 319-325 [propcharnorm], 327-335 [propcharcomp] and 337-354 [propnamecomp]. *)
Definition propcharnorm (a : Z) : Z :=
  if (65 <=? a) && (a <=? 90) then a + 32 else if (a =? 32) || (a =? 45) then 95 else a.
Definition propcharcomp (a b : Z) : Z :=
  let a := propcharnorm a in
  let b := propcharnorm b in
  if a =? b then 0 else if a <? b then -1 else 1.
Fixpoint propname_loop (a b : list Z) : option Z :=
  match a, b with
  | x :: a', y :: b' => if propcharcomp x y =? 0 then propname_loop a' b' else Some (propcharcomp x y)
  | _, _ => None
  end.
Definition propnamecomp (a b : list Z) : Z :=
  match propname_loop a b with
  | Some r => r
  | None => if Nat.ltb (List.length a) (List.length b) then -1
            else if Nat.ltb (List.length b) (List.length a) then 1 else 0
  end.

(** Lines 7260-7294 and 9507-9514: the loops of [..._from_string]. *)
Fixpoint from_string (names : list (string * Z)) (s : list Z) (d : Z) : Z :=
  match names with
  | [] => d
  | (n, v) :: tl => if propnamecomp s (codes n) =? 0 then v else from_string tl s d
  end.
Fixpoint age_index (names : list string) (s : list Z) (i : Z) : Z :=
  match names with
  | [] => 0
  | n :: tl => if propnamecomp s (codes n) =? 0 then i else age_index tl s (i + 1)
  end.
Definition age_from_string (s : list Z) : Z := age_index age_strings s 0.
Definition block_from_string (s : list Z) : Z := from_string blocks_names s 0.
Definition script_from_string (s : list Z) : Z := from_string scripts_names s script_unknown.

(** Lines 7537-7788: the enumeration [binary_prop], and lines 7790-9018 and 9516-9529: [get_binary_prop],
    by the value of the enumerator; the strings are the enumerators. *)
Definition binary_props : list (string * (Z -> res bool)) :=
  [("ahex", prop_ahex); ("alpha", prop_alpha); ("bidi_c", prop_bidi_c); ("bidi_m", prop_bidi_m); ("cased",
   prop_cased); ("ci", prop_ci); ("dash", prop_dash); ("dep", prop_dep); ("di", prop_di); ("dia", prop_dia);
   ("emoji", prop_emoji); ("emoji_component", prop_emoji_component); ("emoji_modifier", prop_emoji_modifier);
   ("emoji_modifier_base", prop_emoji_modifier_base); ("emoji_presentation", prop_emoji_presentation); ("ext",
   prop_ext); ("extended_pictographic", prop_extended_pictographic); ("gr_base", prop_gr_base); ("gr_ext",
   prop_gr_ext); ("hex", prop_hex); ("idc", prop_idc); ("ideo", prop_ideo); ("ids", prop_ids); ("idsb",
   prop_idsb); ("idst", prop_idst); ("join_c", prop_join_c); ("loe", prop_loe); ("lower", prop_lower); ("math",
   prop_math); ("nchar", prop_nchar); ("pat_syn", prop_pat_syn); ("pat_ws", prop_pat_ws); ("pcm", prop_pcm);
   ("qmark", prop_qmark); ("radical", prop_radical); ("ri", prop_ri); ("sd", prop_sd); ("sterm", prop_sterm);
   ("term", prop_term); ("uideo", prop_uideo); ("upper", prop_upper); ("vs", prop_vs); ("wspace", prop_wspace);
   ("xidc", prop_xidc); ("xids", prop_xids); ("any", cp_is_valid); ("ascii", cp_is_ascii); ("assigned",
   cp_is_assigned); ("c", cat_is_c); ("cc", cat_is_cc); ("cf", cat_is_cf); ("cn", cat_is_cn); ("co",
   cat_is_co); ("cs", cat_is_cs); ("l", cat_is_l); ("lc", cat_is_lc); ("ll", cat_is_ll); ("lm", cat_is_lm);
   ("lo", cat_is_lo); ("lt", cat_is_lt); ("lu", cat_is_lu); ("m", cat_is_m); ("mc", cat_is_mc); ("me",
   cat_is_me); ("mn", cat_is_mn); ("n", cat_is_n); ("nd", cat_is_nd); ("nl", cat_is_nl); ("no", cat_is_no);
   ("p", cat_is_p); ("pc", cat_is_pc); ("pd", cat_is_pd); ("pe", cat_is_pe); ("pf", cat_is_pf); ("pi",
   cat_is_pi); ("po", cat_is_po); ("ps", cat_is_ps); ("s", cat_is_s); ("sc", cat_is_sc); ("sk", cat_is_sk);
   ("sm", cat_is_sm); ("so", cat_is_so); ("z", cat_is_z); ("zl", cat_is_zl); ("zp", cat_is_zp); ("zs",
   cat_is_zs); ("adlm", script_is 0); ("aghb", script_is 1); ("ahom", script_is 2); ("arab", script_is 3);
   ("armi", script_is 4); ("armn", script_is 5); ("avst", script_is 6); ("bali", script_is 7); ("bamu",
   script_is 8); ("bass", script_is 9); ("batk", script_is 10); ("beng", script_is 11); ("bhks", script_is 12);
   ("bopo", script_is 13); ("brah", script_is 14); ("brai", script_is 15); ("bugi", script_is 16); ("buhd",
   script_is 17); ("cakm", script_is 18); ("cans", script_is 19); ("cari", script_is 20); ("cham", script_is
   21); ("cher", script_is 22); ("chrs", script_is 23); ("copt", script_is 24); ("cpmn", script_is 25);
   ("cprt", script_is 26); ("cyrl", script_is 27); ("deva", script_is 28); ("diak", script_is 29); ("dogr",
   script_is 30); ("dsrt", script_is 31); ("dupl", script_is 32); ("egyp", script_is 33); ("elba", script_is
   34); ("elym", script_is 35); ("ethi", script_is 36); ("geor", script_is 37); ("glag", script_is 38);
   ("gong", script_is 39); ("gonm", script_is 40); ("goth", script_is 41); ("gran", script_is 42); ("grek",
   script_is 43); ("gujr", script_is 44); ("guru", script_is 45); ("hang", script_is 46); ("hani", script_is
   47); ("hano", script_is 48); ("hatr", script_is 49); ("hebr", script_is 50); ("hira", script_is 51);
   ("hluw", script_is 52); ("hmng", script_is 53); ("hmnp", script_is 54); ("hrkt", script_is 55); ("hung",
   script_is 56); ("ital", script_is 57); ("java", script_is 58); ("kali", script_is 59); ("kana", script_is
   60); ("khar", script_is 61); ("khmr", script_is 62); ("khoj", script_is 63); ("kits", script_is 64);
   ("knda", script_is 65); ("kthi", script_is 66); ("lana", script_is 67); ("laoo", script_is 68); ("latn",
   script_is 69); ("lepc", script_is 70); ("limb", script_is 71); ("lina", script_is 72); ("linb", script_is
   73); ("lisu", script_is 74); ("lyci", script_is 75); ("lydi", script_is 76); ("mahj", script_is 77);
   ("maka", script_is 78); ("mand", script_is 79); ("mani", script_is 80); ("marc", script_is 81); ("medf",
   script_is 82); ("mend", script_is 83); ("merc", script_is 84); ("mero", script_is 85); ("mlym", script_is
   86); ("modi", script_is 87); ("mong", script_is 88); ("mroo", script_is 89); ("mtei", script_is 90);
   ("mult", script_is 91); ("mymr", script_is 92); ("nand", script_is 93); ("narb", script_is 94); ("nbat",
   script_is 95); ("newa", script_is 96); ("nkoo", script_is 97); ("nshu", script_is 98); ("ogam", script_is
   99); ("olck", script_is 100); ("orkh", script_is 101); ("orya", script_is 102); ("osge", script_is 103);
   ("osma", script_is 104); ("ougr", script_is 105); ("palm", script_is 106); ("pauc", script_is 107); ("perm",
   script_is 108); ("phag", script_is 109); ("phli", script_is 110); ("phlp", script_is 111); ("phnx",
   script_is 112); ("plrd", script_is 113); ("prti", script_is 114); ("rjng", script_is 115); ("rohg",
   script_is 116); ("runr", script_is 117); ("samr", script_is 118); ("sarb", script_is 119); ("saur",
   script_is 120); ("sgnw", script_is 121); ("shaw", script_is 122); ("shrd", script_is 123); ("sidd",
   script_is 124); ("sind", script_is 125); ("sinh", script_is 126); ("sogd", script_is 127); ("sogo",
   script_is 128); ("sora", script_is 129); ("soyo", script_is 130); ("sund", script_is 131); ("sylo",
   script_is 132); ("syrc", script_is 133); ("tagb", script_is 134); ("takr", script_is 135); ("tale",
   script_is 136); ("talu", script_is 137); ("taml", script_is 138); ("tang", script_is 139); ("tavt",
   script_is 140); ("telu", script_is 141); ("tfng", script_is 142); ("tglg", script_is 143); ("thaa",
   script_is 144); ("thai", script_is 145); ("tibt", script_is 146); ("tirh", script_is 147); ("tnsa",
   script_is 148); ("toto", script_is 149); ("ugar", script_is 150); ("vaii", script_is 151); ("vith",
   script_is 152); ("wara", script_is 153); ("wcho", script_is 154); ("xpeo", script_is 155); ("xsux",
   script_is 156); ("yezi", script_is 157); ("yiii", script_is 158); ("zanb", script_is 159); ("zinh",
   script_is 160); ("zyyy", script_is 161); ("zzzz", script_is 162)].
Definition binary_unknown : Z := 249.
Definition binary_prop_from_string (s : list Z) : Z := from_string binary_prop_names s binary_unknown.
Definition get_binary_prop (p : Z) : option (Z -> res bool) :=
  option_map snd (nth_error binary_props (Z.to_nat p)).

(** atoms_unicode.hpp lines 72-86: [property_type_from_name]. *)
Inductive property_type := PT_script | PT_script_extension | PT_age | PT_block | PT_unknown.
Definition is_named (s : list Z) (n : string) : bool := propnamecomp s (codes n) =? 0.
Definition property_type_from_name (s : list Z) : property_type :=
  if is_named s "script" || is_named s "sc" then PT_script
  else if is_named s "script_extension" || is_named s "scx" then PT_script_extension
  else if is_named s "age" then PT_age
  else if is_named s "block" then PT_block
  else PT_unknown.

(** The predicate of [\p{name}] and [\p{name=value}]: properties.inc.hpp lines 22-70 and
    atoms_unicode.hpp lines 88-153; [None] is [reject]. *)
Definition property (name : list Z) (value : option (list Z)) : option (Z -> res bool) :=
  match value with
  | None => let p := binary_prop_from_string name in
            if p =? binary_unknown then None else get_binary_prop p
  | Some v =>
      match property_type_from_name name with
      | PT_script => let k := script_from_string v in if k =? script_unknown then None else Some (script_is k)
      | PT_script_extension =>
          let k := script_from_string v in if k =? script_unknown then None else Some (script_ext_is k)
      | PT_age => let k := age_from_string v in if k =? 0 then None else Some (age_is k)
      | PT_block => let k := block_from_string v in if k =? 0 then None else Some (block_is k)
      | PT_unknown => None
      end
  end.
