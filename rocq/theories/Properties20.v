(** Numbers from captures (C51).

    [ntype]: an integer type, [mkNtype signed bits]; [fits t v]: the value is in its range. [numeral base w v]: the
    digits [w] stand for [v] in positional notation; [written t base w v]: the same, with a minus sign in front for
    signed types. [ended base u]: [u] does not start with a digit. *)
From Coq Require Import List ZArith NArith Bool Lia ZifyBool String.
From Verif Require Import Chars CharProofs Syntax View Eval Api Spec EvalInv ApiProofs Results Number Lang Checks ModeCalls Views Total Combine Parser Literals Properties2.
Import ListNotations.
Local Open Scope string_scope.
Local Open Scope nat_scope.

Definition int32 : ntype := mkNtype true 32.
Definition uint8 : ntype := mkNtype false 8.

(** A capture that begins with a written number gives that number, or 0 if it does not fit; what follows the number
    is ignored. *)
Theorem C51_number : forall m opt n s f r c t base id sl w u v, entry_point m -> well_numbered r -> m opt n s f r = Ok c ->
  (2 <= base <= 36)%Z -> get_id id c = Some sl -> text_of s c id = Some (w ++ u)%list -> written t base w v -> ended base u ->
  to_number t base s sl = Ok (if fits t v then v else 0%Z).
Proof. exact (fun m opt n s f r c t base id sl w u v Hm Hw H => number_written m opt n s f r c Hm Hw H t base id sl w u v). Qed.
Print Assumptions C51_number.
(** Without a number at the front it is 0. *)
Theorem C51_no_number : forall m opt n s f r c t base id sl txt, entry_point m -> well_numbered r -> m opt n s f r = Ok c ->
  (2 <= base <= 36)%Z -> get_id id c = Some sl -> text_of s c id = Some txt ->
  (forall w u v, txt = (w ++ u)%list -> ~ written t base w v) -> to_number t base s sl = Ok 0%Z.
Proof. exact (fun m opt n s f r c t base id sl txt Hm Hw H => number_none m opt n s f r c Hm Hw H t base id sl txt). Qed.
Print Assumptions C51_no_number.
(** Nothing else can happen to a capture that took part: one of the two cases applies, and the number is in range. *)
Theorem C51_cases : forall t base txt,
  (exists w u v, txt = (w ++ u)%list /\ written t base w v /\ ended base u) \/
  (forall w u v, txt = (w ++ u)%list -> ~ written t base w v).
Proof.
  intros t base txt. destruct (split_written t base txt) as [(w & u & v & E & W & U)|N]; [left|right; exact N].
  exists w, u, v. repeat split; auto. apply ended_spec'. exact U.
Qed.
Print Assumptions C51_cases.
Theorem C51_in_range : forall m opt n s f r c t base id sl txt, entry_point m -> well_numbered r -> m opt n s f r = Ok c ->
  (2 <= base <= 36)%Z -> (0 < n_bits t)%Z -> get_id id c = Some sl -> text_of s c id = Some txt ->
  exists v, to_number t base s sl = Ok v /\ fits t v = true.
Proof. exact (fun m opt n s f r c t base id sl txt Hm Hw H => number_fits m opt n s f r c Hm Hw H t base id sl txt). Qed.
Print Assumptions C51_in_range.
(** The range: the values of the patterns of so many bits, in two's complement for signed types. *)
Definition bits_value (l : list bool) : Z := fold_left (fun a b => 2 * a + (if b : bool then 1 else 0))%Z l 0%Z.
Definition twos_value (l : list bool) : Z :=
  match l with [] => 0 | b :: l => bits_value l - (if b then 2 ^ Z.of_nat (List.length l) else 0) end%Z.
Lemma bits_range : forall n v, (0 <= v < 2 ^ Z.of_nat n)%Z <-> exists l, List.length l = n /\ v = bits_value l.
Proof.
  induction n as [|n IH]; intros v.
  - change (2 ^ Z.of_nat 0)%Z with 1%Z. split; [intros H; exists []; split; [reflexivity|cbn; lia]|].
    intros ([|] & L & ->); [cbn; lia|discriminate].
  - rewrite Nat2Z.inj_succ, Z.pow_succ_r by lia. split.
    + intros H. destruct (proj1 (IH (v / 2)%Z)) as (l & L & E).
      { split; [apply Z.div_pos; lia|apply Z.div_lt_upper_bound; lia]. }
      exists (l ++ [Z.odd v])%list. rewrite app_length. cbn [List.length]. split; [lia|]. unfold bits_value in *. rewrite fold_left_app. cbn [fold_left].
      rewrite <- E. rewrite <- Zmod_odd. apply Z.div_mod. lia.
    + intros (l & L & ->). destruct (exists_last (l := l)) as (l' & b & ->); [intros ->; discriminate|]. rewrite app_length in L. cbn [List.length] in L.
      assert (K : (0 <= bits_value l' < 2 ^ Z.of_nat n)%Z) by (apply IH; exists l'; split; [lia|reflexivity]).
      unfold bits_value in *. rewrite fold_left_app. cbn [fold_left]. destruct b; lia.
Qed.
Theorem C51_range : forall signed n v, 0 < n ->
  (fits (mkNtype signed (Z.of_nat n)) v = true <->
   exists l, List.length l = n /\ v = (if signed then twos_value l else bits_value l)).
Proof.
  intros signed n v Hn. unfold fits, n_min, n_max. cbn [n_signed n_bits]. destruct signed.
  - destruct n as [|n]; [lia|]. replace (Z.of_nat (S n) - 1)%Z with (Z.of_nat n) by lia. split.
    + intros H. destruct (Z.ltb_spec v 0) as [K|K].
      * destruct (proj1 (bits_range n (v + 2 ^ Z.of_nat n))) as (l & L & E); [lia|]. exists (true :: l). cbn [List.length twos_value]. rewrite <- E, L.
        split; [reflexivity|lia].
      * destruct (proj1 (bits_range n v)) as (l & L & E); [lia|]. exists (false :: l). cbn [List.length twos_value]. rewrite <- E, L. split; [reflexivity|lia].
    + intros ([|b l] & L & ->); [discriminate|]. injection L as L. cbn [twos_value]. rewrite L.
      assert (K : (0 <= bits_value l < 2 ^ Z.of_nat n)%Z) by (apply bits_range; eauto). destruct b; lia.
  - rewrite <- bits_range. lia.
Qed.
Print Assumptions C51_range.
(** [to_optional_number] is empty exactly for captures that did not take part. *)
Theorem C51_optional : forall m opt n s f r c t base id sl, entry_point m -> well_numbered r -> m opt n s f r = Ok c ->
  get_id id c = Some sl ->
  match text_of s c id with
  | Some txt => forall v, to_number t base s sl = Ok v -> to_optional_number t base s sl = Ok (Some v)
  | None => to_optional_number t base s sl = Ok None
  end.
Proof. exact (fun m opt n s f r c t base id sl Hm Hw H => optional_number m opt n s f r c Hm Hw H t base id sl). Qed.
Print Assumptions C51_optional.
Example C51_ex : exists c a b d, ctre_search true 99 (codes "at -042;ffZ") plain_mode (rx "(-[0-9]+;)([a-zA-Z]+)|(z)") = Ok c /\
  get_id 1 c = Some a /\ get_id 2 c = Some b /\ get_id 3 c = Some d /\
  to_number int32 10 (codes "at -042;ffZ") a = Ok (-42)%Z /\ to_number uint8 10 (codes "at -042;ffZ") a = Ok 0%Z /\
  to_number uint8 16 (codes "at -042;ffZ") b = Ok 255%Z /\ to_number int32 10 (codes "at -042;ffZ") b = Ok 0%Z /\
  to_number uint8 36 (codes "at -042;ffZ") b = Ok 0%Z /\ to_number int32 36 (codes "at -042;ffZ") b = Ok 20015%Z /\
  to_optional_number int32 10 (codes "at -042;ffZ") a = Ok (Some (-42)%Z) /\ to_optional_number int32 10 (codes "at -042;ffZ") d = Ok None.
Proof. do 4 eexists. do 4 (split; [vm_compute; reflexivity|]). repeat split; vm_compute; reflexivity. Qed.
Example C51_ex_written : written int32 10 (codes "-042") (-42).
Proof.
  apply (wr_minus int32 10 (codes "042") 42 eq_refl). change 42%Z with ((0 * 10 + 4) * 10 + 2)%Z.
  apply (num_more 10 (codes "04") (0 * 10 + 4) 50 2); [apply (num_more 10 (codes "0") 0 52 4); [apply (num_one 10 48 0)|]|]; unfold stands_for; lia.
Qed.

(** ** From the number to the text and back *)
(** Every value of a type is written somehow, and a text stands for one value only. *)
Theorem C51_notation : forall t base, (2 <= base <= 36)%Z ->
  (forall v, fits t v = true -> exists w, written t base w v) /\
  (forall w v v', written t base w v -> written t base w v' -> v = v').
Proof. intros t base B. split; [intros v; exact (written_all t base v B)|exact (written_functional t base)]. Qed.
Print Assumptions C51_notation.
(** [-?[0-9]+] fully matches exactly the written numbers, and the match converts to what is written. *)
Definition integers : re := rx "-?[0-9]+".
Lemma integer_words : forall s, word (textbook plain_mode integers) s <-> exists v, written int32 10 s v.
Proof.
  intros s. unfold integers.
  let x := eval vm_compute in (rx "-?[0-9]+") in change (rx "-?[0-9]+") with x.
  unfold textbook. cbn -[Z.leb]. change (Pos.to_nat 1) with 1. cbn [Nat.sub upto power].
  set (M := fun v : Z => lit_has false 45 v). set (P := fun v : Z => orb _ _).
  assert (HP : forall v, P v = has_digit 10 v) by (intros v; rewrite ten; unfold P, fold_test; destruct ((48 <=? v)%Z && (v <=? 57)%Z)%bool; reflexivity).
  assert (HM : forall v, M v = true <-> v = 45%Z).
  { intros v. unfold M, lit_has, fold_test. destruct (Z.eqb_spec 45 v) as [<-|N]; cbn [orb andb]; split; intros H; congruence. }
  clearbody P M.
  assert (FE : forall w, forallb P w = forallb (has_digit 10) w) by (induction w as [|v w IH]; [reflexivity|cbn; rewrite HP, IH; reflexivity]).
  assert (D : forall w, word (XCat (XCat (XCat (XCat (XChar P) XEps) XEps) (XStar (XCat (XChar P) XEps))) XEps) w <-> exists v, numeral 10 w v).
  { intros w. rewrite cat_eps_r, word_cat. split.
    - intros (w1 & w2 & -> & W1 & W2). rewrite !cat_eps_r in W1. apply word_char in W1 as (ch & -> & Hc).
      apply (star_chars _ P) in W2; [|intros x; rewrite cat_eps_r; apply word_char]. eexists. apply numeral_exists; [|discriminate].
      cbn [app forallb]. rewrite <- HP, Hc. rewrite <- FE. exact W2.
    - intros (v & N). apply numeral_digits in N as [N1 N2]. destruct w as [|ch w]; [congruence|]. cbn in N1. apply andb_true_iff in N1 as [N1 N3].
      exists [ch], w. split; [reflexivity|]. split; [rewrite !cat_eps_r; apply word_char; exists ch; split; [reflexivity|rewrite HP; exact N1]|].
      apply (star_chars _ P); [intros x; rewrite cat_eps_r; apply word_char|].
      rewrite FE. exact N3. }
  rewrite word_cat. split.
  - intros (w1 & w2 & -> & W1 & W2). apply D in W2 as (v & N). rewrite cat_eps_l, word_alt in W1. destruct W1 as [W1|W1].
    + apply word_eps in W1. subst w1. exists v. constructor. exact N.
    + rewrite !cat_eps_r in W1. apply word_char in W1 as (ch & -> & Hc). apply HM in Hc. subst ch. exists (- v)%Z. constructor; [reflexivity|exact N].
  - intros (v & W). destruct W as [w v N|w v _ N].
    + exists [], w. split; [reflexivity|]. split; [rewrite cat_eps_l; apply word_alt; left; constructor|apply D; eauto].
    + exists [45%Z], w. split; [reflexivity|]. split; [|apply D; eauto]. rewrite cat_eps_l. apply word_alt. right. rewrite !cat_eps_r.
      apply word_char. exists 45%Z. split; [reflexivity|apply HM; reflexivity].
Qed.
Lemma written_values : forall t w v, written t 10 w v -> forallb val_ok w = true.
Proof.
  assert (N : forall w v, numeral 10 w v -> forallb val_ok w = true).
  { intros w v H. apply numeral_digits in H as [H _]. apply forallb_forall. intros ch Hc. rewrite forallb_forall in H.
    specialize (H ch Hc). rewrite ten in H. unfold val_ok. lia. }
  intros t w v W. destruct W as [w v H|w v _ H]; [exact (N _ _ H)|]. cbn. exact (N _ _ H).
Qed.
Theorem C51_integers : forall opt s, forallb val_ok s = true ->
  exists c, answers (fun n => ctre_match opt n s plain_mode integers) c /\
    (matched c = true <-> exists v, written int32 10 s v) /\
    (matched c = true -> forall t v, n_signed t = true -> written t 10 s v ->
       to_number t 10 s (c0 c) = Ok (if fits t v then v else 0%Z) /\
       to_optional_number t 10 s (c0 c) = Ok (Some (if fits t v then v else 0%Z))).
Proof.
  intros opt s Hs.
  assert (Hw : well_numbered integers) by (apply numbered_spec; vm_compute; reflexivity).
  destruct (sailing opt plain_mode integers s) as (c & A & B & _); [|exact Hs|].
  { split; [exact Hw|]. destruct opt; vm_compute; auto 10. }
  exists c. split; [exact A|]. split.
  - rewrite B. apply integer_words.
  - intros M t v Sg W. destruct A as (n & A). specialize (A n (le_n n)).
    assert (T : text_of s c 0 = Some (s ++ [])%list).
    { rewrite app_nil_r. exact (match_text opt n s plain_mode integers c Hw A M). }
    pose proof (number_written _ opt n s plain_mode integers c (or_introl eq_refl) Hw A t 10 0 (c0 c) s [] v ltac:(lia) eq_refl T W I) as E.
    split; [exact E|]. pose proof (optional_number _ opt n s plain_mode integers c (or_introl eq_refl) Hw A t 10 0 (c0 c) eq_refl) as O.
    rewrite T in O. exact (O _ E).
Qed.
Print Assumptions C51_integers.
(** Writing a value and reading it gives the value. *)
Theorem C51_round_trip : forall opt t v w, n_signed t = true -> fits t v = true -> written t 10 w v ->
  exists c, answers (fun n => ctre_match opt n w plain_mode integers) c /\ matched c = true /\ to_number t 10 w (c0 c) = Ok v.
Proof.
  intros opt t v w Sg F W. assert (W' : written int32 10 w v) by (destruct W; constructor; auto).
  destruct (C51_integers opt w (written_values _ _ _ W')) as (c & A & B & D). exists c. split; [exact A|].
  assert (M : matched c = true) by (apply B; eauto). split; [exact M|]. destruct (D M t v Sg W) as [E _]. rewrite F in E. exact E.
Qed.
Print Assumptions C51_round_trip.

(** ** A number that does not fit looks like zero *)
(** The result of from_chars is dropped (lines 127-132): neither conversion tells a number that is out of range, or no
    number at all, from the number 0. *)
Theorem C51_overflow_refuted : forall opt, exists p s s' n c c', ctre_match opt n s plain_mode (rx p) = Ok c /\
  ctre_match opt n s' plain_mode (rx p) = Ok c' /\ matched c = true /\ matched c' = true /\
  written int32 10 s 4294967296 /\ written int32 10 s' 0 /\
  to_optional_number int32 10 s (c0 c) = Ok (Some 0%Z) /\ to_optional_number int32 10 s' (c0 c') = Ok (Some 0%Z).
Proof.
  assert (W : forall w v, forallb (has_digit 10) w = true -> w <> [] -> read_digits 10 0 w = v -> written int32 10 w v).
  { intros w v H1 H2 <-. constructor. apply numeral_exists; assumption. }
  intros []; exists "[0-9]+", (codes "4294967296"), (codes "0"), 60; do 2 eexists; (split; [vm_compute; reflexivity|]);
    (split; [vm_compute; reflexivity|]); (split; [reflexivity|]); (split; [reflexivity|]);
    (split; [apply W; [reflexivity|discriminate|reflexivity]|]); (split; [apply W; [reflexivity|discriminate|reflexivity]|]); split; vm_compute; reflexivity.
Qed.
Print Assumptions C51_overflow_refuted.
(** The plain conversion of a failed search reads no range (as C42_failed_search_refuted). *)
Theorem C51_failed_search_refuted : forall opt, exists s r n c, ctre_search opt n s plain_mode r = Ok c /\ matched c = false /\
  to_number int32 10 s (c0 c) = UB.
Proof. intros []; exists (codes "b"), (rx "[0-9]+"), 60; eexists; (split; [vm_compute; reflexivity|]); split; vm_compute; reflexivity. Qed.
Print Assumptions C51_failed_search_refuted.
