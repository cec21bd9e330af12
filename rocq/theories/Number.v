(** Numbers from captures.
    Source: /repo/include/ctre/return_type.hpp, to_number and to_optional_number (lines 126-140, 434-443).

    [std::from_chars] for integers is part of the standard library; it is modelled after [charconv.from.chars]. *)
From Coq Require Import List ZArith NArith Bool Arith Lia ZifyBool.
From Verif Require Import Chars Syntax View Eval Api Spec EvalInv ApiProofs Results CharProofs Lang Parser Literals.
Import ListNotations.
Local Open Scope Z_scope.

(** The target type [R]: an integer type of so many bits, signed or not. *)
Record ntype := mkNtype { n_signed : bool; n_bits : Z }.
Definition n_min (t : ntype) : Z := if n_signed t then - 2 ^ (n_bits t - 1) else 0.
Definition n_max (t : ntype) : Z := if n_signed t then 2 ^ (n_bits t - 1) - 1 else 2 ^ n_bits t - 1.
Definition fits (t : ntype) (v : Z) : bool := (n_min t <=? v) && (v <=? n_max t).

(** [charconv.from.chars]: digits of [strtol] in the C locale: 0-9, a-z and A-Z for the values from ten on. *)
Definition digit (base ch : Z) : option Z :=
  let d := if (48 <=? ch) && (ch <=? 57) then ch - 48
           else if (97 <=? ch) && (ch <=? 122) then ch - 87
           else if (65 <=? ch) && (ch <=? 90) then ch - 55 else base in
  if d <? base then Some d else None.

(** As many digits as there are. *)
Fixpoint read_digits (base acc : Z) (t : list Z) : Z :=
  match t with
  | ch :: t' => match digit base ch with Some d => read_digits base (acc * base + d) t' | None => acc end
  | [] => acc
  end.

Definition starts_with_digit (base : Z) (t : list Z) : bool :=
  match t with ch :: _ => match digit base ch with Some _ => true | None => false end | [] => false end.

(** [charconv.from.chars]: an optional minus sign for signed types, no other prefix, no white space. The value is
    stored if there is a digit and the value fits; otherwise the variable keeps what it had. A base outside of
    2..36 is a violated precondition. *)
Definition from_chars (t : ntype) (base : Z) (txt : list Z) (old : Z) : res Z :=
  if negb ((2 <=? base) && (base <=? 36)) then UB else
  let neg := n_signed t && match txt with 45 :: _ => true | _ => false end in
  let ds := if neg then tl txt else txt in
  if starts_with_digit base ds then
    let v := if neg then - read_digits base 0 ds else read_digits base 0 ds in
    Ok (if fits t v then v else old)
  else Ok old.

(** lines 127-132: the result of from_chars is ignored. The base is an optional argument, 10 if absent. *)
Definition to_number (t : ntype) (base : Z) (s : list Z) (sl : slot) : res Z :=
  match to_view s sl with
  | Ok txt => from_chars t base txt 0
  | No => No | Fuel => Fuel | UB => UB | Ill => Ill
  end.

(** lines 134-140. *)
Definition to_optional_number (t : ntype) (base : Z) (s : list Z) (sl : slot) : res (option Z) :=
  if s_m sl then
    match to_number t base s sl with Ok v => Ok (Some v) | No => No | Fuel => Fuel | UB => UB | Ill => Ill end
  else Ok None.

(** * Specification: positional notation *)
Definition stands_for (base ch d : Z) : Prop :=
  0 <= d < base /\ (d < 10 /\ ch = 48 + d \/ 10 <= d < 36 /\ (ch = 97 + (d - 10) \/ ch = 65 + (d - 10))).
Inductive numeral (base : Z) : list Z -> Z -> Prop :=
| num_one : forall ch d, stands_for base ch d -> numeral base [ch] d
| num_more : forall t v ch d, numeral base t v -> stands_for base ch d -> numeral base (t ++ [ch]) (v * base + d).
(** No digit at the front. *)
Definition ended (base : Z) (u : list Z) : Prop := match u with [] => True | ch :: _ => forall d, ~ stands_for base ch d end.

(** What a type reads: a numeral, with a minus sign for signed types. *)
Inductive written (t : ntype) (base : Z) : list Z -> Z -> Prop :=
| wr_plain : forall w v, numeral base w v -> written t base w v
| wr_minus : forall w v, n_signed t = true -> numeral base w v -> written t base (45 :: w) (- v).

(** * Facts *)
Lemma digit_minus : forall base, digit base 45 = None.
Proof. intros base. unfold digit. cbn. rewrite Z.ltb_irrefl. reflexivity. Qed.
Lemma digit_spec : forall base ch d, digit base ch = Some d <-> stands_for base ch d.
Proof.
  intros base ch d. unfold digit, stands_for.
  destruct ((48 <=? ch) && (ch <=? 57)) eqn:E1.
  { destruct (ch - 48 <? base) eqn:E; split; intros H; try discriminate; try lia; [injection H as <-; lia|f_equal; lia]. }
  destruct ((97 <=? ch) && (ch <=? 122)) eqn:E2.
  { destruct (ch - 87 <? base) eqn:E; split; intros H; try discriminate; try lia; [injection H as <-; lia|f_equal; lia]. }
  destruct ((65 <=? ch) && (ch <=? 90)) eqn:E3.
  { destruct (ch - 55 <? base) eqn:E; split; intros H; try discriminate; try lia; [injection H as <-; lia|f_equal; lia]. }
  rewrite Z.ltb_irrefl. split; intros H; [discriminate|lia].
Qed.
Lemma ended_spec : forall base u, ended base u -> starts_with_digit base u = false.
Proof.
  intros base [|ch u] H; [reflexivity|]. cbn in *. destruct (digit base ch) as [d|] eqn:E; [|reflexivity].
  exfalso. apply (H d), digit_spec. assumption.
Qed.

Lemma ended_spec' : forall base u, starts_with_digit base u = false -> ended base u.
Proof.
  intros base [|ch u] H; [exact I|]. cbn in *. intros d D. apply digit_spec in D. rewrite D in H. discriminate.
Qed.

Definition has_digit (base ch : Z) : bool := match digit base ch with Some _ => true | None => false end.

Lemma numeral_digits : forall base w v, numeral base w v -> forallb (has_digit base) w = true /\ w <> [].
Proof.
  intros base w v H. induction H as [ch d H | t v ch d _ [IH _] H]; try (apply digit_spec in H); (split; [|]).
  - cbn. unfold has_digit. rewrite H. reflexivity.
  - discriminate.
  - rewrite forallb_app, IH. cbn. unfold has_digit. rewrite H. reflexivity.
  - destruct t; discriminate.
Qed.
Lemma read_app : forall base w acc u, forallb (has_digit base) w = true ->
  read_digits base acc (w ++ u) = read_digits base (read_digits base acc w) u.
Proof.
  intros base w. induction w as [|ch w IH]; intros acc u H; [reflexivity|]. cbn in H. apply andb_true_iff in H as [H1 H2].
  cbn. unfold has_digit in H1. destruct (digit base ch); [|discriminate]. apply IH. assumption.
Qed.
Lemma read_numeral : forall base w v, numeral base w v -> read_digits base 0 w = v.
Proof.
  intros base w v H. induction H as [ch d H | t v ch d Hn IH H]; apply digit_spec in H.
  - cbn. rewrite H. lia.
  - rewrite read_app by (apply (numeral_digits _ _ _ Hn)). rewrite IH. cbn. rewrite H. reflexivity.
Qed.
Lemma numeral_exists : forall base w, forallb (has_digit base) w = true -> w <> [] -> numeral base w (read_digits base 0 w).
Proof.
  intros base w. induction w as [|ch w IH] using rev_ind; intros H Hn; [congruence|].
  rewrite forallb_app in H. apply andb_true_iff in H as [H1 H2]. cbn in H2. rewrite andb_true_r in H2.
  rewrite read_app by assumption. unfold has_digit in H2. destruct (digit base ch) as [d|] eqn:E; [|discriminate].
  cbn. rewrite E. destruct w as [|x w].
  - cbn. rewrite <- (Z.add_0_l d) at 1. apply (num_one base ch), digit_spec. rewrite E. f_equal; lia.
  - apply num_more; [|apply digit_spec; assumption]. apply IH; [assumption|discriminate].
Qed.
Lemma read_stop : forall base u acc, starts_with_digit base u = false -> read_digits base acc u = acc.
Proof. intros base [|ch u] acc H; [reflexivity|]. cbn in *. destruct (digit base ch); [discriminate|reflexivity]. Qed.
Lemma starts_app : forall base w u v, numeral base w v -> starts_with_digit base (w ++ u) = true.
Proof.
  intros base w u v H. destruct (numeral_digits _ _ _ H) as [H1 H2]. destruct w as [|ch w]; [congruence|].
  cbn in *. apply andb_true_iff in H1 as [H1 _]. exact H1.
Qed.
Lemma numeral_minus : forall base w v, ~ numeral base (45 :: w) v.
Proof.
  intros base w v H. apply numeral_digits in H as [H _]. cbn [forallb] in H. unfold has_digit at 1 in H. rewrite digit_minus in H. discriminate.
Qed.
Lemma head_minus : forall (w : list Z), {w' | w = 45 :: w'} + {match w with 45 :: _ => true | _ => false end = false}.
Proof.
  intros [|ch w]; [right; reflexivity|]. destruct (Z.eq_dec ch 45) as [->|N]; [left; eauto|right].
  destruct ch as [|p|p]; try reflexivity. destruct p as [p|p|]; try reflexivity; destruct p as [p|p|]; try reflexivity;
  destruct p as [p|p|]; try reflexivity; destruct p as [p|p|]; try reflexivity; destruct p as [p|p|]; try reflexivity;
  destruct p as [p|p|]; try reflexivity. congruence.
Qed.

Lemma bases : forall base, 2 <= base <= 36 -> negb ((2 <=? base) && (base <=? 36)) = false.
Proof. intros. lia. Qed.

(** A written number, followed by anything but a digit. *)
Lemma from_chars_written : forall t base w u v old, 2 <= base <= 36 -> written t base w v -> starts_with_digit base u = false ->
  from_chars t base (w ++ u) old = Ok (if fits t v then v else old).
Proof.
  intros t base w u v old B W U. unfold from_chars. rewrite bases by assumption.
  destruct W as [w v H | w v Sg H].
  - assert (E : n_signed t && match w ++ u with 45 :: _ => true | _ => false end = false).
    { destruct (head_minus w) as [[w' ->]|E]; [exfalso; exact (numeral_minus _ _ _ H)|].
      destruct w as [|ch w]; [exfalso; apply (numeral_digits _ _ _ H); reflexivity|]. cbn [app] in *. rewrite E. apply andb_false_r. }
    rewrite E, (starts_app _ _ _ _ H), read_app by apply (numeral_digits _ _ _ H).
    rewrite (read_numeral _ _ _ H), read_stop by assumption. reflexivity.
  - cbn [app]. rewrite Sg. cbn [andb tl]. rewrite (starts_app _ _ _ _ H), read_app by apply (numeral_digits _ _ _ H).
    rewrite (read_numeral _ _ _ H), read_stop by assumption. reflexivity.
Qed.

(** No number in front: the variable keeps its value. *)
Lemma from_chars_none : forall t base txt old, 2 <= base <= 36 ->
  (forall w u v, txt = w ++ u -> ~ written t base w v) -> from_chars t base txt old = Ok old.
Proof.
  intros t base txt old B Hn. unfold from_chars. rewrite bases by assumption.
  destruct (starts_with_digit base (if n_signed t && match txt with 45 :: _ => true | _ => false end then tl txt else txt)) eqn:E; [exfalso|reflexivity].
  destruct (n_signed t && match txt with 45 :: _ => true | _ => false end) eqn:Ng.
  - apply andb_true_iff in Ng as [Sg M]. destruct (head_minus txt) as [[w ->]|N]; [|congruence].
    cbn [tl] in E. destruct w as [|ch w]; [discriminate|]. cbn in E. destruct (digit base ch) as [d|] eqn:D; [|discriminate].
    apply (Hn [45; ch] w (- d)); [reflexivity|]. apply wr_minus; [assumption|]. apply num_one, digit_spec. assumption.
  - destruct txt as [|ch w]; [discriminate|]. cbn in E. destruct (digit base ch) as [d|] eqn:D; [|discriminate].
    apply (Hn [ch] w d); [reflexivity|]. apply wr_plain, num_one, digit_spec. assumption.
Qed.

(** The two cases exclude each other and there is no third one. *)
Lemma split_written : forall t base txt,
  (exists w u v, txt = w ++ u /\ written t base w v /\ starts_with_digit base u = false) \/
  (forall w u v, txt = w ++ u -> ~ written t base w v).
Proof.
  intros t base txt.
  assert (P : forall x, starts_with_digit base x = true -> exists w u v, x = w ++ u /\ numeral base w v /\ starts_with_digit base u = false).
  { assert (Q : forall x, exists w u, x = w ++ u /\ forallb (has_digit base) w = true /\ starts_with_digit base u = false).
    { induction x as [|ch x (w & u & -> & H1 & H2)]; [exists [], []; repeat split|].
      destruct (has_digit base ch) eqn:E.
      - exists (ch :: w), u. cbn. rewrite E. auto.
      - exists [], (ch :: w ++ u). cbn. auto. }
    intros x Hx. destruct (Q x) as (w & u & -> & H1 & H2). destruct w as [|ch w]; [cbn in Hx; congruence|].
    exists (ch :: w), u, (read_digits base 0 (ch :: w)). repeat split; auto. apply numeral_exists; [assumption|discriminate]. }
  destruct (starts_with_digit base txt) eqn:E1.
  { left. destruct (P txt E1) as (w & u & v & -> & H & H2). exists w, u, v. repeat split; auto. constructor; assumption. }
  destruct (n_signed t && match txt with 45 :: _ => true | _ => false end && starts_with_digit base (tl txt)) eqn:E2.
  { left. apply andb_true_iff in E2 as [E2 E3]. apply andb_true_iff in E2 as [Sg M].
    destruct (head_minus txt) as [[x ->]|N]; [|congruence]. cbn [tl] in E3. destruct (P x E3) as (w & u & v & -> & H & H2).
    exists (45 :: w), u, (- v). repeat split; auto. constructor; assumption. }
  right. intros w u v -> W. destruct W as [w v H | w v Sg H].
  - rewrite (starts_app _ _ _ _ H) in E1. discriminate.
  - cbn [app tl] in E2. rewrite Sg, (starts_app _ _ _ _ H) in E2. discriminate.
Qed.

Lemma numeral_functional : forall base w v v', numeral base w v -> numeral base w v' -> v = v'.
Proof. intros base w v v' H1 H2. rewrite <- (read_numeral _ _ _ H1). apply read_numeral. assumption. Qed.
Lemma written_functional : forall t base w v v', written t base w v -> written t base w v' -> v = v'.
Proof.
  intros t base w v v' H1 H2. destruct H1 as [w v H | w v Sg H]; inversion H2; subst.
  - eapply numeral_functional; eassumption.
  - exfalso. exact (numeral_minus _ _ _ H).
  - exfalso. eapply numeral_minus; eassumption.
  - f_equal. eapply numeral_functional; eassumption.
Qed.

(** Every number is written somehow. *)
Definition figure (d : Z) : Z := if d <? 10 then d + 48 else d + 87.
Lemma figure_digit : forall base d, 2 <= base <= 36 -> 0 <= d < base -> stands_for base (figure d) d.
Proof. intros base d B D. unfold stands_for, figure. destruct (d <? 10) eqn:E; lia. Qed.
Lemma numeral_all : forall base v, 2 <= base <= 36 -> 0 <= v -> exists w, numeral base w v.
Proof.
  intros base v B V. revert v V. apply (Zlt_0_ind (fun v => exists w, numeral base w v)).
  intros x IH Hx. destruct (Z_lt_ge_dec x base) as [L|G].
  - exists [figure x]. apply num_one, figure_digit; lia.
  - destruct (IH (x / base)) as [w Hw]; [split; [apply Z.div_pos; lia|apply Z.div_lt; lia]|].
    exists (w ++ [figure (x mod base)]). rewrite (Z.div_mod x base) at 2 by lia. rewrite Z.mul_comm. apply num_more; [assumption|].
    apply figure_digit; [assumption|]. apply Z.mod_pos_bound. lia.
Qed.
Lemma written_all : forall t base v, 2 <= base <= 36 -> fits t v = true -> exists w, written t base w v.
Proof.
  intros t base v B F. destruct (Z_lt_ge_dec v 0) as [L|G].
  - destruct (numeral_all base (- v) B ltac:(lia)) as [w Hw]. exists (45 :: w). rewrite <- (Z.opp_involutive v). apply wr_minus; [|assumption].
    unfold fits, n_min in F. destruct (n_signed t); [reflexivity|lia].
  - destruct (numeral_all base v B ltac:(lia)) as [w Hw]. exists w. constructor. assumption.
Qed.

(** * Captures *)
Section Calls.
Variables (m : bool -> nat -> list Z -> flags -> re -> res caps) (opt : bool) (n : nat) (s : list Z) (f : flags) (r : re) (c : caps).
Hypothesis Hm : entry_point m.
Hypothesis Hw : well_numbered r.
Hypothesis H : m opt n s f r = Ok c.

Lemma number_view : forall t base id sl txt, get_id id c = Some sl -> text_of s c id = Some txt ->
  to_number t base s sl = from_chars t base txt 0.
Proof.
  intros t base id sl txt Hg Ht. unfold to_number.
  destruct (plain_view m opt n s f r c Hm Hw H id sl txt Hg Ht) as [-> _]. reflexivity.
Qed.

Lemma number_written : forall t base id sl w u v, 2 <= base <= 36 -> get_id id c = Some sl ->
  text_of s c id = Some (w ++ u) -> written t base w v -> ended base u ->
  to_number t base s sl = Ok (if fits t v then v else 0).
Proof.
  intros t base id sl w u v B Hg Ht W U. rewrite (number_view _ _ _ _ _ Hg Ht). apply from_chars_written; try assumption. apply ended_spec. assumption.
Qed.
Lemma number_none : forall t base id sl txt, 2 <= base <= 36 -> get_id id c = Some sl -> text_of s c id = Some txt ->
  (forall w u v, txt = w ++ u -> ~ written t base w v) -> to_number t base s sl = Ok 0.
Proof.
  intros t base id sl txt B Hg Ht Hn. rewrite (number_view _ _ _ _ _ Hg Ht). apply from_chars_none; assumption.
Qed.
Lemma number_fits : forall t base id sl txt, 2 <= base <= 36 -> 0 < n_bits t -> get_id id c = Some sl -> text_of s c id = Some txt ->
  exists v, to_number t base s sl = Ok v /\ fits t v = true.
Proof.
  intros t base id sl txt B Bt Hg Ht. assert (Z0 : fits t 0 = true).
  { unfold fits, n_min, n_max. pose proof (Z.pow_pos_nonneg 2 (n_bits t - 1) ltac:(lia) ltac:(lia)).
    pose proof (Z.pow_pos_nonneg 2 (n_bits t) ltac:(lia) ltac:(lia)). destruct (n_signed t); lia. }
  destruct (split_written t base txt) as [(w & u & v & -> & W & U)|Hn].
  - rewrite (number_view _ _ _ _ _ Hg Ht), (from_chars_written t base w u v 0 B W U). destruct (fits t v) eqn:E; eauto.
  - rewrite (number_none t base id sl txt B Hg Ht Hn). eauto.
Qed.
Lemma optional_number : forall t base id sl, get_id id c = Some sl ->
  match text_of s c id with
  | Some txt => forall v, to_number t base s sl = Ok v -> to_optional_number t base s sl = Ok (Some v)
  | None => to_optional_number t base s sl = Ok None
  end.
Proof.
  intros t base id sl Hg. unfold to_optional_number, text_of.
  destruct (slot_cases m opt n s f r c id sl Hm Hw H Hg) as [(E1 & b & e & E2 & E3 & _) | (E1 & E2)]; rewrite E1, E2.
  - intros v ->. reflexivity.
  - reflexivity.
Qed.
End Calls.

(** A full match is of the whole subject. *)
Lemma match_text : forall opt n s f r c, well_numbered r -> ctre_match opt n s f r = Ok c -> matched c = true -> text_of s c 0 = Some s.
Proof.
  intros opt n s f r c Hw E M. unfold ctre_match, exec_match in E. apply returned_cases in E as [E|[_ ->]]; [|discriminate M].
  apply (whole_ok opt n s f r 0 _ Hw (Nat.le_0_l _)) in E as (K1 & K2 & K3 & _). unfold text_of, group. cbn [get_id].
  unfold get_id. cbn [Nat.eqb]. unfold matched in K1. destruct (c0 c) as [b e mt]. cbn in K1, K2, K3. subst.
  unfold text. rewrite Nat.sub_0_r. cbn [skipn]. rewrite firstn_all. reflexivity.
Qed.

(** * The language of [-?[0-9]+] *)
Lemma cat_eps_l : forall x w, word (XCat XEps x) w <-> word x w.
Proof.
  intros x w. rewrite word_cat. split.
  - intros (w1 & w2 & -> & W1 & W2). apply word_eps in W1. subst. exact W2.
  - intros W. exists [], w. split; [reflexivity|]. split; [constructor|exact W].
Qed.
Lemma cat_eps_r : forall x w, word (XCat x XEps) w <-> word x w.
Proof.
  intros x w. rewrite word_cat. split.
  - intros (w1 & w2 & -> & W1 & W2). apply word_eps in W2. subst. rewrite app_nil_r. exact W1.
  - intros W. exists w, []. rewrite app_nil_r. split; [reflexivity|]. split; [exact W|constructor].
Qed.
Lemma word_char : forall P w, word (XChar P) w <-> exists v, w = [v] /\ P v = true.
Proof. intros P w. split; [intros W; inversion W; eauto|intros (v & -> & H); constructor; exact H]. Qed.
Lemma star_chars : forall x P, (forall w, word x w <-> exists v, w = [v] /\ P v = true) ->
  forall w, word (XStar x) w <-> forallb P w = true.
Proof.
  intros x P HP w. split.
  - intros W. remember (XStar x) as y eqn:E. induction W; try discriminate; [reflexivity|]. injection E as ->.
    apply HP in W1 as (v & -> & Hv). cbn. rewrite Hv. apply IHW2. reflexivity.
  - induction w as [|v w IH]; intros W; [constructor|]. cbn in W. apply andb_true_iff in W as [W1 W2].
    apply (w_more x [v] w); [apply HP; eauto|apply IH; exact W2].
Qed.
Lemma ten : forall ch, has_digit 10 ch = ((48 <=? ch) && (ch <=? 57)).
Proof.
  intros ch. unfold has_digit. destruct (digit 10 ch) as [d|] eqn:E.
  - apply digit_spec in E. unfold stands_for in E. lia.
  - destruct ((48 <=? ch) && (ch <=? 57)) eqn:F; [exfalso|reflexivity].
    assert (D : digit 10 ch = Some (ch - 48)) by (apply digit_spec; unfold stands_for; lia). congruence.
Qed.
