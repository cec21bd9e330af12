(** Every text of the pattern syntax is parsed to the AST it denotes: one half of C43. *)
From Coq Require Import List ZArith NArith Bool Arith Lia String.
From Coq Require Import ZifyBool ZifyNat ZifyN.
From Verif Require Import Chars Syntax Grammar Actions Parser ParserProofs Literals Pattern.
Import ListNotations.
Local Open Scope Z_scope.

Section Machine.
Variable props : list Z -> option (list Z) -> option (list (Z * Z)).
Variable B : builders.

(** * The machine with other actions *)
(** The actions that build nodes from nodes go through [B]; a mode switch may have one letter only. *)
Definition act (a : action) (p : option Z) (c : ctx) : act_res :=
  let one (f : re -> option re) :=
    match stk c with IRe x :: ts => match f x with Some y => Done (mkCtx (IRe y :: ts) (counter c)) | None => IllAct end | _ => IllAct end in
  let two (f : re -> re -> re) :=
    match stk c with IRe y :: IRe x :: ts => Done (mkCtx (IRe (f x y) :: ts) (counter c)) | _ => IllAct end in
  let switch (m : mode) :=
    match stk c with ICap _ :: ts => Done (mkCtx (IRe (RMode m) :: ts) (pred (counter c))) | _ => IllAct end in
  match p with
  | None => apply props a p c
  | Some _ =>
  match a with
  | A_make_alternate => two (b_alt B)
  | A_make_sequence => two (b_seq B)
  | A_make_optional => one (fun x => Some (b_opt B x))
  | A_repeat_plus => one (fun x => Some (b_rep B 1 0 x))
  | A_repeat_star => one (fun x => Some (b_rep B 0 0 x))
  | A_repeat_ab => match stk c with INum b :: INum a :: IRe x :: ts => Done (mkCtx (IRe (b_rep B a b x) :: ts) (counter c)) | _ => IllAct end
  | A_repeat_exactly => match stk c with INum a :: IRe x :: ts => Done (mkCtx (IRe (b_rep B a a x) :: ts) (counter c)) | _ => IllAct end
  | A_repeat_at_least => match stk c with INum a :: IRe x :: ts => Done (mkCtx (IRe (b_rep B a 0 x) :: ts) (counter c)) | _ => IllAct end
  | A_make_lazy => one (b_lazy B)
  | A_make_possessive => one (b_poss B)
  | A_make_capture => match stk c with IRe x :: ICap i :: ts => Done (mkCtx (IRe (b_cap B i x) :: ts) (counter c)) | _ => IllAct end
  | A_make_capture_with_name =>
      match stk c with IRe x :: IId n :: ICap i :: ts => Done (mkCtx (IRe (b_ncap B i n x) :: ts) (counter c)) | _ => IllAct end
  | A_look_finish =>
      match stk c with
      | IRe x :: ILook false neg :: ts => Done (mkCtx (IRe (b_ahead B neg x) :: ts) (counter c))
      | IRe x :: ILook true neg :: ts =>
          match b_behind B neg x with Some y => Done (mkCtx (IRe y :: ts) (counter c)) | None => IllAct end
      | _ => IllAct
      end
  | A_make_atomic => match stk c with IRe x :: IAtomic :: ts => Done (mkCtx (IRe (b_atomic B x) :: ts) (counter c)) | _ => IllAct end
  | A_mode_case_insensitive => switch ModeCI
  | A_mode_case_sensitive => switch ModeCS
  | A_mode_multiline => switch ModeML
  | A_mode_singleline => switch ModeSL
  | _ => apply props a p c
  end
  end.
Fixpoint mrun (fuel : nat) (prev : option Z) (input : list Z) (stack : list sym) (c : ctx) : parsed :=
  match fuel with
  | O => PFuel
  | S n =>
      match stack with
      | [] => match input with [] => PAccept c | _ => PReject end
      | Act a :: st => match act a prev c with Done c' => mrun n prev input st c' | Reject => PReject | IllAct => PIll end
      | NT x :: st => match rule x (hd_error input) with Push l => mrun n prev input (l ++ st) c | Rej => PReject end
      | t :: st => match input with ch :: rest => if term_matches t ch then mrun n (Some ch) rest st c else PReject | [] => PReject end
      end
  end.

(** ** Runs *)
Definition go prev input st c prev' input' st' c' : Prop :=
  exists k, forall fuel, mrun (k + fuel) prev input st c = mrun fuel prev' input' st' c'.
Lemma go_refl : forall p i st c, go p i st c p i st c.
Proof. intros. exists 0%nat. reflexivity. Qed.
Lemma go_trans : forall p i st c p1 i1 st1 c1 p2 i2 st2 c2,
  go p i st c p1 i1 st1 c1 -> go p1 i1 st1 c1 p2 i2 st2 c2 -> go p i st c p2 i2 st2 c2.
Proof.
  intros p i st c p1 i1 st1 c1 p2 i2 st2 c2 [k H] [k' H']. exists (k + k')%nat. intros fuel.
  rewrite <- Nat.add_assoc, H. apply H'.
Qed.
Lemma go_nt : forall p i n st c l p' i' st' c', rule n (hd_error i) = Push l ->
  go p i (l ++ st) c p' i' st' c' -> go p i (NT n :: st) c p' i' st' c'.
Proof. intros p i n st c l p' i' st' c' H [k K]. exists (S k). intros fuel. cbn [Nat.add mrun]. rewrite H. apply K. Qed.
Lemma go_act : forall p i a st c c1 p' i' st' c', act a p c = Done c1 ->
  go p i st c1 p' i' st' c' -> go p i (Act a :: st) c p' i' st' c'.
Proof. intros p i a st c c1 p' i' st' c' H [k K]. exists (S k). intros fuel. cbn [Nat.add mrun]. rewrite H. apply K. Qed.
Lemma go_any : forall p ch i st c p' i' st' c',
  go (Some ch) i st c p' i' st' c' -> go p (ch :: i) (TAny :: st) c p' i' st' c'.
Proof. intros p ch i st c p' i' st' c' [k K]. exists (S k). intros fuel. cbn [Nat.add mrun term_matches]. apply K. Qed.
Lemma go_term : forall p ch i st c p' i' st' c',
  go (Some ch) i st c p' i' st' c' -> go p (ch :: i) (TTerm ch :: st) c p' i' st' c'.
Proof. intros p ch i st c p' i' st' c' [k K]. exists (S k). intros fuel. cbn [Nat.add mrun term_matches]. rewrite Z.eqb_refl. apply K. Qed.
Lemma go_set : forall p l ch i st c p' i' st' c', In ch l ->
  go (Some ch) i st c p' i' st' c' -> go p (ch :: i) (TSet l :: st) c p' i' st' c'.
Proof.
  intros p l ch i st c p' i' st' c' H [k K]. exists (S k). intros fuel. cbn [Nat.add mrun term_matches].
  apply mem_in in H. rewrite H. apply K.
Qed.

(** ** Characters and the sets of the table *)
Lemma sets_cover : forall (l bad : list Z) c, forallb (fun d => mem d l || mem d bad) not_others = true -> ~ In c bad ->
  In c l \/ ~ In c not_others.
Proof.
  intros l bad c H N. destruct (mem c not_others) eqn:E.
  - left. apply mem_in in E. rewrite forallb_forall in H. specialize (H c E). apply orb_true_iff in H as [H|H]; apply mem_in in H; [assumption|contradiction].
  - right. intros I. apply mem_in in I. congruence.
Qed.
Lemma span_in : forall lo n l c, forallb (fun d => mem d l) (map (fun i => lo + Z.of_nat i) (seq 0 n)) = true ->
  lo <= c < lo + Z.of_nat n -> In c l.
Proof.
  intros lo n l c H K. rewrite forallb_forall in H. apply mem_in. apply H. apply in_map_iff. exists (Z.to_nat (c - lo)).
  split; [lia|]. apply in_seq. lia.
Qed.
Lemma letter_in : forall l c, forallb (fun d => mem d l) (map (fun i => 65 + Z.of_nat i) (seq 0 26) ++ map (fun i => 97 + Z.of_nat i) (seq 0 26)) = true ->
  is_letter c -> In c l.
Proof.
  intros l c H K. rewrite forallb_app in H. apply andb_true_iff in H as [H1 H2]. destruct K as [K|K].
  - apply (span_in 65 26 l c H1). lia.
  - apply (span_in 97 26 l c H2). lia.
Qed.
Lemma start_in : forall c, name_start c -> In c set8.
Proof. intros c [H | ->]; [apply letter_in; [vm_compute; reflexivity|assumption]|apply mem_in; vm_compute; reflexivity]. Qed.
Lemma part_in : forall c, name_part c -> In c set7.
Proof.
  intros c [[H | ->]|H]; [apply letter_in; [vm_compute; reflexivity|assumption]|apply mem_in; vm_compute; reflexivity|].
  apply (span_in 48 10); [vm_compute; reflexivity|unfold is_digit in H; lia].
Qed.
Lemma property_in : forall c, property_part c -> In c set20.
Proof.
  intros c [[[H | ->]|H] | ->]; [apply letter_in; [vm_compute; reflexivity|assumption]|apply mem_in; vm_compute; reflexivity|..].
  - apply (span_in 48 10); [vm_compute; reflexivity|unfold is_digit in H; lia].
  - apply mem_in. vm_compute. reflexivity.
Qed.

Ltac entry m := apply rule_spec; exists m; split; [cbn [rules]; repeat first [left; reflexivity | right] | ].
Ltac step := first [apply go_any | apply go_term | eapply go_act; [reflexivity|]].
Ltac nt_now := eapply go_nt; [vm_compute; reflexivity|]; cbn [app].
Ltac nt_by m := eapply go_nt; [entry m|cbn [app]].
Ltac flat := rewrite <- ?app_assoc; cbn [app].

(** ** Names and numbers *)
Lemma go_names : forall t p rest st n ts k q, Forall name_part t -> In q set6 -> p <> None ->
  exists p', p' <> None /\ go p (t ++ q :: rest) (NT N_block_name2 :: st) (mkCtx (IId n :: ts) k)
    p' (q :: rest) st (mkCtx (IId (n ++ t) :: ts) k).
Proof.
  induction t as [|c t IH]; intros p rest st n ts k q H Hq Hp.
  - exists p. split; [assumption|]. rewrite app_nil_r. nt_by (MSet set6); [exact Hq|]. apply go_refl.
  - inversion H; subst. destruct (IH (Some c) rest st (n ++ [c]) ts k q ltac:(assumption) Hq ltac:(discriminate)) as (p' & Hp' & K).
    exists p'. split; [assumption|]. cbn [app]. nt_by (MSet set7); [apply part_in; assumption|]. do 2 step.
    rewrite <- app_assoc in K. exact K.
Qed.
Definition named (ts : list item) : bool := match ts with IId _ :: _ => true | _ => false end.
Lemma push_name_fresh : forall c ts k, named ts = false ->
  act A_push_name (Some c) (mkCtx ts k) = Done (mkCtx (IId [c] :: ts) k).
Proof. intros c ts k H. cbn. destruct ts as [|[]]; try reflexivity. discriminate. Qed.
Lemma go_hexes : forall l p rest st n ts k, Forall is_hex l ->
  go p (l ++ 125 :: rest) (NT N_hexdec_repeat :: TTerm 125 :: st) (mkCtx (INum n :: ts) k)
     (Some 125) rest st (mkCtx (INum (hex_run n l) :: ts) k).
Proof.
  induction l as [|d l IH]; intros p rest st n ts k H.
  - cbn [app hex_run fold_left]. nt_by (MTerm 125); [reflexivity|]. step. apply go_refl.
  - inversion H; subst. cbn [app hex_run fold_left]. nt_by (MSet set12); [apply hex_in; assumption|].
    step. eapply go_act; [apply (push_hex props (Some d)); [eassumption|reflexivity]|]. apply IH. assumption.
Qed.
Lemma go_digits : forall l p stop rest st n ts k, Forall is_digit l -> stop = 44 \/ stop = 125 -> p <> None ->
  exists p', p' <> None /\
  go p (l ++ stop :: rest) (NT N_number2 :: st) (mkCtx (INum n :: ts) k)
     p' (stop :: rest) st (mkCtx (INum (dec_run n l) :: ts) k).
Proof.
  induction l as [|d l IH]; intros p stop rest st n ts k H Hs Hp.
  - exists p. split; [assumption|]. cbn [app dec_run fold_left]. nt_by (MSet set18); [|apply go_refl].
    destruct Hs as [-> | ->]; cbn; auto.
  - inversion H; subst. destruct (IH (Some d) stop rest st (wrap (n * 10 + Z.to_N (d - 48))) ts k ltac:(assumption) Hs ltac:(discriminate)) as (p' & Hp' & K).
    exists p'. split; [assumption|]. cbn [app dec_run fold_left]. nt_by (MSet set15); [apply digit_in; assumption|]. do 2 step. exact K.
Qed.
Lemma value_run : forall d l, is_digit d -> value (d :: l) = dec_run (Z.to_N (d - 48)) l.
Proof.
  intros d l H. unfold value. pose proof (dec_run_spec (d :: l) 0) as R. cbn [dec_run fold_left] in R. rewrite N.mul_0_l, N.add_0_l in R.
  change (wrap 0) with 0%N in R. rewrite N.mul_0_l, N.add_0_l in R.
  rewrite wrap_small in R; [symmetry; exact R|]. unfold is_digit, size_mod in *. lia.
Qed.
Lemma go_number : forall l p stop rest st ts k, is_number l -> stop = 44 \/ stop = 125 ->
  exists p', p' <> None /\
  go p (l ++ stop :: rest) (NT N_number :: st) (mkCtx ts k)
     p' (stop :: rest) st (mkCtx (INum (value l) :: ts) k).
Proof.
  intros [|d l] p stop rest st ts k [Hn H] Hs; [congruence|]. inversion H; subst.
  destruct (go_digits l (Some d) stop rest st (Z.to_N (d - 48)) ts k ltac:(assumption) Hs ltac:(discriminate)) as (p' & Hp' & K).
  exists p'. split; [assumption|]. cbn [app]. nt_by (MSet set15); [apply digit_in; assumption|]. do 2 step.
  rewrite value_run by assumption. exact K.
Qed.

(** ** Escapes of one character *)
(** The four places where such an escape may stand; [l] is what is left to do behind it. *)
Definition escapes (x : nt) (l : list sym) : Prop :=
  ((x = N_backslash \/ x = N_backslash_range) /\ l = []) \/ ((x = N_e \/ x = N_f) /\ l = [NT N_range]).
Lemma go_escape : forall u c x l p rest st ts k, escapes x l -> char_escape u c ->
  exists p', p' <> None /\ go p (u ++ rest) (NT x :: st) (mkCtx ts k) p' rest (l ++ st) (mkCtx (IRe (RCls (CChar c)) :: ts) k).
Proof.
  intros u c x l p rest st ts k Hx H.
  assert (X : (rule x (Some 120) = Push (TAny :: NT N_l :: l)) /\ (rule x (Some 117) = Push (TAny :: NT N_k :: l)) /\
    (forall e, In e set4 -> rule x (Some e) = Push (TAny :: Act A_push_character :: l)) /\
    (forall e d, In (e, d) controls -> exists a, rule x (Some e) = Push (TAny :: Act a :: l) /\
       forall v c0, act a (Some v) c0 = Done (mkCtx (IRe (RCls (CChar d)) :: stk c0) (counter c0)))).
  { destruct Hx as [[[-> | ->] ->]|[[-> | ->] ->]];
      (split; [vm_compute; reflexivity|]); (split; [vm_compute; reflexivity|]);
      (split; [intros e He; entry (MSet set4); exact He|]);
      intros e d Hc; cbn [controls In] in Hc; repeat (destruct Hc as [Hc|Hc]; [injection Hc as <- <-|]); try contradiction;
      eexists; (split; [vm_compute; reflexivity|]); intros; reflexivity. }
  destruct X as (Xl & Xk & Xs & Xc).
  assert (F : forall n, (n < 2 ^ 32)%N -> forall q ts k, act A_finish_hexdec (Some q) (mkCtx (INum n :: ts) k) = Done (mkCtx (IRe (RCls (CChar (Z.of_N n))) :: ts) k)).
  { intros n Hn q ts0 k0. apply (finish_hex props q k0 n ts0 Hn). }
  destruct H as [c Hc|e c Hc|a b Ha Hb|a b c d Ha Hb Hc Hd|y ds Hy Hn Hd Hb].
  - exists (Some c). split; [discriminate|]. cbn [app]. eapply go_nt; [apply Xs; exact Hc|]. cbn [app]. do 2 step. apply go_refl.
  - exists (Some e). split; [discriminate|]. cbn [app]. destruct (Xc e c Hc) as (a & R & A). eapply go_nt; [exact R|]. cbn [app]. step.
    eapply go_act; [apply A|]. apply go_refl.
  - exists (Some b). split; [discriminate|]. cbn [app]. eapply go_nt; [exact Xl|]. cbn [app]. step.
    nt_by (MSet set12); [apply hex_in; assumption|]. do 2 step. eapply go_act; [apply (push_hex props (Some a)); [exact Ha|reflexivity]|].
    apply go_set; [apply hex_in; assumption|]. eapply go_act; [apply (push_hex props (Some b)); [exact Hb|reflexivity]|].
    pose proof (hex_small props [a; b] ltac:(cbn; lia) ltac:(auto)) as Bd.
    assert (R : hex_run (wrap 0) [a; b] = hexadecimal [a; b]) by (eapply hex_run_0; [exact Bd|discriminate]).
    change (wrap (wrap (0 * 16 + hex_digit a) * 16 + hex_digit b)) with (hex_run (wrap 0) [a; b]). rewrite R.
    eapply go_act; [apply F|apply go_refl]. eapply N.lt_le_trans; [exact Bd|discriminate].
  - exists (Some d). split; [discriminate|]. cbn [app]. eapply go_nt; [exact Xk|]. cbn [app]. step.
    nt_by (MSet set12); [apply hex_in; assumption|]. do 2 step. eapply go_act; [apply (push_hex props (Some a)); [exact Ha|reflexivity]|].
    apply go_set; [apply hex_in; assumption|]. eapply go_act; [apply (push_hex props (Some b)); [exact Hb|reflexivity]|].
    apply go_set; [apply hex_in; assumption|]. eapply go_act; [apply (push_hex props (Some c)); [exact Hc|reflexivity]|].
    apply go_set; [apply hex_in; assumption|]. eapply go_act; [apply (push_hex props (Some d)); [exact Hd|reflexivity]|].
    pose proof (hex_small props [a; b; c; d] ltac:(cbn; lia) ltac:(auto)) as Bd.
    assert (R : hex_run (wrap 0) [a; b; c; d] = hexadecimal [a; b; c; d]) by (eapply hex_run_0; [exact Bd|discriminate]).
    change (wrap (wrap (wrap (wrap (0 * 16 + hex_digit a) * 16 + hex_digit b) * 16 + hex_digit c) * 16 + hex_digit d))
      with (hex_run (wrap 0) [a; b; c; d]). rewrite R.
    eapply go_act; [apply F|apply go_refl]. eapply N.lt_le_trans; [exact Bd|discriminate].
  - exists (Some 125). split; [discriminate|]. cbn [app]. rewrite <- app_assoc. cbn [app].
    destruct ds as [|d ds]; [congruence|]. inversion Hd as [|? ? Hd1 Hd2]; subst. cbn [app].
    assert (K : go (Some y) ((123 :: d :: ds ++ 125 :: rest)) ([Act A_create_hexdec; TAny; TSet set12; Act A_push_hexdec; NT N_hexdec_repeat; TTerm 125; Act A_finish_hexdec] ++ l ++ st)
      (mkCtx ts k) (Some 125) rest (l ++ st) (mkCtx (IRe (RCls (CChar (Z.of_N (wrap (hexadecimal (d :: ds)))))) :: ts) k)).
    { cbn [app]. do 2 step. apply go_set; [apply hex_in; assumption|].
      eapply go_act; [apply (push_hex props (Some d)); [exact Hd1|reflexivity]|].
      eapply go_trans; [apply go_hexes; assumption|].
      change (hex_run (wrap (0 * 16 + hex_digit d)) ds) with (hex_run (wrap 0) (d :: ds)). rewrite hex_run_spec.
      eapply go_act; [apply F; exact Hb|apply go_refl]. }
    destruct Hy as [-> | ->].
    + eapply go_nt; [exact Xl|]. cbn [app]. step. nt_now. exact K.
    + eapply go_nt; [exact Xk|]. cbn [app]. step. nt_now. exact K.
Qed.

Ltac lit := repeat match goal with |- context [codes ?s] => let v := eval vm_compute in (codes s) in change (codes s) with v end; cbn [app]; repeat (rewrite <- app_assoc; cbn [app]).
Ltac lit_in H := repeat match type of H with context [codes ?s] => let v := eval vm_compute in (codes s) in change (codes s) with v in H end; cbn [app] in H.

(** ** Classes and properties *)
Definition class_places : list nt := [N_backslash; N_e; N_f].
Lemma go_class : forall e x y p rest st ts k, In y class_places -> In (e, x) class_letters ->
  go p (e :: rest) (NT y :: st) (mkCtx ts k) (Some e) rest st (mkCtx (IRe (RCls x) :: ts) k).
Proof.
  intros e x y p rest st ts k Hy H. cbn [class_places class_letters In] in *.
  repeat (destruct H as [H|H]; [injection H as <- <-; destruct Hy as [<- | [<- | [<- | []]]]; nt_now; do 2 step; apply go_refl|]). destruct H.
Qed.
Lemma go_property_names : forall t p rest st n ts k q, Forall property_part t -> p <> None -> q = 125 \/ q = 61 ->
  exists p', p' <> None /\ go p (t ++ q :: rest) (NT N_property_name2 :: st) (mkCtx (IPName n :: ts) k)
    p' (q :: rest) (NT N_property_name2 :: st) (mkCtx (IPName (n ++ t) :: ts) k).
Proof.
  induction t as [|c t IH]; intros p rest st n ts k q H Hp Hq.
  - exists p. split; [assumption|]. rewrite app_nil_r. apply go_refl.
  - inversion H; subst. destruct (IH (Some c) rest st (n ++ [c]) ts k q ltac:(assumption) ltac:(discriminate) Hq) as (p' & Hp' & K).
    exists p'. split; [assumption|]. cbn [app]. nt_by (MSet set20); [apply property_in; assumption|]. do 2 step.
    rewrite <- app_assoc in K. exact K.
Qed.
Lemma go_property_values : forall t p rest st n ts k, Forall property_part t -> p <> None ->
  exists p', p' <> None /\ go p (t ++ 125 :: rest) (NT N_property_value2 :: st) (mkCtx (IPValue n :: ts) k)
    p' (125 :: rest) st (mkCtx (IPValue (n ++ t) :: ts) k).
Proof.
  induction t as [|c t IH]; intros p rest st n ts k H Hp.
  - exists p. split; [assumption|]. rewrite app_nil_r. cbn [app]. nt_now. apply go_refl.
  - inversion H; subst. destruct (IH (Some c) rest st (n ++ [c]) ts k ltac:(assumption) ltac:(discriminate)) as (p' & Hp' & K).
    exists p'. split; [assumption|]. cbn [app]. nt_by (MSet set20); [apply property_in; assumption|]. do 2 step.
    rewrite <- app_assoc in K. exact K.
Qed.
(** No name of a property is left on the stack. *)
Definition quiet (ts : list item) : Prop := match ts with IPName _ :: _ => False | IPValue _ :: _ => False | _ => True end.
Lemma go_property_head : forall n p rest st ts k q, is_property n -> quiet ts -> q = 125 \/ q = 61 ->
  exists p', p' <> None /\ go p (n ++ q :: rest) (NT N_property_name :: st) (mkCtx ts k)
    p' (q :: rest) (NT N_property_name2 :: st) (mkCtx (IPName n :: ts) k).
Proof.
  intros [|c t] p rest st ts k q [Hn H] Q Hq; [congruence|]. inversion H; subst.
  destruct (go_property_names t (Some c) rest st [c] ts k q ltac:(assumption) ltac:(discriminate) Hq) as (p' & Hp' & K).
  exists p'. split; [assumption|]. cbn [app]. nt_by (MSet set20); [apply property_in; assumption|]. step.
  eapply go_act; [|exact K]. cbn. destruct ts as [|[]]; try reflexivity; contradiction.
Qed.
Lemma go_property_tail : forall n v p rest st ts k, is_property v -> p <> None ->
  exists p', p' <> None /\ go p (61 :: v ++ 125 :: rest) (NT N_property_name2 :: st) (mkCtx (IPName n :: ts) k)
    p' (125 :: rest) st (mkCtx (IPValue v :: IPName n :: ts) k).
Proof.
  intros n [|c t] p rest st ts k [Hn H] Hp; [congruence|]. inversion H; subst.
  destruct (go_property_values t (Some c) rest st [c] (IPName n :: ts) k ltac:(assumption) ltac:(discriminate)) as (p' & Hp' & K).
  exists p'. split; [assumption|]. cbn [app]. nt_now. step. nt_by (MSet set20); [apply property_in; assumption|]. step.
  eapply go_act; [reflexivity|exact K].
Qed.
Lemma go_property : forall u x y p rest st ts k, In y class_places -> property_escape props u x -> quiet ts ->
  exists p', p' <> None /\ go p (u ++ rest) (NT y :: st) (mkCtx ts k) p' rest st (mkCtx (IRe (RCls x) :: ts) k).
Proof.
  intros u x y p rest st ts k Hy H Q.
  assert (R : rule y (Some 112) = Push [TAny; TTerm 123; NT N_property_name; TTerm 125; Act A_make_property] /\
              rule y (Some 80) = Push [TAny; TTerm 123; NT N_property_name; TTerm 125; Act A_make_property_negative]).
  { cbn [class_places In] in Hy. destruct Hy as [<- | [<- | [<- | []]]]; split; vm_compute; reflexivity. }
  destruct R as [R1 R2].
  destruct H as [n t Hn Ht|n v t Hn Hv Ht|n t Hn Ht|n v t Hn Hv Ht]; lit; flat.
  - destruct (go_property_head n (Some 123) rest (TTerm 125 :: Act A_make_property :: st) ts k 125 Hn Q (or_introl eq_refl)) as (p1 & Hp1 & K1).
    exists (Some 125). split; [discriminate|]. eapply go_nt; [exact R1|]. cbn [app]. do 2 step. eapply go_trans; [exact K1|].
    nt_now. step. eapply go_act; [cbn; rewrite Ht; reflexivity|]. apply go_refl.
  - destruct (go_property_head n (Some 123) (v ++ 125 :: rest) (TTerm 125 :: Act A_make_property :: st) ts k 61 Hn Q (or_intror eq_refl)) as (p1 & Hp1 & K1).
    destruct (go_property_tail n v p1 rest (TTerm 125 :: Act A_make_property :: st) ts k Hv Hp1) as (p2 & Hp2 & K2).
    exists (Some 125). split; [discriminate|]. eapply go_nt; [exact R1|]. cbn [app]. do 2 step. eapply go_trans; [exact K1|].
    eapply go_trans; [exact K2|]. step. eapply go_act; [cbn; rewrite Ht; reflexivity|]. apply go_refl.
  - destruct (go_property_head n (Some 123) rest (TTerm 125 :: Act A_make_property_negative :: st) ts k 125 Hn Q (or_introl eq_refl)) as (p1 & Hp1 & K1).
    exists (Some 125). split; [discriminate|]. eapply go_nt; [exact R2|]. cbn [app]. do 2 step. eapply go_trans; [exact K1|].
    nt_now. step. eapply go_act; [cbn; rewrite Ht; reflexivity|]. apply go_refl.
  - destruct (go_property_head n (Some 123) (v ++ 125 :: rest) (TTerm 125 :: Act A_make_property_negative :: st) ts k 61 Hn Q (or_intror eq_refl)) as (p1 & Hp1 & K1).
    destruct (go_property_tail n v p1 rest (TTerm 125 :: Act A_make_property_negative :: st) ts k Hv Hp1) as (p2 & Hp2 & K2).
    exists (Some 125). split; [discriminate|]. eapply go_nt; [exact R2|]. cbn [app]. do 2 step. eapply go_trans; [exact K1|].
    eapply go_trans; [exact K2|]. step. eapply go_act; [cbn; rewrite Ht; reflexivity|]. apply go_refl.
Qed.

(** ** Sets *)
(** Places where an item of a set may begin, and what is left to do behind it. *)
Definition set_places : list (nt * list sym) :=
  [(N_c, [Act A_set_start; NT N_set2b; Act A_set_make; TTerm 93]); (N_set2a, [Act A_set_start; NT N_set2b]);
   (N_set2b, [Act A_set_combine; NT N_set2b])].
Definition no_dash (rest : list Z) : Prop := hd_error rest <> Some 45.
Lemma plain_in_set : forall x l c, In (x, l) set_places -> ~ In c set_metas -> (x = N_c -> c <> 94) ->
  rule x (Some c) = Push (TAny :: Act A_push_character :: NT N_range :: l).
Proof.
  intros x l c Hx Hc H94. cbn [set_places In] in Hx. destruct Hx as [E|[E|[E|[]]]]; injection E as <- <-.
  - destruct (sets_cover set9 (94 :: set_metas) c ltac:(vm_compute; reflexivity)) as [H|H].
    + intros [I|I]; [|contradiction]. apply (H94 eq_refl). congruence.
    + entry (MSet set9). exact H.
    + entry MOthers. exact H.
  - destruct (sets_cover set13 set_metas c ltac:(vm_compute; reflexivity) Hc) as [H|H]; [entry (MSet set13); exact H|entry MOthers; exact H].
  - destruct (sets_cover set13 set_metas c ltac:(vm_compute; reflexivity) Hc) as [H|H]; [entry (MSet set13); exact H|entry MOthers; exact H].
Qed.
Lemma no_range : forall rest, no_dash rest -> rule N_range (hd_error rest) = Push [].
Proof.
  intros [|c rest] H; [vm_compute; reflexivity|]. cbn [hd_error].
  destruct (sets_cover set21 [45] c ltac:(vm_compute; reflexivity)) as [K|K].
  - intros [I|[]]. apply H. cbn. congruence.
  - entry (MSet set21). exact K.
  - entry MOthers. exact K.
Qed.
Lemma go_set_char : forall u c x l p rest st ts k, In (x, l) set_places -> set_char u c -> (x = N_c -> hd_error u <> Some 94) ->
  exists p', p' <> None /\ go p (u ++ rest) (NT x :: st) (mkCtx ts k) p' rest (NT N_range :: l ++ st) (mkCtx (IRe (RCls (CChar c)) :: ts) k).
Proof.
  intros u c x l p rest st ts k Hx H H94. destruct H as [c Hc|u c Hc].
  - exists (Some c). split; [discriminate|]. cbn [app]. eapply go_nt; [apply (plain_in_set x l c Hx Hc)|].
    + intros E ->. apply (H94 E). reflexivity.
    + cbn [app]. do 2 step. apply go_refl.
  - cbn [app]. assert (R : exists y, escapes y [NT N_range] /\ rule x (Some 92) = Push (TAny :: NT y :: l)).
    { cbn [set_places In] in Hx. destruct Hx as [E|[E|[E|[]]]]; injection E as <- <-.
      - exists N_e. split; [right; auto|vm_compute; reflexivity].
      - exists N_f. split; [right; auto|vm_compute; reflexivity].
      - exists N_f. split; [right; auto|vm_compute; reflexivity]. }
    destruct R as (y & Hy & R).
    destruct (go_escape u c y _ (Some 92) rest (l ++ st) ts k Hy Hc) as (p' & Hp' & K). exists p'. split; [assumption|].
    eapply go_nt; [exact R|]. cbn [app]. step. exact K.
Qed.
Lemma go_second : forall u c p rest st ts k, set_char u c ->
  exists p', p' <> None /\ go p (u ++ rest) (NT N_j :: st) (mkCtx ts k) p' rest (Act A_make_range :: st) (mkCtx (IRe (RCls (CChar c)) :: ts) k).
Proof.
  intros u c p rest st ts k H. destruct H as [c Hc|u c Hc].
  - exists (Some c). split; [discriminate|]. cbn [app].
    eapply go_nt with (l := [TAny; Act A_push_character; Act A_make_range]); [|cbn [app]; do 2 step; apply go_refl].
    destruct (sets_cover set13 set_metas c ltac:(vm_compute; reflexivity) Hc) as [H|H]; [entry (MSet set13); exact H|entry MOthers; exact H].
  - destruct (go_escape u c N_backslash_range [] (Some 92) rest (Act A_make_range :: st) ts k ltac:(left; auto) Hc) as (p' & Hp' & K).
    exists p'. split; [assumption|]. cbn [app]. nt_now. step. exact K.
Qed.
Lemma go_named : forall n x p rest st ts k, In (n, x) class_names ->
  go p (n ++ 58 :: 93 :: rest) (NT N_i :: st) (mkCtx ts k) (Some 93) rest st (mkCtx (IRe (RCls x) :: ts) k) /\
  go p (94 :: n ++ 58 :: 93 :: rest) (NT N_i :: st) (mkCtx ts k) (Some 93) rest st (mkCtx (IRe (RCls (CNegate [x])) :: ts) k).
Proof.
  intros n x p rest st ts k H. cbn [class_names In] in H.
  repeat (destruct H as [H|H]; [injection H as <- <-; lit; split; repeat first [nt_now|step]; apply go_refl|]). destruct H.
Qed.
Lemma go_item : forall u y x l p rest st ts k, In (x, l) set_places -> set_item props u y -> (x = N_c -> hd_error u <> Some 94) ->
  no_dash rest -> quiet ts ->
  exists p', p' <> None /\ go p (u ++ rest) (NT x :: st) (mkCtx ts k) p' rest (l ++ st) (mkCtx (IRe (RCls y) :: ts) k).
Proof.
  intros u y x l p rest st ts k Hx H H94 D Q.
  assert (E92 : exists z, In z class_places /\ rule x (Some 92) = Push (TAny :: NT z :: l)).
  { cbn [set_places In] in Hx. destruct Hx as [E|[E|[E|[]]]]; injection E as <- <-.
    - exists N_e. split; [cbn; auto|vm_compute; reflexivity].
    - exists N_f. split; [cbn; auto|vm_compute; reflexivity].
    - exists N_f. split; [cbn; auto|vm_compute; reflexivity]. }
  assert (E91 : rule x (Some 91) = Push (TAny :: TTerm 58 :: NT N_i :: NT N_range :: l)).
  { cbn [set_places In] in Hx. destruct Hx as [E|[E|[E|[]]]]; injection E as <- <-; vm_compute; reflexivity. }
  destruct E92 as (z & Hz & E92).
  destruct H as [u c H|u a v b Ha Hb|e y H|u y H|n y H|n y H].
  - destruct (go_set_char u c x l p rest st ts k Hx H H94) as (p1 & Hp1 & K1). exists p1. split; [assumption|].
    eapply go_trans; [exact K1|]. eapply go_nt; [apply no_range; exact D|]. apply go_refl.
  - assert (HD : x = N_c -> hd_error u <> Some 94).
    { intros E I. apply (H94 E). destruct Ha; cbn in *; congruence. }
    rewrite <- app_assoc. cbn [app].
    destruct (go_set_char u a x l p (45 :: v ++ rest) st ts k Hx Ha HD) as (p1 & Hp1 & K1).
    destruct (go_second v b (Some 45) rest (l ++ st) (IRe (RCls (CChar a)) :: ts) k Hb) as (p2 & Hp2 & K2).
    exists p2. split; [assumption|]. eapply go_trans; [exact K1|]. nt_now. step. eapply go_trans; [exact K2|].
    destruct p2; [|congruence]. step. apply go_refl.
  - exists (Some e). split; [discriminate|]. cbn [app]. eapply go_nt; [exact E92|]. cbn [app]. step. apply go_class; assumption.
  - destruct (go_property u y z (Some 92) rest (l ++ st) ts k Hz H Q) as (p1 & Hp1 & K1). exists p1. split; [assumption|].
    cbn [app]. eapply go_nt; [exact E92|]. cbn [app]. step. exact K1.
  - destruct (go_named n y (Some 58) rest (NT N_range :: l ++ st) ts k H) as [K _]. exists (Some 93). split; [discriminate|].
    lit; flat. eapply go_nt; [exact E91|]. cbn [app]. do 2 step. eapply go_trans; [exact K|].
    eapply go_nt; [apply no_range; exact D|]. apply go_refl.
  - destruct (go_named n y (Some 58) rest (NT N_range :: l ++ st) ts k H) as [_ K]. exists (Some 93). split; [discriminate|].
    lit; flat. eapply go_nt; [exact E91|]. cbn [app]. do 2 step. eapply go_trans; [exact K|].
    eapply go_nt; [apply no_range; exact D|]. apply go_refl.
Qed.
Lemma item_head : forall u y rest, set_item props u y -> no_dash (u ++ rest) /\ u <> [].
Proof.
  assert (P : forall u c rest, set_char u c -> no_dash (u ++ rest) /\ u <> []).
  { intros u c rest H. unfold no_dash. destruct H as [c Hc|u c Hc]; (split; [|discriminate]); cbn; [|discriminate].
    intros E. injection E as ->. apply Hc. cbn. auto. }
  intros u y rest H. destruct H as [u c H|u a v b Ha Hb|e y H|u y H|n y H|n y H]; try (split; [unfold no_dash; lit; cbn; discriminate|lit; discriminate]).
  - eapply P. eassumption.
  - rewrite <- app_assoc. destruct (P u a (45 :: v ++ rest) Ha) as [P1 P2]. split; [exact P1|]. destruct u; [congruence|discriminate].
Qed.
Definition add_item (acc : list cls) (x : cls) : list cls := if existsb (cls_eqb x) acc then acc else acc ++ [x].
Lemma go_items : forall v l, set_items props v l -> forall p rest st ts k acc, p <> None -> 
  exists p', p' <> None /\ go p (v ++ 93 :: rest) (NT N_set2b :: st) (mkCtx (IRe (RCls (CSet acc)) :: ts) k)
    p' (93 :: rest) st (mkCtx (IRe (RCls (CSet (fold_left add_item l acc))) :: ts) k).
Proof.
  intros v l H. induction H as [|u x v l H1 H2 IH]; intros p rest st ts k acc Hp.
  - exists p. split; [assumption|]. cbn [app fold_left]. nt_now. apply go_refl.
  - rewrite <- app_assoc. assert (D : no_dash (v ++ 93 :: rest)).
    { destruct H2 as [|u' x' v' l' H3 H4]; [discriminate|]. rewrite <- app_assoc. eapply item_head. eassumption. }
    destruct (go_item u x N_set2b _ p (v ++ 93 :: rest) st (IRe (RCls (CSet acc)) :: ts) k ltac:(cbn; eauto) H1 ltac:(discriminate) D I) as (p1 & Hp1 & K1).
    destruct (IH p1 rest st ts k (add_item acc x) Hp1) as (p2 & Hp2 & K2).
    exists p2. split; [assumption|]. eapply go_trans; [exact K1|]. cbn [app]. destruct p1; [|congruence]. step. exact K2.
Qed.
Lemma fold_start : forall x l, collect (x :: l) = fold_left add_item l [x].
Proof. reflexivity. Qed.
Lemma go_brackets : forall u l p rest st ts k, set_items props u l -> l <> [] -> hd_error u <> Some 94 -> quiet ts ->
  go p (u ++ 93 :: rest) (NT N_c :: st) (mkCtx ts k) (Some 93) rest st (mkCtx (IRe (RCls (CSet (collect l))) :: ts) k).
Proof.
  intros u l p rest st ts k H Hl H94 Q. destruct H as [|u x v l H1 H2]; [congruence|]. rewrite <- app_assoc.
  assert (D : no_dash (v ++ 93 :: rest)).
  { destruct H2 as [|u' x' v' l' H3 H4]; [discriminate|]. rewrite <- app_assoc. eapply item_head. eassumption. }
  assert (HD : hd_error u <> Some 94) by (destruct (item_head u x [] H1) as [_ E]; destruct u; [congruence|exact H94]).
  destruct (go_item u x N_c _ p (v ++ 93 :: rest) st ts k ltac:(cbn; eauto) H1 ltac:(intros; exact HD) D Q) as (p1 & Hp1 & K1).
  destruct (go_items v l H2 p1 rest (Act A_set_make :: TTerm 93 :: st) ts k [x] Hp1) as (p2 & Hp2 & K2).
  eapply go_trans; [exact K1|]. cbn [app]. destruct p1; [|congruence]. step. eapply go_trans; [exact K2|].
  destruct p2; [|congruence]. do 2 step. rewrite fold_start. apply go_refl.
Qed.
Lemma go_not_brackets : forall u l p rest st ts k, set_items props u l -> quiet ts ->
  go p (94 :: u ++ 93 :: rest) (NT N_c :: st) (mkCtx ts k) (Some 93) rest st (mkCtx (IRe (RCls (CNeg (collect l))) :: ts) k).
Proof.
  intros u l p rest st ts k H Q. destruct H as [|u x v l H1 H2].
  - cbn [app]. nt_now. step. nt_now. do 3 step. apply go_refl.
  - rewrite <- app_assoc. assert (D : no_dash (v ++ 93 :: rest)).
    { destruct H2 as [|u' x' v' l' H3 H4]; [discriminate|]. rewrite <- app_assoc. eapply item_head. eassumption. }
    destruct (go_item u x N_set2a _ (Some 94) (v ++ 93 :: rest) (Act A_set_make_negative :: TTerm 93 :: st) ts k ltac:(cbn; eauto) H1 ltac:(discriminate) D Q) as (p1 & Hp1 & K1).
    destruct (go_items v l H2 p1 rest (Act A_set_make_negative :: TTerm 93 :: st) ts k [x] Hp1) as (p2 & Hp2 & K2).
    nt_now. step. eapply go_trans; [exact K1|]. cbn [app]. destruct p1; [|congruence]. step. eapply go_trans; [exact K2|].
    destruct p2; [|congruence]. do 2 step. rewrite fold_start. apply go_refl.
Qed.

(** ** Atoms without parentheses *)
(** Places where an atom may begin; behind it, [N_repeat], [N_string2] and the symbols given here are left. *)
Definition leads : list (nt * list sym) :=
  [(N_s, [NT N_content2]); (N_a, [NT N_content2; Act A_make_alternate]);
   (N_block, [NT N_content2; Act A_make_capture; TTerm 41]); (N_content_in_capture, [NT N_content2]);
   (N_content_or_empty, [NT N_content2]); (N_opt_content, [NT N_content2]); (N_string2, [Act A_make_sequence])].
Definition behind_atom (t : list sym) : list sym := NT N_repeat :: NT N_string2 :: t.
Lemma lead_rules : forall x t, In (x, t) leads ->
  rule x (Some 92) = Push (TAny :: NT N_backslash :: behind_atom t) /\ rule x (Some 91) = Push (TAny :: NT N_c :: behind_atom t) /\
  rule x (Some 40) = Push (TAny :: Act A_prepare_capture :: NT N_block :: behind_atom t) /\
  rule x (Some 94) = Push (TAny :: Act A_push_assert_begin :: behind_atom t) /\
  rule x (Some 36) = Push (TAny :: Act A_push_assert_end :: behind_atom t) /\
  rule x (Some 46) = Push (TAny :: Act A_push_character_anything :: behind_atom t).
Proof.
  intros x t H. cbn [leads In] in H. repeat (destruct H as [H|H]; [injection H as <- <-; repeat split; vm_compute; reflexivity|]). destruct H.
Qed.
Lemma plain_rule : forall x t c, In (x, t) leads -> ~ In c metas ->
  rule x (Some c) = Push (TAny :: Act A_push_character :: behind_atom t).
Proof.
  intros x t c H Hc. destruct (sets_cover set0 metas c ltac:(vm_compute; reflexivity) Hc) as [K|K];
    cbn [leads In] in H; repeat (destruct H as [H|H]; [injection H as <- <-; first [entry (MSet set0); exact K|entry MOthers; exact K]|]); destruct H.
Qed.
Lemma reference_ok : forall n k ts q, (n <= N.of_nat k)%N ->
  act A_make_back_reference (Some q) (mkCtx (INum n :: ts) k) = Done (mkCtx (IRe (RBack (N.to_nat n)) :: ts) k).
Proof. intros n k ts q H. cbn. destruct (N.ltb_spec (N.of_nat k) n); [lia|reflexivity]. Qed.
Lemma go_leaf : forall u r k x t p rest st ts, In (x, t) leads -> leaf_text props k u r -> quiet ts ->
  exists p', p' <> None /\ go p (u ++ rest) (NT x :: st) (mkCtx ts k) p' rest (behind_atom t ++ st) (mkCtx (IRe r :: ts) k).
Proof.
  intros u r k x t p rest st ts Hx H Q. pose proof (lead_rules x t Hx) as (R92 & R91 & _ & R94 & R36 & R46).
  destruct H as [c Hc| | | |u c H|e y H|u y H|e r H|d Hd Hk|l Hl Hk|l Hl Hk|u l H Hn H94|u l H]; lit; flat.
  - exists (Some c). split; [discriminate|]. eapply go_nt; [apply (plain_rule _ _ _ Hx Hc)|]. cbn [app]. do 2 step. apply go_refl.
  - exists (Some 46). split; [discriminate|]. eapply go_nt; [exact R46|]. cbn [app]. do 2 step. apply go_refl.
  - exists (Some 94). split; [discriminate|]. eapply go_nt; [exact R94|]. cbn [app]. do 2 step. apply go_refl.
  - exists (Some 36). split; [discriminate|]. eapply go_nt; [exact R36|]. cbn [app]. do 2 step. apply go_refl.
  - destruct (go_escape u c N_backslash [] (Some 92) rest (behind_atom t ++ st) ts k ltac:(left; auto) H) as (p1 & Hp1 & K1).
    exists p1. split; [assumption|]. eapply go_nt; [exact R92|]. cbn [app]. step. exact K1.
  - exists (Some e). split; [discriminate|]. eapply go_nt; [exact R92|]. cbn [app]. step. apply go_class; [cbn; auto|assumption].
  - destruct (go_property u y N_backslash (Some 92) rest (behind_atom t ++ st) ts k ltac:(cbn; auto) H Q) as (p1 & Hp1 & K1).
    exists p1. split; [assumption|]. eapply go_nt; [exact R92|]. cbn [app]. step. exact K1.
  - exists (Some e). split; [discriminate|]. eapply go_nt; [exact R92|]. cbn [app]. step. cbn [position_letters In] in H.
    repeat (destruct H as [H|H]; [injection H as <- <-; nt_now; do 2 step; apply go_refl|]). destruct H.
  - exists (Some d). split; [discriminate|]. eapply go_nt; [exact R92|]. cbn [app]. step.
    nt_by (MSet set3). { apply (span_in 49 9); [vm_compute; reflexivity|lia]. }
    do 2 step. cbn [stk counter]. eapply go_act; [apply reference_ok; lia|]. rewrite Z_N_nat. apply go_refl.
  - destruct l as [|d l]; [destruct Hl; congruence|]. destruct Hl as [_ Hl]. inversion Hl; subst. rewrite value_run in * by assumption.
    destruct (go_digits l (Some d) 125 rest (TTerm 125 :: Act A_make_back_reference :: behind_atom t ++ st) (Z.to_N (d - 48)) ts k ltac:(assumption) ltac:(auto) ltac:(discriminate)) as (p1 & Hp1 & K1).
    exists (Some 125). split; [discriminate|]. eapply go_nt; [exact R92|]. cbn [app]. step. nt_now. do 2 step.
    nt_by (MSet set15); [apply digit_in; assumption|]. do 2 step. eapply go_trans; [exact K1|]. step.
    eapply go_act; [apply reference_ok; assumption|]. apply go_refl.
  - destruct (go_number l (Some 45) 125 rest (TTerm 125 :: Act A_make_relative_back_reference :: behind_atom t ++ st) ts k Hl ltac:(auto)) as (p1 & Hp1 & K1).
    exists (Some 125). split; [discriminate|]. eapply go_nt; [exact R92|]. cbn [app]. step. nt_now. do 2 step. nt_now. step.
    eapply go_trans; [exact K1|]. step. eapply go_act; [|apply go_refl]. cbn. destruct (N.ltb_spec (N.of_nat k) (value l)); [lia|reflexivity].
  - exists (Some 93). split; [discriminate|]. eapply go_nt; [exact R91|]. cbn [app]. step. apply go_brackets; assumption.
  - exists (Some 93). split; [discriminate|]. eapply go_nt; [exact R91|]. cbn [app]. step. apply go_not_brackets; assumption.
Qed.

(** ** Quantifiers *)
(** What follows is not a quantifier. *)
Definition calm (rest : list Z) : Prop := forall c, hd_error rest = Some c -> ~ In c [42; 43; 63; 123; 125].
Lemma calm_rules : forall rest, calm rest -> rule N_repeat (hd_error rest) = Push [] /\ rule N_mod (hd_error rest) = Push [].
Proof.
  intros [|c rest] H; [split; vm_compute; reflexivity|]. cbn [hd_error]. specialize (H c eq_refl).
  destruct (sets_cover set16 [42; 43; 63; 123; 125] c ltac:(vm_compute; reflexivity) H) as [K|K]; split; first [entry (MSet set16); exact K|entry MOthers; exact K].
Qed.
Lemma go_quant_base : forall m q x y, quant_base B m q x y -> forall p rest st ts k,
  exists p', p' <> None /\
  go p (q ++ rest) (NT N_repeat :: st) (mkCtx (IRe x :: ts) k) p' rest ((if m then [NT N_mod] else []) ++ st) (mkCtx (IRe y :: ts) k).
Proof.
  intros m q x y H p rest st ts k. destruct H as [x|x|x|l x Hl|l x Hl|l m x Hl Hm]; lit.
  - exists (Some 63). split; [discriminate|]. nt_now. do 2 step. apply go_refl.
  - exists (Some 43). split; [discriminate|]. nt_now. do 2 step. apply go_refl.
  - exists (Some 42). split; [discriminate|]. nt_now. do 2 step. apply go_refl.
  - destruct (go_number l (Some 123) 125 rest (NT N_b :: st) (IRe x :: ts) k Hl ltac:(auto)) as (p1 & Hp1 & K1).
    exists (Some 125). split; [discriminate|]. nt_now. step. eapply go_trans; [exact K1|]. nt_now. destruct p1; [|congruence].
    do 2 step. apply go_refl.
  - destruct (go_number l (Some 123) 44 (125 :: rest) (NT N_b :: st) (IRe x :: ts) k Hl ltac:(auto)) as (p1 & Hp1 & K1).
    exists (Some 125). split; [discriminate|]. nt_now. step. eapply go_trans; [exact K1|]. nt_now. step. nt_now.
    do 2 step. apply go_refl.
  - destruct (go_number l (Some 123) 44 (m ++ 125 :: rest) (NT N_b :: st) (IRe x :: ts) k Hl ltac:(auto)) as (p1 & Hp1 & K1).
    destruct (go_number m (Some 44) 125 rest (Act A_repeat_ab :: TTerm 125 :: NT N_mod :: st) (INum (value l) :: IRe x :: ts) k Hm ltac:(auto)) as (p2 & Hp2 & K2).
    exists (Some 125). split; [discriminate|]. nt_now. step. eapply go_trans; [exact K1|]. nt_now. step.
    destruct m as [|d m]; [destruct Hm; congruence|]. destruct Hm as [_ Hm]. inversion Hm; subst. cbn [app] in *.
    nt_by (MSet set15); [apply digit_in; assumption|]. eapply go_trans; [exact K2|]. destruct p2; [|congruence]. do 2 step. apply go_refl.
Qed.
Lemma go_quant : forall q x y, quant B q x y -> forall p rest st ts k, p <> None -> calm rest ->
  exists p', p' <> None /\
  go p (q ++ rest) (NT N_repeat :: st) (mkCtx (IRe x :: ts) k) p' rest st (mkCtx (IRe y :: ts) k).
Proof.
  intros q x y H p rest st ts k Hp C. destruct (calm_rules rest C) as [C1 C2].
  destruct H as [x|m q x y H|q x y y' H Hy|q x y y' H Hy]; lit.
  - exists p. split; [assumption|]. eapply go_nt; [exact C1|]. apply go_refl.
  - destruct (go_quant_base m q x y H p rest st ts k) as (p1 & Hp1 & K1). exists p1. split; [assumption|].
    eapply go_trans; [exact K1|]. destruct m; [|apply go_refl]. cbn [app]. eapply go_nt; [exact C2|]. apply go_refl.
  - destruct (go_quant_base true q x y H p (63 :: rest) st ts k) as (p1 & Hp1 & K1). exists (Some 63). split; [discriminate|].
    eapply go_trans; [exact K1|]. cbn [app]. nt_now. step. eapply go_act; [cbn; rewrite Hy; reflexivity|]. apply go_refl.
  - destruct (go_quant_base true q x y H p (43 :: rest) st ts k) as (p1 & Hp1 & K1). exists (Some 43). split; [discriminate|].
    eapply go_trans; [exact K1|]. cbn [app]. nt_now. step. eapply go_act; [cbn; rewrite Hy; reflexivity|]. apply go_refl.
Qed.

(** ** Composed patterns *)
Scheme atom_text_m := Induction for atom_text Sort Prop
  with item_text_m := Induction for item_text Sort Prop
  with branch_text_m := Induction for branch_text Sort Prop
  with rest_text_m := Induction for rest_text Sort Prop
  with alt_text_m := Induction for alt_text Sort Prop.
Combined Scheme pattern_text_ind from atom_text_m, item_text_m, branch_text_m, rest_text_m, alt_text_m.

(** No text of an atom begins like a quantifier, an alternative or a closing parenthesis. *)
Definition starts (u : list Z) : Prop := exists c u', u = c :: u' /\ ~ In c [41; 42; 43; 63; 123; 124; 125].
Lemma starts_calm : forall u rest, starts u -> calm (u ++ rest).
Proof. intros u rest (c & u' & -> & H) d E. cbn in E. injection E as <-. intros I. apply H. cbn in *. tauto. Qed.
Lemma leaf_starts : forall k u r, leaf_text props k u r -> starts u.
Proof.
  intros k u r H. assert (G : forall c u', ~ In c [41; 42; 43; 63; 123; 124; 125] -> starts (c :: u')) by (intros; eexists; eexists; eauto).
  destruct H; lit; apply G; try (cbn; intuition discriminate). intros I. apply H. cbn in *. tauto.
Qed.
Lemma atom_starts : forall z k u r k', atom_text props B z k u r k' -> starts u.
Proof.
  intros z k u r k' H. assert (G : forall c u', ~ In c [41; 42; 43; 63; 123; 124; 125] -> starts (c :: u')) by (intros; eexists; eexists; eauto).
  destruct H; lit; try (apply G; cbn; intuition discriminate). eapply leaf_starts. eassumption.
Qed.
Lemma starts_app : forall u v, starts u -> starts (u ++ v).
Proof. intros u v (c & u' & -> & H). exists c, (u' ++ v). auto. Qed.
Lemma item_starts : forall z k u r k', item_text props B z k u r k' -> starts u.
Proof. intros z k u r k' H. destruct H. apply starts_app. eapply atom_starts. eassumption. Qed.
Lemma branch_starts : forall z k u r k', branch_text props B z k u r k' -> starts u.
Proof. intros z k u r k' H. destruct H; [|apply starts_app]; eapply item_starts; eassumption. Qed.

Definition ends (rest : list Z) : Prop := rest = [] \/ exists rest', rest = 41 :: rest'.
Definition closes (rest : list Z) : Prop := ends rest \/ exists rest', rest = 124 :: rest'.
Lemma closes_calm : forall rest, closes rest -> calm rest.
Proof.
  intros rest [[-> | [r ->]] | [r ->]] c E; cbn in E; [discriminate| |]; injection E as <-; cbn; intuition discriminate.
Qed.
Lemma closes_string2 : forall rest, closes rest -> rule N_string2 (hd_error rest) = Push [].
Proof. intros rest [[-> | [r ->]] | [r ->]]; vm_compute; reflexivity. Qed.
Lemma ends_content2 : forall rest, ends rest -> rule N_content2 (hd_error rest) = Push [].
Proof. intros rest [-> | [r ->]]; vm_compute; reflexivity. Qed.

(** Places where the alternatives behind a [|] are read, and what is left behind them. *)
Definition rest_places : list (nt * list sym) := [(N_a, [Act A_make_alternate]); (N_content_or_empty, []); (N_opt_content, [])].
Lemma rest_lead : forall x t, In (x, t) rest_places -> In (x, NT N_content2 :: t) leads.
Proof. intros x t H. cbn [rest_places leads In] in *. intuition congruence. Qed.
Definition rest_ends (x : nt) (rest : list Z) : Prop := ends rest /\ (x = N_content_or_empty -> rest <> []) /\ (x = N_opt_content -> rest = []).
Lemma rest_empty : forall x t rest, In (x, t) rest_places -> rest_ends x rest -> rule x (hd_error rest) = Push (Act A_push_empty :: t).
Proof.
  intros x t rest H ([-> | [r ->]] & E1 & E2); cbn [rest_places In] in H; destruct H as [H|[H|[H|[]]]]; injection H as <- <-;
    try (vm_compute; reflexivity); [destruct (E1 eq_refl); reflexivity|discriminate (E2 eq_refl)].
Qed.
(** Places where a whole content is read. *)
Definition alt_places : list (nt * list sym * nt) :=
  [(N_s, [], N_opt_content); (N_content_in_capture, [], N_content_or_empty); (N_block, [Act A_make_capture; TTerm 41], N_content_or_empty)].
Lemma alt_lead : forall x t y, In (x, t, y) alt_places -> In (x, NT N_content2 :: t) leads.
Proof. intros x t y H. cbn [alt_places leads In] in *. intuition congruence. Qed.
Lemma alt_rest : forall x t y, In (x, t, y) alt_places -> rule x (Some 124) = Push (TAny :: Act A_push_empty :: NT y :: Act A_make_alternate :: t) /\ In (y, []) rest_places.
Proof.
  intros x t y H. cbn [alt_places In] in H. destruct H as [H|[H|[H|[]]]]; injection H as <- <- <-; (split; [vm_compute; reflexivity|cbn; auto]).
Qed.

Definition P_atom z k u r k' := forall x t p rest st ts, In (x, t) leads -> named ts = z -> quiet ts ->
  exists p', p' <> None /\ go p (u ++ rest) (NT x :: st) (mkCtx ts k) p' rest (NT N_repeat :: NT N_string2 :: t ++ st) (mkCtx (IRe r :: ts) k').
Definition P_item z k u r k' := forall x t p rest st ts, In (x, t) leads -> named ts = z -> quiet ts -> calm rest ->
  exists p', p' <> None /\ go p (u ++ rest) (NT x :: st) (mkCtx ts k) p' rest (NT N_string2 :: t ++ st) (mkCtx (IRe r :: ts) k').
Definition P_branch z k u r k' := forall x t p rest st ts, In (x, t) leads -> named ts = z -> quiet ts -> closes rest ->
  exists p', p' <> None /\ go p (u ++ rest) (NT x :: st) (mkCtx ts k) p' rest (t ++ st) (mkCtx (IRe r :: ts) k').
Definition P_rest k u r k' := forall x t p rest st ts, In (x, t) rest_places -> named ts = false -> quiet ts -> p <> None -> rest_ends x rest ->
  exists p', p' <> None /\ go p (u ++ rest) (NT x :: st) (mkCtx ts k) p' rest (t ++ st) (mkCtx (IRe r :: ts) k').
Definition P_alt z k u r k' :=
  (forall p st ts, named ts = z -> quiet ts -> p <> None \/ ts = [] ->
     exists p', go p u (NT N_s :: st) (mkCtx ts k) p' [] st (mkCtx (IRe r :: ts) k')) /\
  (forall p rest st ts, named ts = z -> quiet ts -> p <> None ->
     exists p', p' <> None /\ go p (u ++ 41 :: rest) (NT N_content_in_capture :: st) (mkCtx ts k) p' (41 :: rest) st (mkCtx (IRe r :: ts) k')) /\
  (forall p rest st ts i, z = false -> p <> None ->
     go p (u ++ 41 :: rest) (NT N_block :: st) (mkCtx (ICap i :: ts) k) (Some 41) rest st (mkCtx (IRe (b_cap B i r) :: ts) k')).

(** What follows [(?]. *)
Lemma go_paren : forall x t p rest st ts k, In (x, t) leads ->
  forall p' rest' c', go (Some 40) rest (NT N_block :: behind_atom t ++ st) (mkCtx (ICap (S k) :: ts) (S k)) p' rest' (behind_atom t ++ st) c' ->
  go p (40 :: rest) (NT x :: st) (mkCtx ts k) p' rest' (NT N_repeat :: NT N_string2 :: t ++ st) c'.
Proof.
  intros x t p rest st ts k H p' rest' c' K. destruct (lead_rules x t H) as (_ & _ & R & _). eapply go_nt; [exact R|]. cbn [app]. do 2 step. exact K.
Qed.

Lemma texts_read : (forall z k u r k' (H : atom_text props B z k u r k'), P_atom z k u r k') /\
  (forall z k u r k' (H : item_text props B z k u r k'), P_item z k u r k') /\
  (forall z k u r k' (H : branch_text props B z k u r k'), P_branch z k u r k') /\
  (forall k u r k' (H : rest_text props B k u r k'), P_rest k u r k') /\
  (forall z k u r k' (H : alt_text props B z k u r k'), P_alt z k u r k').
Proof.
  apply pattern_text_ind.
  - (* leaf *) intros z k u r H x t p rest st ts Hx Hz Q. apply (go_leaf u r k x t p rest st ts Hx H Q).
  - (* \g{name} *) intros k n Hn x t p rest st ts Hx Hz Q. destruct Hn as (c & l & -> & Hc & Hl).
    destruct (go_names l (Some c) rest (TTerm 125 :: Act A_make_back_reference :: behind_atom t ++ st) [c] ts k 125 Hl ltac:(apply mem_in; vm_compute; reflexivity) ltac:(discriminate)) as (p1 & Hp1 & K1).
    exists (Some 125). split; [discriminate|]. lit. destruct (lead_rules x t Hx) as (R & _). eapply go_nt; [exact R|]. cbn [app]. step.
    nt_now. do 2 step. nt_by (MSet set8); [apply start_in; exact Hc|]. step. eapply go_act; [apply push_name_fresh; exact Hz|].
    eapply go_trans; [exact K1|]. do 2 step. apply go_refl.
  - (* ( ) *) intros z k u r k' H (_ & _ & IH) x t p rest st ts Hx Hz Q. exists (Some 41). split; [discriminate|]. lit.
    apply go_paren; [assumption|]. apply IH; [reflexivity|discriminate].
  - (* (?<name> ) *) intros z k n u r k' Hn H (_ & IH & _) x t p rest st ts Hx Hz Q. destruct Hn as (c & l & -> & Hc & Hl).
    exists (Some 41). split; [discriminate|]. lit. apply go_paren; [assumption|].
    destruct (go_names l (Some c) (u ++ 41 :: rest) (TTerm 62 :: NT N_content_in_capture :: Act A_make_capture_with_name :: TTerm 41 :: behind_atom t ++ st) [c] (ICap (S k) :: ts) (S k) 62 Hl ltac:(apply mem_in; vm_compute; reflexivity) ltac:(discriminate)) as (p1 & Hp1 & K1).
    destruct (IH (Some 62) rest (Act A_make_capture_with_name :: TTerm 41 :: behind_atom t ++ st) (IId (c :: l) :: ICap (S k) :: ts) eq_refl I ltac:(discriminate)) as (p2 & Hp2 & K2).
    nt_now. step. nt_now. step. nt_by (MSet set8); [apply start_in; exact Hc|]. nt_by (MSet set8); [apply start_in; exact Hc|]. do 2 step.
    eapply go_trans; [exact K1|]. step. eapply go_trans; [exact K2|]. destruct p2; [|congruence]. do 2 step. apply go_refl.
  - (* (?: ) *) intros z k u r k' H (_ & IH & _) x t p rest st ts Hx Hz Q.
    exists (Some 41). split; [discriminate|]. lit. apply go_paren; [assumption|].
    destruct (IH (Some 58) rest (TTerm 41 :: behind_atom t ++ st) ts Hz Q ltac:(discriminate)) as (p2 & Hp2 & K2).
    nt_now. step. nt_now. do 2 step. eapply go_trans; [exact K2|]. step. apply go_refl.
  - (* (?> ) *) intros z k u r k' H (_ & IH & _) x t p rest st ts Hx Hz Q.
    exists (Some 41). split; [discriminate|]. lit. apply go_paren; [assumption|].
    destruct (IH (Some 62) rest (Act A_make_atomic :: TTerm 41 :: behind_atom t ++ st) (IAtomic :: ts) eq_refl I ltac:(discriminate)) as (p2 & Hp2 & K2).
    nt_now. step. nt_now. do 3 step. eapply go_trans; [exact K2|]. destruct p2; [|congruence]. do 2 step. apply go_refl.
  - (* (?= ) *) intros z k u r k' H (_ & IH & _) x t p rest st ts Hx Hz Q.
    exists (Some 41). split; [discriminate|]. lit. apply go_paren; [assumption|].
    destruct (IH (Some 61) rest (Act A_look_finish :: TTerm 41 :: behind_atom t ++ st) (ILook false false :: ts) eq_refl I ltac:(discriminate)) as (p2 & Hp2 & K2).
    nt_now. step. nt_now. do 3 step. eapply go_trans; [exact K2|]. destruct p2; [|congruence]. do 2 step. apply go_refl.
  - (* (?! ) *) intros z k u r k' H (_ & IH & _) x t p rest st ts Hx Hz Q.
    exists (Some 41). split; [discriminate|]. lit. apply go_paren; [assumption|].
    destruct (IH (Some 33) rest (Act A_look_finish :: TTerm 41 :: behind_atom t ++ st) (ILook false true :: ts) eq_refl I ltac:(discriminate)) as (p2 & Hp2 & K2).
    nt_now. step. nt_now. do 3 step. eapply go_trans; [exact K2|]. destruct p2; [|congruence]. do 2 step. apply go_refl.
  - (* (?<= ) *) intros z k u r k' r' H (_ & IH & _) Hr x t p rest st ts Hx Hz Q.
    exists (Some 41). split; [discriminate|]. lit. apply go_paren; [assumption|].
    destruct (IH (Some 61) rest (Act A_look_finish :: TTerm 41 :: behind_atom t ++ st) (ILook true false :: ts) eq_refl I ltac:(discriminate)) as (p2 & Hp2 & K2).
    nt_now. step. nt_now. step. nt_now. do 3 step. eapply go_trans; [exact K2|]. destruct p2; [|congruence].
    eapply go_act; [cbn; rewrite Hr; reflexivity|]. step. apply go_refl.
  - (* (?<! ) *) intros z k u r k' r' H (_ & IH & _) Hr x t p rest st ts Hx Hz Q.
    exists (Some 41). split; [discriminate|]. lit. apply go_paren; [assumption|].
    destruct (IH (Some 33) rest (Act A_look_finish :: TTerm 41 :: behind_atom t ++ st) (ILook true true :: ts) eq_refl I ltac:(discriminate)) as (p2 & Hp2 & K2).
    nt_now. step. nt_now. step. nt_now. do 3 step. eapply go_trans; [exact K2|]. destruct p2; [|congruence].
    eapply go_act; [cbn; rewrite Hr; reflexivity|]. step. apply go_refl.
  - (* (?i) *) intros z k c m H x t p rest st ts Hx Hz Q.
    exists (Some 41). split; [discriminate|]. lit. apply go_paren; [assumption|]. cbn [mode_letters In] in H.
    repeat (destruct H as [H|H]; [injection H as <- <-; nt_now; step; nt_now; do 2 step; nt_now; step; apply go_refl|]). destruct H.
  - (* quantifier *) intros z k u x k' q r H IH Hq y t p rest st ts Hy Hz Q C. rewrite <- app_assoc.
    destruct (IH y t p (q ++ rest) st ts Hy Hz Q) as (p1 & Hp1 & K1).
    destruct (go_quant q x r Hq p1 rest (NT N_string2 :: t ++ st) ts k' Hp1 C) as (p2 & Hp2 & K2).
    exists p2. split; [assumption|]. eapply go_trans; [exact K1|exact K2].
  - (* one item *) intros z k u r k' H IH x t p rest st ts Hx Hz Q C.
    destruct (IH x t p rest st ts Hx Hz Q (closes_calm _ C)) as (p1 & Hp1 & K1). exists p1. split; [assumption|].
    eapply go_trans; [exact K1|]. eapply go_nt; [apply closes_string2; exact C|]. apply go_refl.
  - (* sequence *) intros z k u r k1 v y k' H IH Hv IHv x t p rest st ts Hx Hz Q C. rewrite <- app_assoc.
    destruct (IH x t p (v ++ rest) st ts Hx Hz Q (starts_calm _ _ (branch_starts _ _ _ _ _ Hv))) as (p1 & Hp1 & K1).
    destruct (IHv N_string2 _ p1 rest (t ++ st) (IRe r :: ts) ltac:(cbn; tauto) eq_refl I C) as (p2 & Hp2 & K2).
    exists p2. split; [assumption|]. eapply go_trans; [exact K1|]. eapply go_trans; [exact K2|]. cbn [app]. destruct p2; [|congruence].
    step. apply go_refl.
  - (* nothing behind | *) intros k x t p rest st ts Hx Hz Q Hp E. exists p. split; [assumption|].
    cbn [app]. eapply go_nt; [eapply rest_empty; eassumption|]. cbn [app]. destruct p; [|congruence]. step. apply go_refl.
  - (* last branch *) intros k u r k' H IH x t p rest st ts Hx Hz Q Hp E.
    destruct (IH x _ p rest st ts (rest_lead _ _ Hx) Hz Q (or_introl (proj1 E))) as (p1 & Hp1 & K1). exists p1. split; [assumption|].
    eapply go_trans; [exact K1|]. cbn [app]. eapply go_nt; [apply ends_content2; apply E|]. apply go_refl.
  - (* further branches *) intros k u r k1 v y k' H IH Hv IHv x t p rest st ts Hx Hz Q Hp E. lit.
    destruct (IH x _ p (124 :: v ++ rest) st ts (rest_lead _ _ Hx) Hz Q ltac:(right; eauto)) as (p1 & Hp1 & K1).
    destruct (IHv N_a _ (Some 124) rest (t ++ st) (IRe r :: ts) ltac:(cbn; auto) eq_refl I ltac:(discriminate)
                ltac:(split; [apply E|split; discriminate])) as (p2 & Hp2 & K2).
    exists p2. split; [assumption|]. eapply go_trans; [exact K1|]. cbn [app]. nt_now. step. eapply go_trans; [exact K2|]. cbn [app].
    destruct p2; [|congruence]. step. apply go_refl.
  - (* empty *) intros z k. split; [|split].
    + intros p st ts Hz Q Hp. exists p. nt_now. destruct p; [step; apply go_refl|]. destruct Hp as [Hp | ->]; [congruence|]. step. apply go_refl.
    + intros p rest st ts Hz Q Hp. exists p. split; [assumption|]. cbn [app]. nt_now. destruct p; [|congruence]. step. apply go_refl.
    + intros p rest st ts i Hz Hp. cbn [app]. nt_now. destruct p; [|congruence]. do 3 step. apply go_refl.
  - (* one branch *) intros z k u r k' H IH. split; [|split].
    + intros p st ts Hz Q Hp. destruct (IH N_s _ p [] st ts ltac:(cbn; tauto) Hz Q ltac:(left; left; reflexivity)) as (p1 & Hp1 & K1).
      rewrite app_nil_r in K1. exists p1. eapply go_trans; [exact K1|]. cbn [app]. nt_now. apply go_refl.
    + intros p rest st ts Hz Q Hp. destruct (IH N_content_in_capture _ p (41 :: rest) st ts ltac:(cbn; tauto) Hz Q ltac:(left; right; eauto)) as (p1 & Hp1 & K1).
      exists p1. split; [assumption|]. eapply go_trans; [exact K1|]. cbn [app]. nt_now. apply go_refl.
    + intros p rest st ts i Hz Hp. destruct (IH N_block _ p (41 :: rest) st (ICap i :: ts) ltac:(cbn; tauto) (eq_sym Hz) I ltac:(left; right; eauto)) as (p1 & Hp1 & K1).
      eapply go_trans; [exact K1|]. cbn [app]. nt_now. destruct p1; [|congruence]. do 2 step. apply go_refl.
  - (* branches *) intros z k u r k1 v y k' H IH Hv IHv. lit.
    assert (E : forall x t w p rest st ts, In (x, t, w) alt_places -> named ts = z -> quiet ts -> ends rest -> exists p1, p1 <> None /\
      go p (u ++ 124 :: v ++ rest) (NT x :: st) (mkCtx ts k) p1 rest (t ++ st) (mkCtx (IRe (b_alt B r y) :: ts) k')).
    { intros x t w p rest st ts Hx Hz Q E.
      destruct (IH x _ p (124 :: v ++ rest) st ts (alt_lead _ _ _ Hx) Hz Q ltac:(right; eauto)) as (p1 & Hp1 & K1).
      destruct (IHv N_a _ (Some 124) rest (t ++ st) (IRe r :: ts) ltac:(cbn; auto) eq_refl I ltac:(discriminate)
                ltac:(split; [assumption|split; discriminate])) as (p2 & Hp2 & K2).
      exists p2. split; [assumption|]. eapply go_trans; [exact K1|]. cbn [app]. nt_now. step. eapply go_trans; [exact K2|]. cbn [app].
      destruct p2; [|congruence]. step. apply go_refl. }
    split; [|split].
    + intros p st ts Hz Q Hp. destruct (E N_s _ _ p [] st ts ltac:(cbn; auto) Hz Q ltac:(left; reflexivity)) as (p1 & Hp1 & K1).
      rewrite app_nil_r in K1. exists p1. exact K1.
    + intros p rest st ts Hz Q Hp. lit. apply (E N_content_in_capture _ _ p (41 :: rest) st ts ltac:(cbn; auto) Hz Q ltac:(right; eauto)).
    + intros p rest st ts i Hz Hp. lit. destruct (E N_block _ _ p (41 :: rest) st (ICap i :: ts) ltac:(cbn; auto) (eq_sym Hz) I ltac:(right; eauto)) as (p1 & Hp1 & K1).
      eapply go_trans; [exact K1|]. cbn [app]. destruct p1; [|congruence]. do 2 step. apply go_refl.
  - (* empty first branch *) intros z k v y k' Hv IHv. lit.
    assert (E : forall x t w p rest st ts, In (x, t, w) alt_places -> quiet ts -> rest_ends w rest -> exists p1, p1 <> None /\
      go p (124 :: v ++ rest) (NT x :: st) (mkCtx ts k) p1 rest (t ++ st) (mkCtx (IRe (b_alt B REmpty y) :: ts) k')).
    { intros x t w p rest st ts Hx Q E. destruct (alt_rest x t w Hx) as [R Hw].
      destruct (IHv w _ (Some 124) rest (Act A_make_alternate :: t ++ st) (IRe REmpty :: ts) Hw eq_refl I ltac:(discriminate) E) as (p2 & Hp2 & K2).
      exists p2. split; [assumption|]. eapply go_nt; [exact R|]. cbn [app]. do 2 step. eapply go_trans; [exact K2|]. cbn [app].
      destruct p2; [|congruence]. step. apply go_refl. }
    split; [|split].
    + intros p st ts Hz Q Hp. destruct (E N_s _ _ p [] st ts ltac:(cbn; auto) Q ltac:(split; [left; reflexivity|split; [discriminate|reflexivity]])) as (p1 & Hp1 & K1).
      rewrite app_nil_r in K1. exists p1. exact K1.
    + intros p rest st ts Hz Q Hp. lit. apply (E N_content_in_capture _ _ p (41 :: rest) st ts ltac:(cbn; auto) Q ltac:(split; [right; eauto|split; discriminate])).
    + intros p rest st ts i Hz Hp. lit. destruct (E N_block _ _ p (41 :: rest) st (ICap i :: ts) ltac:(cbn; auto) I ltac:(split; [right; eauto|split; discriminate])) as (p1 & Hp1 & K1).
      eapply go_trans; [exact K1|]. cbn [app]. destruct p1; [|congruence]. do 2 step. apply go_refl.
Qed.

(** ** The whole pattern *)
Theorem pattern_read : forall u r, pattern_text props B u r ->
  exists k n, forall fuel, mrun (n + fuel) None u [NT N_s] (mkCtx [] 0) = mrun fuel None [] [] (mkCtx [IRe r] k).
Proof.
  intros u r [k H]. destruct texts_read as (_ & _ & _ & _ & T). destruct (T _ _ _ _ _ H) as [T1 _].
  destruct (T1 None [] [] eq_refl I (or_intror eq_refl)) as (p' & n & K). exists k, n. intros fuel. rewrite K. destruct fuel; reflexivity.
Qed.
End Machine.
