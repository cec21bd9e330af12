(** Every pattern the parser accepts is a text of the pattern syntax: the other half of C43. *)
From Coq Require Import List ZArith NArith Bool Arith Lia String.
From Coq Require Import ZifyBool ZifyNat ZifyN.
From Verif Require Import Chars Syntax Grammar Actions Parser ParserProofs Literals Pattern PatternRead.
Import ListNotations.
Local Open Scope Z_scope.

Section Machine.
Variable props : list Z -> option (list Z) -> option (list (Z * Z)).
Variable B : builders.
Notation act := (act props B).
Notation mrun := (mrun props B).

(** * Accepting runs, backwards *)
Definition acc (n : nat) p i st c cf : Prop := mrun n p i st c = PAccept cf.
Definition look (i : list Z) (m : tmatch) : Prop :=
  match m with
  | MTerm d => exists i', i = d :: i'
  | MSet l => exists d i', i = d :: i' /\ In d l
  | MOthers => exists d i', i = d :: i' /\ ~ In d not_others
  | MEps => i = []
  end.
Lemma acc_nt : forall n p i x st c cf, acc n p i (NT x :: st) c cf ->
  exists n' m l, (n' < n)%nat /\ In (m, Push l) (rules x) /\ look i m /\ acc n' p i (l ++ st) c cf.
Proof.
  intros [|n] p i x st c cf H; unfold acc in H; cbn [PatternRead.mrun] in H; [discriminate|].
  destruct (rule x (hd_error i)) as [l|] eqn:R; [|discriminate]. destruct (rule_in _ _ _ R) as (m & I & V).
  exists n, m, l. split; [lia|]. split; [assumption|]. split; [|exact H].
  destruct m; destruct i; cbn in *; try contradiction; try subst; eauto.
Qed.
Lemma acc_act : forall n p i a st c cf, acc n p i (Act a :: st) c cf ->
  exists n' c', (n' < n)%nat /\ act a p c = Done c' /\ acc n' p i st c' cf.
Proof.
  intros [|n] p i a st c cf H; unfold acc in H; cbn [PatternRead.mrun] in H; [discriminate|].
  destruct (act a p c) as [c'| |] eqn:E; [|discriminate|discriminate]. exists n, c'. split; [lia|]. auto.
Qed.
Lemma acc_any : forall n p ch i st c cf, acc n p (ch :: i) (TAny :: st) c cf -> exists n', (n' < n)%nat /\ acc n' (Some ch) i st c cf.
Proof. intros [|n] p ch i st c cf H; unfold acc in H; cbn [PatternRead.mrun term_matches] in H; [discriminate|]. exists n. split; [lia|exact H]. Qed.
Lemma acc_term : forall n p d i st c cf, acc n p i (TTerm d :: st) c cf -> exists n' i', (n' < n)%nat /\ i = d :: i' /\ acc n' (Some d) i' st c cf.
Proof.
  intros [|n] p d i st c cf H; unfold acc in H; cbn [PatternRead.mrun term_matches] in H; [discriminate|]. destruct i as [|ch i]; [discriminate|].
  destruct (Z.eqb_spec ch d); [|discriminate]. subst. exists n, i. split; [lia|auto].
Qed.
Lemma acc_set : forall n p l i st c cf, acc n p i (TSet l :: st) c cf ->
  exists n' d i', (n' < n)%nat /\ i = d :: i' /\ In d l /\ acc n' (Some d) i' st c cf.
Proof.
  intros [|n] p l i st c cf H; unfold acc in H; cbn [PatternRead.mrun term_matches] in H; [discriminate|]. destruct i as [|ch i]; [discriminate|].
  destruct (mem ch l) eqn:E; [|discriminate]. apply mem_in in E. exists n, ch, i. split; [lia|auto].
Qed.
Lemma acc_end : forall n p i c cf, acc n p i [] c cf -> i = [] /\ cf = c.
Proof. intros [|n] p [|ch i] c cf H; unfold acc in H; cbn [PatternRead.mrun] in H; try discriminate. injection H as ->. auto. Qed.

(** One step backwards. *)
Ltac back_sym H :=
  lazymatch type of H with
  | acc _ _ (_ :: _) (TAny :: _) _ _ => let n := fresh "n" in let L := fresh "L" in apply acc_any in H as (n & L & H)
  | acc _ _ _ (TTerm _ :: _) _ _ =>
      let n := fresh "n" in let i := fresh "i" in let L := fresh "L" in let E := fresh "E" in
      apply acc_term in H as (n & i & L & E & H);
      first [discriminate E | injection E as -> | injection E as <- | subst | idtac]
  | acc _ _ _ (TSet _ :: _) _ _ =>
      let n := fresh "n" in let d := fresh "d" in let i := fresh "i" in let L := fresh "L" in let E := fresh "E" in let M := fresh "M" in
      apply acc_set in H as (n & d & i & L & E & M & H); first [discriminate E | subst | idtac]
  | acc _ _ _ (Act _ :: _) _ _ =>
      let n := fresh "n" in let c := fresh "c" in let L := fresh "L" in let A := fresh "A" in
      apply acc_act in H as (n & c & L & A & H)
  end.
Ltac done_act :=
  match goal with A : PatternRead.act _ _ _ _ _ = Done ?c |- _ => cbn in A; first [discriminate A | injection A as <-]; cbn [stk counter] in * end.
Ltac back H := back_sym H; try done_act.
Ltac back_nt H :=
  let n := fresh "n" in let m := fresh "m" in let l := fresh "l" in let L := fresh "L" in let I := fresh "I" in let V := fresh "V" in
  apply acc_nt in H as (n & m & l & L & I & V & H); cbn [rules In] in I;
  repeat first [contradiction I | destruct I as [I|I]]; try discriminate I; try (injection I as <- <-); try contradiction; cbn [look app] in V, H;
  lazymatch type of V with
  | exists qa qb, _ = qa :: qb /\ _ =>
      let d := fresh "d" in let i := fresh "i" in let M := fresh "M" in
      destruct V as (d & i & V & M); first [discriminate V | injection V as <- <- | injection V as -> -> | subst]
  | exists qa, _ => let i := fresh "i" in destruct V as (i & V); first [discriminate V | injection V as -> -> | injection V as -> <- | injection V as <- | injection V as -> | subst]
  | _ = [] => first [discriminate V | subst]
  end.

(** ** Characters and the sets of the table *)
Lemma in_check : forall (P : Z -> Prop) (f : Z -> bool) l, forallb f l = true -> (forall c, f c = true -> P c) -> forall c, In c l -> P c.
Proof. intros P f l H K c I. apply K. rewrite forallb_forall in H. auto. Qed.
Definition letter_b (c : Z) : bool := (65 <=? c) && (c <=? 90) || (97 <=? c) && (c <=? 122).
Definition digit_b (c : Z) : bool := (48 <=? c) && (c <=? 57).
Lemma set8_start : forall c, In c set8 -> name_start c.
Proof.
  apply (in_check _ (fun c => letter_b c || (c =? 95))); [vm_compute; reflexivity|]. intros c H.
  unfold name_start, is_letter, letter_b in *. lia.
Qed.
Lemma set7_part : forall c, In c set7 -> name_part c.
Proof.
  apply (in_check _ (fun c => letter_b c || (c =? 95) || digit_b c)); [vm_compute; reflexivity|]. intros c H.
  unfold name_part, name_start, is_letter, is_digit, letter_b, digit_b in *. lia.
Qed.
Lemma set20_part : forall c, In c set20 -> property_part c.
Proof.
  apply (in_check _ (fun c => letter_b c || (c =? 95) || digit_b c || (c =? 46))); [vm_compute; reflexivity|]. intros c H.
  unfold property_part, name_part, name_start, is_letter, is_digit, letter_b, digit_b in *. lia.
Qed.
Lemma set15_digit : forall c, In c set15 -> is_digit c.
Proof.
  apply (in_check _ digit_b); [vm_compute; reflexivity|]. intros c H. unfold is_digit, digit_b in *. lia.
Qed.
Lemma set3_digit : forall c, In c set3 -> 49 <= c <= 57.
Proof. apply (in_check _ (fun c => (49 <=? c) && (c <=? 57))); [vm_compute; reflexivity|]. intros c H. lia. Qed.
Lemma set12_hex : forall c, In c set12 -> is_hex c.
Proof.
  apply (in_check _ (fun c => digit_b c || (65 <=? c) && (c <=? 70) || (97 <=? c) && (c <=? 102))); [vm_compute; reflexivity|].
  intros c H. unfold is_hex, digit_b in *. lia.
Qed.
Lemma not_in : forall (s bad : list Z), forallb (fun d => negb (mem d bad)) s = true -> forall c, In c s -> ~ In c bad.
Proof.
  intros s bad H c I J. rewrite forallb_forall in H. specialize (H c I). apply mem_in in J. rewrite J in H. discriminate.
Qed.
Lemma not_others_in : forall bad, forallb (fun d => mem d not_others) bad = true -> forall c, ~ In c not_others -> ~ In c bad.
Proof. intros bad H c N I. rewrite forallb_forall in H. apply N. apply mem_in. auto. Qed.

(** ** Names and numbers *)
Definition some (p : option Z) : Prop := p <> None.
Lemma names_back : forall n p i st m ts k cf, acc n p i (NT N_block_name2 :: st) (mkCtx (IId m :: ts) k) cf -> some p ->
  exists t i' n' p', i = t ++ i' /\ (n' < n)%nat /\ some p' /\ Forall name_part t /\ acc n' p' i' st (mkCtx (IId (m ++ t) :: ts) k) cf.
Proof.
  induction n as [n IH] using lt_wf_ind. intros p i st m ts k cf H Hp. back_nt H.
  - exists [], (d0 :: i0), n0, p. rewrite app_nil_r. auto.
  - back H. back H. destruct (IH n2 ltac:(lia) _ _ _ _ _ _ _ H ltac:(discriminate)) as (t & i' & n' & p' & -> & Hn & Hp' & Ht & K).
    exists (d0 :: t), i', n', p'. split; [reflexivity|]. split; [lia|]. split; [assumption|].
    split; [constructor; [apply set7_part; assumption|assumption]|]. rewrite <- app_assoc in K. exact K.
Qed.
Lemma digits_back : forall n p i st m ts k cf, acc n p i (NT N_number2 :: st) (mkCtx (INum m :: ts) k) cf -> some p ->
  exists t i' n' p', i = t ++ i' /\ (n' < n)%nat /\ some p' /\ Forall is_digit t /\ acc n' p' i' st (mkCtx (INum (dec_run m t) :: ts) k) cf.
Proof.
  induction n as [n IH] using lt_wf_ind. intros p i st m ts k cf H Hp. back_nt H.
  - exists [], (d0 :: i0), n0, p. auto.
  - back H. back H. destruct (IH n2 ltac:(lia) _ _ _ _ _ _ _ H ltac:(discriminate)) as (t & i' & n' & p' & -> & Hn & Hp' & Ht & K).
    exists (d0 :: t), i', n', p'. split; [reflexivity|]. split; [lia|]. split; [assumption|].
    split; [constructor; [apply set15_digit; assumption|assumption]|]. exact K.
Qed.
Lemma number_back : forall n p i st ts k cf, acc n p i (NT N_number :: st) (mkCtx ts k) cf ->
  exists l i' n' p', i = l ++ i' /\ (n' < n)%nat /\ some p' /\ is_number l /\ acc n' p' i' st (mkCtx (INum (value l) :: ts) k) cf.
Proof.
  intros n p i st ts k cf H. back_nt H. do 2 back H. apply digits_back in H as (t & i' & n' & p' & -> & Hn & Hp & Ht & K); [|discriminate].
  exists (d0 :: t), i', n', p'. split; [reflexivity|]. split; [lia|]. split; [assumption|]. apply set15_digit in M.
  split; [split; [discriminate|constructor; assumption]|]. rewrite value_run by assumption. exact K.
Qed.
Lemma push_hex_act : forall d k m ts, is_hex d -> act A_push_hexdec (Some d) (mkCtx (INum m :: ts) k) = Done (mkCtx (INum (wrap (m * 16 + hex_digit d)) :: ts) k).
Proof. intros d k m ts H. exact (push_hex props (Some d) k m ts d H eq_refl). Qed.
Lemma hexes_back : forall n p i st m ts k cf, acc n p i (NT N_hexdec_repeat :: st) (mkCtx (INum m :: ts) k) cf -> some p ->
  exists t i' n' p', i = t ++ i' /\ (n' < n)%nat /\ some p' /\ Forall is_hex t /\ acc n' p' i' st (mkCtx (INum (hex_run m t) :: ts) k) cf.
Proof.
  induction n as [n IH] using lt_wf_ind. intros p i st m ts k cf H Hp. back_nt H.
  - exists [], (125 :: i0), n0, p. auto.
  - back H. back_sym H. apply set12_hex in M.
    rewrite (push_hex_act d0 k m ts M) in A. injection A as <-.
    destruct (IH n2 ltac:(lia) _ _ _ _ _ _ _ H ltac:(discriminate)) as (t & i' & n' & p' & -> & Hn & Hp' & Ht & K).
    exists (d0 :: t), i', n', p'. split; [reflexivity|]. split; [lia|]. split; [assumption|].
    split; [constructor; assumption|]. exact K.
Qed.

(** ** Characters behind a backslash *)
Ltac hex_back H :=
  back_sym H; match goal with A : PatternRead.act _ _ A_push_hexdec (Some ?d) _ = Done _, M : In ?d set12 |- _ =>
    apply set12_hex in M; rewrite (push_hex_act d _ _ _ M) in A; injection A as <- end.
Lemma finish_back : forall v k m ts c, act A_finish_hexdec (Some v) (mkCtx (INum m :: ts) k) = Done c ->
  (m < 2 ^ 32)%N /\ c = mkCtx (IRe (RCls (CChar (Z.of_N m))) :: ts) k.
Proof. intros v k m ts c H. cbn in H. destruct (N.ltb_spec m 4294967296); [|discriminate]. injection H as <-. split; [lia|reflexivity]. Qed.
Lemma braces_back : forall n p i st ts k cf,
  acc n p (123 :: i) (TAny :: TSet set12 :: Act A_push_hexdec :: NT N_hexdec_repeat :: TTerm 125 :: Act A_finish_hexdec :: st) (mkCtx (INum 0 :: ts) k) cf ->
  exists ds i' n', i = ds ++ 125 :: i' /\ (n' < n)%nat /\ ds <> [] /\ Forall is_hex ds /\ (wrap (hexadecimal ds) < 2 ^ 32)%N /\
    acc n' (Some 125) i' st (mkCtx (IRe (RCls (CChar (Z.of_N (wrap (hexadecimal ds))))) :: ts) k) cf.
Proof.
  intros n p i st ts k cf H. back H. back H. hex_back H. apply hexes_back in H as (t & i' & n' & p' & -> & Hn & Hp & Ht & H); [|discriminate].
  back H. back_sym H. apply finish_back in A as [A ->].
  change (hex_run (wrap (0 * 16 + hex_digit d)) t) with (hex_run (wrap 0) (d :: t)) in *. rewrite hex_run_spec in *.
  exists (d :: t). eexists. eexists. split; [reflexivity|]. split; [|split; [discriminate|split; [constructor; assumption|split; [exact A|exact H]]]]. lia.
Qed.
Lemma small_hex : forall l, Forall is_hex l -> (List.length l <= 4)%nat -> hex_run (wrap 0) l = hexadecimal l.
Proof.
  intros l H L. apply hex_run_0 with (m := (2 ^ 32)%N); [|reflexivity]. eapply N.lt_le_trans; [apply hex_small; [exact props|lia|exact H]|].
  change (2 ^ 32)%N with (16 ^ 8)%N. apply N.pow_le_mono_r; [discriminate|lia].
Qed.
Lemma x_back : forall n p i st ts k cf, acc n p i (NT N_l :: st) (mkCtx ts k) cf -> some p ->
  exists u c i' n' p', i = u ++ i' /\ (n' < n)%nat /\ some p' /\ char_escape (120 :: u) c /\ acc n' p' i' st (mkCtx (IRe (RCls (CChar c)) :: ts) k) cf.
Proof.
  intros n [p|] i st ts k cf H Hp; [|congruence]. back_nt H.
  - back H. apply braces_back in H as (ds & i' & n' & -> & Hn & Hd & Hh & Hb & H).
    exists (123 :: ds ++ [125]). do 4 eexists. split; [cbn [app]; rewrite <- app_assoc; reflexivity|].
    split; [|split; [|split; [apply ce_braces; auto|exact H]]]; [lia|discriminate].
  - back H. back H. hex_back H. back H. hex_back H. back_sym H. apply finish_back in A as [A ->].
    change (wrap (wrap (hex_digit d0) * 16 + hex_digit d)) with (hex_run (wrap 0) [d0; d]) in *.
    rewrite small_hex in H by (auto; cbn; lia). exists [d0; d]. do 4 eexists. split; [reflexivity|].
    split; [|split; [|split; [apply ce_x2; auto|exact H]]]; [lia|discriminate].
Qed.
Lemma u_back : forall n p i st ts k cf, acc n p i (NT N_k :: st) (mkCtx ts k) cf -> some p ->
  exists u c i' n' p', i = u ++ i' /\ (n' < n)%nat /\ some p' /\ char_escape (117 :: u) c /\ acc n' p' i' st (mkCtx (IRe (RCls (CChar c)) :: ts) k) cf.
Proof.
  intros n [p|] i st ts k cf H Hp; [|congruence]. back_nt H.
  - back H. apply braces_back in H as (ds & i' & n' & -> & Hn & Hd & Hh & Hb & H).
    exists (123 :: ds ++ [125]). do 4 eexists. split; [cbn [app]; rewrite <- app_assoc; reflexivity|].
    split; [|split; [|split; [apply ce_braces; auto|exact H]]]; [lia|discriminate].
  - back H. back H. hex_back H. back H. hex_back H. back H. hex_back H. back H. hex_back H. back_sym H. apply finish_back in A as [A ->].
    change (wrap (wrap (wrap (wrap (hex_digit d0) * 16 + hex_digit d) * 16 + hex_digit d1) * 16 + hex_digit d2)) with (hex_run (wrap 0) [d0; d; d1; d2]) in *.
    rewrite small_hex in H by (auto; cbn; lia). exists [d0; d; d1; d2]. do 4 eexists. split; [reflexivity|].
    split; [|split; [|split; [apply ce_u4; auto|exact H]]]; [lia|discriminate].
Qed.

(** ** Properties *)
Lemma property_values_back : forall n p i st m ts k cf, acc n p i (NT N_property_value2 :: st) (mkCtx (IPValue m :: ts) k) cf -> some p ->
  exists t i' n' p', i = t ++ i' /\ (n' < n)%nat /\ some p' /\ Forall property_part t /\ acc n' p' i' st (mkCtx (IPValue (m ++ t) :: ts) k) cf.
Proof.
  induction n as [n IH] using lt_wf_ind. intros p i st m ts k cf H Hp. back_nt H.
  - exists [], (125 :: i0), n0, p. rewrite app_nil_r. auto.
  - back H. back H. destruct (IH n2 ltac:(lia) _ _ _ _ _ _ _ H ltac:(discriminate)) as (t & i' & n' & p' & -> & Hn & Hp' & Ht & K).
    exists (d0 :: t), i', n', p'. split; [reflexivity|]. split; [lia|]. split; [assumption|].
    split; [constructor; [apply set20_part; assumption|assumption]|]. rewrite <- app_assoc in K. exact K.
Qed.
(** Behind the first part of a name: the rest of the name and perhaps a value. *)
Lemma property_names_back : forall n p i st m ts k cf, acc n p i (NT N_property_name2 :: st) (mkCtx (IPName m :: ts) k) cf -> some p ->
  exists t i' n' p', (n' < n)%nat /\ some p' /\ Forall property_part t /\
    (i = t ++ i' /\ acc n' p' i' st (mkCtx (IPName (m ++ t) :: ts) k) cf \/
     exists v, i = t ++ 61 :: v ++ i' /\ is_property v /\ acc n' p' i' st (mkCtx (IPValue v :: IPName (m ++ t) :: ts) k) cf).
Proof.
  induction n as [n IH] using lt_wf_ind. intros p i st m ts k cf H Hp. back_nt H.
  - exists [], (125 :: i0), n0, p. rewrite app_nil_r. split; [lia|]. auto 6.
  - back H. back_nt H. back H. back H. apply property_values_back in H as (t & i' & n' & p' & -> & Hn & Hp' & Ht & K); [|discriminate].
    exists [], i', n', p'. rewrite app_nil_r. split; [lia|]. split; [assumption|]. split; [constructor|]. right.
    exists (d0 :: t). split; [reflexivity|]. split; [split; [discriminate|constructor; [apply set20_part|]; assumption]|]. exact K.
  - back H. back H. destruct (IH n2 ltac:(lia) _ _ _ _ _ _ _ H ltac:(discriminate)) as (t & i' & n' & p' & Hn & Hp' & Ht & K).
    exists (d0 :: t), i', n', p'. split; [lia|]. split; [assumption|]. split; [constructor; [apply set20_part|]; assumption|].
    rewrite <- !app_assoc in K. destruct K as [[-> K]|(v & -> & Hv & K)]; [left|right; exists v]; auto.
Qed.
Lemma property_back : forall neg n p i st ts k cf, quiet ts ->
  acc n p i (NT N_property_name :: TTerm 125 :: Act (if neg : bool then A_make_property_negative else A_make_property) :: st) (mkCtx ts k) cf ->
  exists u x i' n', i = u ++ i' /\ (n' < n)%nat /\ property_escape props ((if neg then 80 else 112) :: 123 :: u) x /\
    acc n' (Some 125) i' st (mkCtx (IRe (RCls x) :: ts) k) cf.
Proof.
  intros neg n p i st ts k cf Q H. back_nt H. back H. back_sym H.
  assert (E : c = mkCtx (IPName [d0] :: ts) k).
  { cbn in A. destruct ts as [|[]]; cbn in Q; try contradiction; injection A as <-; reflexivity. }
  subst c. clear A. apply set20_part in M.
  apply property_names_back in H as (t & i' & n' & p' & Hn & Hp & Ht & H); [|discriminate]. cbn [app] in H.
  assert (P : is_property (d0 :: t)) by (split; [discriminate|constructor; assumption]).
  destruct H as [[-> H]|(v & -> & Hv & H)].
  - back H. back_sym H. destruct neg; cbn in A; destruct (props (d0 :: t) None) as [x|] eqn:E; try discriminate A; injection A as <-.
    + exists (d0 :: t ++ [125]). do 3 eexists. split; [cbn [app]; rewrite <- app_assoc; reflexivity|].
      split; [|split; [apply (pe_not_name props (d0 :: t) x P E)|exact H]]. lia.
    + exists (d0 :: t ++ [125]). do 3 eexists. split; [cbn [app]; rewrite <- app_assoc; reflexivity|].
      split; [|split; [apply (pe_name props (d0 :: t) x P E)|exact H]]. lia.
  - back H. back_sym H. destruct neg; cbn in A; destruct (props (d0 :: t) (Some v)) as [x|] eqn:E; try discriminate A; injection A as <-.
    + exists (d0 :: t ++ 61 :: v ++ [125]). do 3 eexists. split; [cbn [app]; rewrite <- app_assoc; cbn [app]; rewrite <- app_assoc; reflexivity|].
      split; [|split; [apply (pe_not_value props (d0 :: t) v x P Hv E)|exact H]]. lia.
    + exists (d0 :: t ++ 61 :: v ++ [125]). do 3 eexists. split; [cbn [app]; rewrite <- app_assoc; cbn [app]; rewrite <- app_assoc; reflexivity|].
      split; [|split; [apply (pe_value props (d0 :: t) v x P Hv E)|exact H]]. lia.
Qed.

(** ** Sets *)
Ltac listed := solve [cbn [controls class_letters class_names position_letters mode_letters escapable In]; repeat first [left; reflexivity | right]].
Ltac packs H := eexists; eexists; split; [reflexivity|]; split; [|split; [|split; [|exact H]]]; [lia|first [discriminate|assumption]|].
Lemma range_escape_back : forall n p i st ts k cf, acc n p i (NT N_backslash_range :: st) (mkCtx ts k) cf ->
  exists u c i' n' p', i = u ++ i' /\ (n' < n)%nat /\ some p' /\ char_escape u c /\ acc n' p' i' st (mkCtx (IRe (RCls (CChar c)) :: ts) k) cf.
Proof.
  intros n p i st ts k cf H. back_nt H.
  1: { back H. apply u_back in H as (u & c & i' & n' & p' & -> & Hn & Hp & Hu & H); [|discriminate].
       exists (117 :: u), c, i'. packs H. exact Hu. }
  1: { back H. apply x_back in H as (u & c & i' & n' & p' & -> & Hn & Hp & Hu & H); [|discriminate].
       exists (120 :: u), c, i'. packs H. exact Hu. }
  1: { do 2 back H. exists [d0], d0, i0. packs H. apply ce_self. exact M. }
  all: do 2 back H; eexists [_], _, i0; packs H; apply ce_control; listed.
Qed.
Lemma set_escape_back : forall n p i x st ts k cf, x = N_e \/ x = N_f -> quiet ts -> acc n p i (NT x :: st) (mkCtx ts k) cf ->
  exists u y i' n' p', i = u ++ i' /\ (n' < n)%nat /\ some p' /\
   ((exists c, y = CChar c /\ char_escape u c /\ acc n' p' i' (NT N_range :: st) (mkCtx (IRe (RCls y) :: ts) k) cf) \/
    ((exists e, u = [e] /\ In (e, y) class_letters) \/ property_escape props u y) /\ acc n' p' i' st (mkCtx (IRe (RCls y) :: ts) k) cf).
Proof.
  intros n p i x st ts k cf Hx Q H.
  assert (C : forall m u y i' n' p', (n' < m)%nat -> (m <= n)%nat -> some p' -> i = u ++ i' ->
    (exists e, u = [e] /\ In (e, y) class_letters) -> acc n' p' i' st (mkCtx (IRe (RCls y) :: ts) k) cf ->
    exists u y i' n' p', i = u ++ i' /\ (n' < n)%nat /\ some p' /\
   ((exists c, y = CChar c /\ char_escape u c /\ acc n' p' i' (NT N_range :: st) (mkCtx (IRe (RCls y) :: ts) k) cf) \/
    ((exists e, u = [e] /\ In (e, y) class_letters) \/ property_escape props u y) /\ acc n' p' i' st (mkCtx (IRe (RCls y) :: ts) k) cf)).
  { intros m u y i' n' p' L1 L2 Hp E Hu K. exists u, y, i', n', p'. split; [assumption|]. split; [lia|]. split; [assumption|]. auto. }
  assert (D : forall m u c i' n' p', (n' < m)%nat -> (m <= n)%nat -> some p' -> i = u ++ i' ->
    char_escape u c -> acc n' p' i' (NT N_range :: st) (mkCtx (IRe (RCls (CChar c)) :: ts) k) cf ->
    exists u y i' n' p', i = u ++ i' /\ (n' < n)%nat /\ some p' /\
   ((exists c, y = CChar c /\ char_escape u c /\ acc n' p' i' (NT N_range :: st) (mkCtx (IRe (RCls y) :: ts) k) cf) \/
    ((exists e, u = [e] /\ In (e, y) class_letters) \/ property_escape props u y) /\ acc n' p' i' st (mkCtx (IRe (RCls y) :: ts) k) cf)).
  { intros m u c i' n' p' L1 L2 Hp E Hu K. exists u, (CChar c), i', n', p'. split; [assumption|]. split; [lia|]. split; [assumption|]. left. eauto. }
  assert (P : forall (neg : bool) m i0, (m < n)%nat -> i = (if neg then 80 else 112) :: 123 :: i0 ->
    acc m (Some 123) i0 (NT N_property_name :: TTerm 125 :: Act (if neg then A_make_property_negative else A_make_property) :: st) (mkCtx ts k) cf ->
    exists u y i' n' p', i = u ++ i' /\ (n' < n)%nat /\ some p' /\
   ((exists c, y = CChar c /\ char_escape u c /\ acc n' p' i' (NT N_range :: st) (mkCtx (IRe (RCls y) :: ts) k) cf) \/
    ((exists e, u = [e] /\ In (e, y) class_letters) \/ property_escape props u y) /\ acc n' p' i' st (mkCtx (IRe (RCls y) :: ts) k) cf)).
  { intros neg m i0 L E K. apply property_back in K as (u & y & i' & n' & -> & Hn & Hu & K); [|assumption].
    exists ((if neg then 80 else 112) :: 123 :: u), y, i', n', (Some 125). split; [assumption|]. split; [lia|]. split; [discriminate|]. auto. }
  destruct Hx as [-> | ->]; back_nt H.
  all: try (do 2 back H; eapply (C n); [ | | | | |exact H]; [lia|lia|discriminate| |eexists; split; [reflexivity|listed]]; reflexivity).
  all: try (do 2 back H; eapply (D n); [ | | | | |exact H]; [lia|lia|discriminate| |apply ce_control; listed]; reflexivity).
  all: try (do 2 back H; eapply (D n); [ | | | | |exact H]; [lia|lia|discriminate| |apply ce_self; exact M]; reflexivity).
  all: try (do 2 back H; eapply (P true); [|reflexivity|exact H]; lia).
  all: try (do 2 back H; eapply (P false); [|reflexivity|exact H]; lia).
  all: back H; first [apply u_back in H as (u & c & i' & n' & p' & -> & Hn & Hp & Hu & H)|apply x_back in H as (u & c & i' & n' & p' & -> & Hn & Hp & Hu & H)];
    [|discriminate]; eapply (D n); [ | | | | |exact H]; [ | | | |exact Hu]; [lia|lia|exact Hp|reflexivity].
Qed.
Lemma second_back : forall n p i st ts k cf, acc n p i (NT N_j :: st) (mkCtx ts k) cf ->
  exists u c i' n' p', i = u ++ i' /\ (n' < n)%nat /\ some p' /\ set_char u c /\ acc n' p' i' (Act A_make_range :: st) (mkCtx (IRe (RCls (CChar c)) :: ts) k) cf.
Proof.
  intros n p i st ts k cf H. back_nt H.
  - back H. apply range_escape_back in H as (u & c & i' & n' & p' & -> & Hn & Hp & Hu & H).
    exists (92 :: u), c, i'. eexists; eexists; split; [reflexivity|]; split; [|split; [|split; [apply sc_escape; exact Hu|exact H]]]; [lia|assumption].
  - do 2 back H. exists [d0], d0, i0. packs H. apply sc_plain. revert M. apply not_in. vm_compute. reflexivity.
  - do 2 back H. exists [d0], d0, i0. packs H. apply sc_plain. revert M. apply not_others_in. vm_compute. reflexivity.
Qed.
Lemma range_back : forall n p i st x ts k cf, acc n p i (NT N_range :: st) (mkCtx (IRe (RCls x) :: ts) k) cf -> some p ->
  exists i' n' p', (n' < n)%nat /\ some p' /\
    (i = i' /\ acc n' p' i' st (mkCtx (IRe (RCls x) :: ts) k) cf \/
     exists a v b, x = CChar a /\ i = 45 :: v ++ i' /\ set_char v b /\ acc n' p' i' st (mkCtx (IRe (RCls (CRange a b)) :: ts) k) cf).
Proof.
  intros n p i st x ts k cf H Hp. back_nt H.
  - exists (d0 :: i0), n0, p. auto.
  - exists [], n0, p. auto.
  - exists (d0 :: i0), n0, p. auto.
  - back H. apply second_back in H as (v & b & i' & n' & p' & -> & Hn & Hp' & Hv & H). back_sym H. destruct p' as [q|]; [|congruence].
    cbn in A. destruct x; try discriminate A. injection A as <-. exists i'. eexists. eexists. split; [|split; [|right; do 3 eexists; split; [reflexivity|split; [reflexivity|split; [exact Hv|exact H]]]]]; [lia|discriminate].
Qed.
Ltac lit := repeat match goal with |- context [codes ?s] => let v := eval vm_compute in (codes s) in change (codes s) with v end; cbn [app]; repeat (rewrite <- app_assoc; cbn [app]).
Ltac try_name H s x := exists (codes s), x; do 3 eexists; split; [lit; reflexivity|]; split; [|split; [|split; [|exact H]]]; [lia|first [discriminate|assumption]|listed].
Ltac some_name H := first
  [ try_name H "alnum"%string alphanum_chars | try_name H "alpha"%string alpha_chars | try_name H "ascii"%string ascii_chars | try_name H "blank"%string (CEnum [32; 9])
  | try_name H "cntrl"%string (CSet [CRange 0 31; CChar 127]) | try_name H "digit"%string digit_chars | try_name H "graph"%string (CRange 33 126)
  | try_name H "lower"%string (CRange 97 122) | try_name H "print"%string (CRange 32 126) | try_name H "punct"%string punct_chars | try_name H "space"%string space_chars
  | try_name H "upper"%string (CRange 65 90) | try_name H "word"%string word_chars | try_name H "xdigit"%string xdigit_chars ].
Lemma class_name_back : forall n p i st ts k cf, acc n p i (NT N_class_named_name :: st) (mkCtx ts k) cf ->
  exists nm x i' n' p', i = nm ++ i' /\ (n' < n)%nat /\ some p' /\ In (nm, x) class_names /\ acc n' p' i' st (mkCtx (IRe (RCls x) :: ts) k) cf.
Proof.
  intros n p i st ts k cf H. back_nt H.
  1-9: do 5 back H; try back H; try back H; some_name H.
  - back H. back_nt H; [do 5 back H; some_name H|]. back H. back_nt H; do 4 back H; some_name H.
  - back H. back_nt H; do 5 back H; some_name H.
Qed.

Lemma named_back : forall n p i st ts k cf, acc n p i (NT N_i :: st) (mkCtx ts k) cf ->
  exists u x i' n' p', i = u ++ i' /\ (n' < n)%nat /\ some p' /\
    (exists nm y, In (nm, y) class_names /\ (u = nm ++ codes ":]" /\ x = y \/ u = 94 :: nm ++ codes ":]" /\ x = CNegate [y])) /\
    acc n' p' i' st (mkCtx (IRe (RCls x) :: ts) k) cf.
Proof.
  intros n p i st ts k cf H.
  assert (G : (exists i0 n', (n' < n)%nat /\ i = 94 :: i0 /\
                acc n' (Some 94) i0 (NT N_class_named_name :: Act A_negate_class_named :: TTerm 58 :: TTerm 93 :: st) (mkCtx ts k) cf) \/
              (exists nm x i' n' p', i = nm ++ i' /\ (n' < n)%nat /\ some p' /\ In (nm, x) class_names /\
                acc n' p' i' (TTerm 58 :: TTerm 93 :: st) (mkCtx (IRe (RCls x) :: ts) k) cf)).
  { back_nt H.
    1: { back H. left. exists i0. eexists. split; [|split; [reflexivity|exact H]]. lia. }
    all: right.
    1: { do 7 back H; some_name H. }
    1-3: do 6 back H; some_name H.
    1: { do 5 back H; some_name H. }
    1-4: do 6 back H; some_name H.
    1: { back H. back_nt H; [do 5 back H; some_name H|]. back H. back_nt H; do 4 back H; some_name H. }
    1: { back H. back_nt H; do 5 back H; some_name H. } }
  destruct G as [(i0 & n' & L & -> & K)|(nm & x & i' & n' & p' & -> & L & Hp & Hx & K)].
  - apply class_name_back in K as (nm & x & i' & n2 & p2 & -> & L2 & Hp2 & Hx & K). destruct p2 as [q|]; [|congruence].
    back K. back K. back K. exists (94 :: nm ++ codes ":]"). do 4 eexists. split; [lit; reflexivity|]. split; [|split; [|split; [|exact K]]]; [lia|discriminate|].
    exists nm, x. auto.
  - back K. back K. exists (nm ++ codes ":]"). do 4 eexists. split; [lit; reflexivity|]. split; [|split; [|split; [|exact K]]]; [lia|discriminate|].
    exists nm, x. auto.
Qed.
Lemma no_char_class : forall nm y, In (nm, y) class_names -> forall a, y <> CChar a.
Proof. intros nm y H a. cbn [class_names In] in H. repeat (destruct H as [H|H]; [injection H as <- <-; discriminate|]). destruct H. Qed.
Lemma item_back : forall n p i x l st ts k cf, In (x, l) set_places -> quiet ts -> hd_error i <> Some 93 -> (x = N_c -> hd_error i <> Some 94) ->
  acc n p i (NT x :: st) (mkCtx ts k) cf ->
  exists u y i' n' p', i = u ++ i' /\ (n' < n)%nat /\ some p' /\ set_item props u y /\ acc n' p' i' (l ++ st) (mkCtx (IRe (RCls y) :: ts) k) cf.
Proof.
  intros n p i x l st ts k cf Hx Q N93 N94 H.
  (* a character, perhaps the first of a range *)
  assert (R : forall m u c i' p', (m < n)%nat -> some p' -> i = u ++ i' -> set_char u c ->
    acc m p' i' (NT N_range :: l ++ st) (mkCtx (IRe (RCls (CChar c)) :: ts) k) cf ->
    exists u y i' n' p', i = u ++ i' /\ (n' < n)%nat /\ some p' /\ set_item props u y /\ acc n' p' i' (l ++ st) (mkCtx (IRe (RCls y) :: ts) k) cf).
  { intros m u c i' p' L Hp E Hu K. apply range_back in K as (i2 & n2 & p2 & L2 & Hp2 & K); [|assumption].
    destruct K as [[-> K]|(a & v & b & Ea & -> & Hv & K)].
    - exists u, (CChar c), i2, n2, p2. split; [assumption|]. split; [lia|]. split; [assumption|]. split; [apply si_char; assumption|exact K].
    - injection Ea as <-. exists (u ++ 45 :: v), (CRange c b), i2, n2, p2. split; [rewrite E, <- app_assoc; reflexivity|]. split; [lia|]. split; [assumption|].
      split; [apply si_range; assumption|exact K]. }
  (* an escape *)
  assert (E : forall m y i0, (m < n)%nat -> y = N_e \/ y = N_f -> i = 92 :: i0 -> acc m (Some 92) i0 (NT y :: l ++ st) (mkCtx ts k) cf ->
    exists u y i' n' p', i = u ++ i' /\ (n' < n)%nat /\ some p' /\ set_item props u y /\ acc n' p' i' (l ++ st) (mkCtx (IRe (RCls y) :: ts) k) cf).
  { intros m y i0 L Hy Ei K. apply set_escape_back in K as (u & z & i' & n' & p' & -> & Hn & Hp & K); [|assumption|assumption].
    destruct K as [(c & -> & Hu & K)|[Hu K]].
    - apply (R n' (92 :: u) c i' p'); [lia|assumption|assumption|apply sc_escape; assumption|exact K].
    - exists (92 :: u), z, i', n', p'. split; [assumption|]. split; [lia|]. split; [assumption|]. split; [|exact K].
      destruct Hu as [(e & -> & He)|Hu]; [apply si_class; assumption|apply si_property; assumption]. }
  (* a named class *)
  assert (Nm : forall m i0, (m < n)%nat -> i = 91 :: 58 :: i0 -> acc m (Some 58) i0 (NT N_i :: NT N_range :: l ++ st) (mkCtx ts k) cf ->
    exists u y i' n' p', i = u ++ i' /\ (n' < n)%nat /\ some p' /\ set_item props u y /\ acc n' p' i' (l ++ st) (mkCtx (IRe (RCls y) :: ts) k) cf).
  { intros m i0 L Ei K. apply named_back in K as (u & z & i' & n' & p' & -> & Hn & Hp & (nm & y & Hy & Hu) & K).
    apply range_back in K as (i2 & n2 & p2 & L2 & Hp2 & K); [|assumption].
    destruct K as [[-> K]|(a & v & b & Ea & _)].
    2: { exfalso. destruct Hu as [[_ ->]|[_ ->]]; [apply (no_char_class nm y Hy a); assumption|discriminate]. }
    exists (91 :: 58 :: u), z, i2, n2, p2. split; [assumption|]. split; [lia|]. split; [assumption|]. split; [|exact K].
    destruct Hu as [[-> ->]|[-> ->]]; [apply (si_named props nm y Hy)|apply (si_not_named props nm y Hy)]. }
  cbn [set_places In] in Hx. destruct Hx as [X|[X|[X|[]]]]; injection X as <- <-; cbn [app] in *; back_nt H.
  all: try (exfalso; apply N93; reflexivity).
  all: try (exfalso; apply (N94 eq_refl); reflexivity).
  all: try (do 2 back H; eapply Nm; [|reflexivity|exact H]; lia).
  all: try (back H; eapply E; [ | | |exact H]; [lia|auto|reflexivity]).
  all: do 2 back H; eapply (R _ [d0]); [ | | | |exact H]; [lia|discriminate|reflexivity|]; apply sc_plain; revert M; first [apply not_others_in; vm_compute; reflexivity|apply not_in; vm_compute; reflexivity].
Qed.
Lemma items_back : forall n p i st l ts k cf, acc n p i (NT N_set2b :: st) (mkCtx (IRe (RCls (CSet l)) :: ts) k) cf -> some p ->
  exists v items i' n' p', i = v ++ i' /\ (n' < n)%nat /\ some p' /\ set_items props v items /\
    acc n' p' i' st (mkCtx (IRe (RCls (CSet (fold_left add_item items l))) :: ts) k) cf.
Proof.
  induction n as [n IH] using lt_wf_ind. intros p i st l ts k cf H Hp.
  destruct (Z.eq_dec (hd 0 i) 93) as [E|E].
  - assert (R : rule N_set2b (Some 93) = Push []) by (vm_compute; reflexivity).
    destruct n as [|n]; [discriminate H|]. unfold acc in H. cbn [PatternRead.mrun] in H. destruct i as [|c i]; [discriminate E|]. cbn in E. subst c.
    cbn [hd_error] in H. rewrite R in H. exists [], [], (93 :: i), n, p. split; [reflexivity|]. split; [lia|]. split; [assumption|]. split; [constructor|exact H].
  - apply item_back with (l := [Act A_set_combine; NT N_set2b]) in H as (u & y & i' & n' & p' & -> & Hn & Hp' & Hu & H);
      [|cbn; auto|exact I|destruct i; cbn in *; congruence|discriminate].
    destruct p' as [q|]; [|congruence]. cbn [app] in H. back H. destruct (IH n0 ltac:(lia) _ _ _ _ _ _ _ H ltac:(discriminate)) as (v & items & i2 & n2 & p2 & -> & L2 & Hp2 & Hv & K).
    exists (u ++ v), (y :: items), i2, n2, p2. split; [apply app_assoc|]. split; [lia|]. split; [assumption|]. split; [constructor; assumption|exact K].
Qed.
Lemma set_back : forall n p i st ts k cf, acc n p i (NT N_c :: st) (mkCtx ts k) cf -> quiet ts ->
  exists u r i' n', i = u ++ i' /\ (n' < n)%nat /\ (forall j, leaf_text props j (91 :: u) r) /\ acc n' (Some 93) i' st (mkCtx (IRe r :: ts) k) cf.
Proof.
  intros n p i st ts k cf H Q.
  destruct (Z.eq_dec (hd 0 i) 94) as [E|E].
  - destruct i as [|c i]; [discriminate E|]. cbn in E. subst c. back_nt H.
    1,2: exfalso; vm_compute in M; intuition discriminate.
    back H. destruct (Z.eq_dec (hd 0 i) 93) as [E|E].
    + destruct i as [|c i]; [discriminate E|]. cbn in E. subst c. back_nt H.
      * exfalso; vm_compute in M; intuition discriminate.
      * exfalso. apply M. apply mem_in. vm_compute. reflexivity.
      * back H. back H. back H. exists [94; 93]. do 3 eexists. split; [reflexivity|]. split; [|split; [|exact H]]; [lia|].
        intros j. apply (lt_not_set props j [] []). constructor.
    + apply item_back with (l := [Act A_set_start; NT N_set2b]) in H as (u & y & i' & n' & p' & -> & Hn & Hp' & Hu & H);
        [|cbn; auto|exact Q|destruct i; cbn in *; congruence|discriminate].
      destruct p' as [q|]; [|congruence]. cbn [app] in H. back H. apply items_back in H as (v & items & i2 & n9 & p2 & -> & L2 & Hp2 & Hv & H); [|discriminate].
      destruct p2 as [q2|]; [|congruence]. back H. back H.
      exists (94 :: u ++ v ++ [93]). do 3 eexists. split; [cbn [app]; rewrite <- !app_assoc; reflexivity|]. split; [|split; [|exact H]]; [lia|].
      intros j. pose proof (lt_not_set props j (u ++ v) (y :: items) (sis_cons _ _ _ _ _ Hu Hv)) as T. rewrite <- app_assoc in T. exact T.
  - assert (X : hd_error i <> Some 93) by (intros C; destruct i as [|c i]; [discriminate|]; cbn in C; injection C as ->; back_nt H; try (exfalso; vm_compute in M; intuition discriminate); apply M; apply mem_in; vm_compute; reflexivity).
    assert (Y : hd_error i <> Some 94) by (destruct i; cbn in *; congruence).
    apply item_back with (l := [Act A_set_start; NT N_set2b; Act A_set_make; TTerm 93]) in H as (u & y & i' & n' & p' & -> & Hn & Hp' & Hu & H);
        [|cbn; auto|exact Q|exact X|intros; exact Y].
    destruct p' as [q|]; [|congruence]. cbn [app] in H. back H. apply items_back in H as (v & items & i2 & n9 & p2 & -> & L2 & Hp2 & Hv & H); [|discriminate].
    destruct p2 as [q2|]; [|congruence]. back H. back H.
    exists (u ++ v ++ [93]). do 3 eexists. split; [rewrite <- !app_assoc; reflexivity|]. split; [|split; [|exact H]]; [lia|].
    intros j. pose proof (lt_set props j (u ++ v) (y :: items) (sis_cons _ _ _ _ _ Hu Hv) ltac:(discriminate)) as T. rewrite <- app_assoc in T. apply T.
    destruct (item_head props u y [] Hu) as [_ Z0]. destruct u; [congruence|exact Y].
Qed.

(** ** Atoms behind a backslash *)
(** [ts'] is what is left of [ts]: all of it, and then [R] holds; or the name of the group has been used up. *)
Definition kept (R : Prop) (ts ts' : list item) : Prop := ts' = ts /\ R \/ named ts = true /\ ts' = tl ts.
Lemma backslash_back : forall n p i st ts k cf, acc n p i (NT N_backslash :: st) (mkCtx ts k) cf -> quiet ts ->
  exists u r i' n' p' ts', i = u ++ i' /\ (n' < n)%nat /\ some p' /\ kept (atom_text props B (named ts) k (92 :: u) r k) ts ts' /\
    acc n' p' i' st (mkCtx (IRe r :: ts') k) cf.
Proof.
  intros n p i st ts k cf H Q.
  assert (F : forall m u r i' p', (m < n)%nat -> i = u ++ i' -> some p' -> leaf_text props k (92 :: u) r -> acc m p' i' st (mkCtx (IRe r :: ts) k) cf ->
    exists u r i' n' p' ts', i = u ++ i' /\ (n' < n)%nat /\ some p' /\ kept (atom_text props B (named ts) k (92 :: u) r k) ts ts' /\
    acc n' p' i' st (mkCtx (IRe r :: ts') k) cf).
  { intros m u r i' p' L E Hp Hu K. exists u, r, i', m, p', ts. split; [assumption|]. split; [assumption|]. split; [assumption|].
    split; [left; split; [reflexivity|apply at_leaf; assumption]|exact K]. }
  assert (P : forall (neg : bool) m i0, (m < n)%nat -> i = (if neg then 80 else 112) :: 123 :: i0 ->
    acc m (Some 123) i0 (NT N_property_name :: TTerm 125 :: Act (if neg then A_make_property_negative else A_make_property) :: st) (mkCtx ts k) cf ->
    exists u r i' n' p' ts', i = u ++ i' /\ (n' < n)%nat /\ some p' /\ kept (atom_text props B (named ts) k (92 :: u) r k) ts ts' /\
    acc n' p' i' st (mkCtx (IRe r :: ts') k) cf).
  { intros neg m i0 L E K. apply property_back in K as (u & y & i' & n' & -> & Hn & Hu & K); [|assumption].
    eapply (F n' ((if neg then 80 else 112) :: 123 :: u)); [ | | | |exact K]; [lia|exact E|discriminate|apply lt_property; exact Hu]. }
  back_nt H.
  all: try (do 2 back H; eapply (F _ [_]); [ | | | |exact H]; [lia|reflexivity|discriminate|apply lt_class; listed]).
  all: try (do 2 back H; eapply (F _ [_]); [ | | | |exact H]; [lia|reflexivity|discriminate|apply lt_position; listed]).
  all: try (do 2 back H; eapply (F _ [_]); [ | | | |exact H]; [lia|reflexivity|discriminate|apply lt_escape; apply ce_control; listed]).
  all: try (do 2 back H; eapply (F _ [_]); [ | | | |exact H]; [lia|reflexivity|discriminate|apply lt_escape; apply ce_self; exact M]).
  all: try (do 2 back H; eapply (P true); [ | |exact H]; [lia|reflexivity]).
  all: try (do 2 back H; eapply (P false); [ | |exact H]; [lia|reflexivity]).
  - (* \1 .. \9 *) do 2 back H. back_sym H. apply set3_digit in M. cbn in A. destruct (N.ltb_spec (N.of_nat k) (Z.to_N (d0 - 48))); [discriminate|].
    injection A as <-. rewrite Z_N_nat in H. eapply (F _ [_]); [ | | | |exact H]; [lia|reflexivity|discriminate|]. apply lt_digit; lia.
  - (* \g{ *) do 2 back H. back_nt H.
    + do 2 back H. apply digits_back in H as (t & i' & n' & p' & -> & Hn & Hp & Ht & H); [|discriminate]. back H. back_sym H. cbn in A.
      apply set15_digit in M. match type of A with context [if ?b then _ else _] => destruct b eqn:E0; [discriminate A|] end. injection A as <-.
      assert (Nu : is_number (d0 :: t)) by (split; [discriminate|constructor; assumption]). rewrite <- value_run in H, E0 by assumption. apply N.ltb_ge in E0.
      eapply (F _ (103 :: 123 :: d0 :: t ++ [125])); [ | | | |exact H]; [lia|lit; reflexivity|discriminate|]. apply (lt_number props k (d0 :: t) Nu E0).
    + back H. apply number_back in H as (l & i' & n' & p' & -> & Hn & Hp & Hl & H). back H. back_sym H. cbn in A.
      match type of A with context [if ?b then _ else _] => destruct b eqn:E0; [discriminate A|] end. injection A as <-. apply N.ltb_ge in E0.
      eapply (F _ (103 :: 123 :: 45 :: l ++ [125])); [ | | | |exact H]; [lia|lit; reflexivity|discriminate|].
      apply (lt_relative props k l Hl E0).
    + back H. destruct (named ts) eqn:Nm.
      * destruct ts as [|[] ts]; try discriminate Nm. back H. apply names_back in H as (t & i' & n' & p' & -> & Hn & Hp & Ht & H); [|discriminate].
        do 2 back H. exists (103 :: 123 :: d0 :: t ++ [125]). do 5 eexists. split; [lit; reflexivity|]. split; [|split; [|split; [|exact H]]]; [lia|discriminate|].
        right. auto.
      * back_sym H. rewrite push_name_fresh in A by assumption. injection A as <-.
        apply names_back in H as (t & i' & n' & p' & -> & Hn & Hp & Ht & H); [|discriminate].
        do 2 back H. exists (103 :: 123 :: d0 :: t ++ [125]). do 5 eexists. split; [lit; reflexivity|]. split; [|split; [|split; [|exact H]]]; [lia|discriminate|].
        left. split; [reflexivity|]. apply (at_name props B k (d0 :: t)). exists d0, t. split; [reflexivity|]. split; [apply set8_start; assumption|assumption].
  - back H. apply u_back in H as (u & c & i' & n' & p' & -> & Hn & Hp & Hu & H); [|discriminate].
    eapply (F _ (117 :: u)); [ | | | |exact H]; [lia|reflexivity|assumption|apply lt_escape; assumption].
  - back H. apply x_back in H as (u & c & i' & n' & p' & -> & Hn & Hp & Hu & H); [|discriminate].
    eapply (F _ (120 :: u)); [ | | | |exact H]; [lia|reflexivity|assumption|apply lt_escape; assumption].
Qed.

(** ** Quantifiers *)
Lemma mod_back : forall n p i st q x y ts k cf, quant_base B true q x y -> acc n p i (NT N_mod :: st) (mkCtx (IRe y :: ts) k) cf -> some p ->
  exists q' y' i' n' p', i = q' ++ i' /\ (n' < n)%nat /\ some p' /\ quant B (q ++ q') x y' /\ acc n' p' i' st (mkCtx (IRe y' :: ts) k) cf.
Proof.
  intros n p i st q x y ts k cf Hq H Hp. back_nt H.
  1,2,3: exists [], y; do 3 eexists; (split; [reflexivity|]); (split; [|split; [|split; [|exact H]]]); [lia|assumption|rewrite app_nil_r; eapply qu_greedy; eassumption].
  - back H. back_sym H. cbn in A. destruct (b_lazy B y) as [y'|] eqn:E; [|discriminate]. injection A as <-.
    exists [63], y'. do 3 eexists. split; [reflexivity|]. split; [|split; [|split; [|exact H]]]; [lia|discriminate|eapply qu_lazy; eassumption].
  - back H. back_sym H. cbn in A. destruct (b_poss B y) as [y'|] eqn:E; [|discriminate]. injection A as <-.
    exists [43], y'. do 3 eexists. split; [reflexivity|]. split; [|split; [|split; [|exact H]]]; [lia|discriminate|eapply qu_poss; eassumption].
Qed.
Lemma quant_back : forall n p i st x ts k cf, acc n p i (NT N_repeat :: st) (mkCtx (IRe x :: ts) k) cf -> some p ->
  exists q y i' n' p', i = q ++ i' /\ (n' < n)%nat /\ some p' /\ quant B q x y /\ acc n' p' i' st (mkCtx (IRe y :: ts) k) cf.
Proof.
  intros n p i st x ts k cf H Hp.
  assert (G : forall m q y i0 p0, (m < n)%nat -> i = q ++ i0 -> some p0 -> quant_base B true q x y -> acc m p0 i0 (NT N_mod :: st) (mkCtx (IRe y :: ts) k) cf ->
    exists q y i' n' p', i = q ++ i' /\ (n' < n)%nat /\ some p' /\ quant B q x y /\ acc n' p' i' st (mkCtx (IRe y :: ts) k) cf).
  { intros m q y i0 p0 L E Hp0 Hq K. eapply mod_back in K as (q' & y' & i' & n' & p' & -> & Hn & Hp' & Hq' & K); [|eassumption|assumption].
    exists (q ++ q'), y', i', n', p'. split; [rewrite <- app_assoc; assumption|]. split; [lia|]. auto. }
  back_nt H.
  1,2,3: exists [], x; do 3 eexists; (split; [reflexivity|]); (split; [|split; [|split; [|exact H]]]); [lia|assumption|constructor].
  - do 2 back H. eapply (G _ [63]); [ | | | |exact H]; [lia|reflexivity|discriminate|constructor].
  - back H. apply number_back in H as (l & i' & n' & p' & -> & Hn & Hp' & Hl & H). destruct p' as [p'|]; [|congruence]. back_nt H.
    + back H. back_nt H.
      * apply number_back in H as (l' & i'' & n'' & p'' & E & Hn'' & Hp'' & Hl' & H). destruct p'' as [p''|]; [|congruence]. do 2 back H.
        eapply (G _ (123 :: l ++ 44 :: l' ++ [125])); [ | | | |exact H]; [lia| |discriminate|apply (qb_between B l l' x Hl Hl')].
        lit. rewrite E. reflexivity.
      * do 2 back H. eapply (G _ (123 :: l ++ 44 :: [125])); [ | | | |exact H]; [lia|lit; reflexivity|discriminate|apply (qb_at_least B l x Hl)].
    + do 2 back H. exists (123 :: l ++ [125]). do 4 eexists. split; [lit; reflexivity|]. split; [|split; [|split; [|exact H]]]; [lia|discriminate|].
      apply (qu_greedy B false). apply (qb_exactly B l x Hl).
  - do 2 back H. eapply (G _ [43]); [ | | | |exact H]; [lia|reflexivity|discriminate|constructor].
  - do 2 back H. eapply (G _ [42]); [ | | | |exact H]; [lia|reflexivity|discriminate|constructor].
Qed.

(** ** Composed patterns *)
(** What may begin an atom. *)
Definition opens (x : nt) (i : list Z) : Prop := exists c i0, i = c :: i0 /\ ~ In c [41; 124] /\ (x = N_block -> c <> 63).
Lemma lead_back : forall n p i x t st c cf, In (x, t) leads -> opens x i -> acc n p i (NT x :: st) c cf ->
  exists ch i0 n', i = ch :: i0 /\ (n' < n)%nat /\
   ((ch = 92 /\ acc n' (Some 92) i0 (NT N_backslash :: behind_atom t ++ st) c cf) \/
    (ch = 91 /\ acc n' (Some 91) i0 (NT N_c :: behind_atom t ++ st) c cf) \/
    (ch = 40 /\ acc n' (Some 40) i0 (Act A_prepare_capture :: NT N_block :: behind_atom t ++ st) c cf) \/
    (exists a, In (ch, a) [(94, A_push_assert_begin); (36, A_push_assert_end); (46, A_push_character_anything)] /\
       acc n' (Some ch) i0 (Act a :: behind_atom t ++ st) c cf) \/
    (~ In ch metas /\ acc n' (Some ch) i0 (Act A_push_character :: behind_atom t ++ st) c cf)).
Proof.
  intros n p i x t st c cf Hx (ch & i0 & -> & Hc & Hb) H. exists ch, i0.
  assert (E : forall l m, In (m, Push l) (rules x) -> look (ch :: i0) m -> exists w, l = TAny :: w ++ behind_atom t /\
     ((ch = 92 /\ w = [NT N_backslash]) \/ (ch = 91 /\ w = [NT N_c]) \/ (ch = 40 /\ w = [Act A_prepare_capture; NT N_block]) \/
      (exists a, In (ch, a) [(94, A_push_assert_begin); (36, A_push_assert_end); (46, A_push_character_anything)] /\ w = [Act a]) \/
      (~ In ch metas /\ w = [Act A_push_character]))).
  { clear H. intros l m I V. cbn [leads In] in Hx. repeat (destruct Hx as [X|Hx]; [injection X as <- <-|]); try contradiction;
      cbn [rules In] in I; repeat (destruct I as [I|I]; [first [discriminate I|injection I as <- <-]|]); try contradiction; cbn [look] in V;
      try discriminate V.
    all: try (destruct V as (i1 & V); injection V as -> _; first
      [ exfalso; apply Hc; cbn; tauto
      | exfalso; apply (Hb eq_refl); reflexivity
      | eexists [_]; split; [reflexivity|]; auto; fail
      | eexists [_; _]; split; [reflexivity|]; auto; fail
      | eexists [_]; split; [reflexivity|]; right; right; right; left; eexists; split; [|reflexivity]; cbn; auto; fail ]).
    all: destruct V as (d & i1 & V & M); injection V as <- _; first
      [ exfalso; apply Hc; vm_compute in M; cbn; tauto
      | exists [Act A_push_character]; split; [reflexivity|]; right; right; right; right; split; [|reflexivity]; revert M;
        first [apply not_others_in; vm_compute; reflexivity|apply not_in; vm_compute; reflexivity] ]. }
  apply acc_nt in H as (n' & m & l & L & I & V & H). destruct (E l m I V) as (w & -> & W). cbn [app] in H. back H.
  exists n0. split; [reflexivity|]. split; [lia|]. rewrite <- app_assoc in H.
  destruct W as [[-> ->]|[[-> ->]|[[-> ->]|[(a & Ha & ->)|[Hm ->]]]]]; cbn [app] in H; eauto 8.
Qed.

Definition alt_back (n : nat) : Prop := forall x t w p i st ts k cf, In (x, t, w) alt_places -> quiet ts -> (some p \/ ts = [] /\ x = N_s) ->
  (x = N_block -> hd_error i <> Some 63) -> acc n p i (NT x :: st) (mkCtx ts k) cf ->
  exists u r i' n' p' ts' k', i = u ++ i' /\ (n' < n)%nat /\ (some p -> some p') /\ kept (alt_text props B (named ts) k u r k') ts ts' /\
    acc n' p' i' (t ++ st) (mkCtx (IRe r :: ts') k') cf.

(** The content of [(?: ... )] and its relatives. *)
Lemma content_back : forall n, alt_back n -> forall p i st ts k cf, quiet ts -> some p ->
  acc n p i (NT N_content_in_capture :: st) (mkCtx ts k) cf ->
  exists u r i' n' p' ts' k', i = u ++ i' /\ (n' < n)%nat /\ some p' /\ kept (alt_text props B (named ts) k u r k') ts ts' /\
    acc n' p' i' st (mkCtx (IRe r :: ts') k') cf.
Proof.
  intros n A p i st ts k cf Q Hp H.
  destruct (A N_content_in_capture [] N_content_or_empty p i st ts k cf ltac:(cbn; auto) Q (or_introl Hp) ltac:(discriminate) H)
    as (u & r & i' & n' & p' & ts' & k' & E & L & Hp' & K & C). exists u, r, i', n', p', ts', k'. auto 6.
Qed.
Ltac take_content H IH :=
  let u := fresh "u" in let r := fresh "r" in let i' := fresh "i'" in let n' := fresh "n'" in let p' := fresh "p'" in let ts' := fresh "ts'" in let k' := fresh "k'" in
  let Hn := fresh "Hn" in let Hp := fresh "Hp" in let Kp := fresh "Kp" in let Ei := fresh "Ei" in
  apply content_back in H as (u & r & i' & n' & p' & ts' & k' & Ei & Hn & Hp & Kp & H); [ | apply IH; lia | first [exact I|assumption] | discriminate ];
  destruct p' as [p'|]; [|congruence]; first [subst|idtac].
Lemma kept_plain : forall R ts ts', named ts = false -> kept R ts ts' -> ts' = ts /\ R.
Proof. intros R ts ts' N [K|[K _]]; [exact K|congruence]. Qed.
Lemma paren_back : forall n, (forall m, (m <= n)%nat -> alt_back m) -> forall p i st ts k cf, quiet ts -> some p ->
  acc n p i (NT N_block :: st) (mkCtx (ICap (S k) :: ts) (S k)) cf ->
  exists u r i' n' p' ts' k', i = u ++ i' /\ (n' < n)%nat /\ some p' /\ kept (atom_text props B (named ts) k (40 :: u) r k') ts ts' /\
    acc n' p' i' st (mkCtx (IRe r :: ts') k') cf.
Proof.
  intros n IH p i st ts k cf Q Hp H.
  assert (G : forall m u r i' p' ts' k', i = u ++ i' -> (m < n)%nat -> some p' -> kept (atom_text props B (named ts) k (40 :: u) r k') ts ts' ->
    acc m p' i' st (mkCtx (IRe r :: ts') k') cf ->
    exists u r i' n' p' ts' k', i = u ++ i' /\ (n' < n)%nat /\ some p' /\ kept (atom_text props B (named ts) k (40 :: u) r k') ts ts' /\
    acc n' p' i' st (mkCtx (IRe r :: ts') k') cf).
  { intros m u r i' p' ts' k' E L Hp' K C. exists u, r, i', m, p', ts', k'. auto 6. }
  destruct (Z.eq_dec (hd 0 i) 63) as [E|E].
  2: { assert (E' : hd_error i <> Some 63) by (destruct i; cbn in *; congruence).
       destruct (IH n ltac:(lia) N_block [Act A_make_capture; TTerm 41] N_content_or_empty p i st (ICap (S k) :: ts) (S k) cf ltac:(cbn; auto) I (or_introl Hp) ltac:(intros; exact E') H)
         as (u & r & i' & n' & p' & ts' & k' & -> & L & Hp' & K & C).
       apply kept_plain in K as [-> K]; [|reflexivity]. specialize (Hp' Hp). destruct p' as [p'|]; [|congruence]. cbn [app] in C. do 2 back C.
       eapply (G _ (u ++ [41])); [ | | | |exact C]; [rewrite <- app_assoc; reflexivity|lia|discriminate|].
       left. split; [reflexivity|]. apply at_capture. exact K. }
  destruct i as [|c i]; [discriminate E|]. cbn in E. subst c.
  assert (R : exists n', (n' < n)%nat /\ acc n' (Some 63) i (NT N_d :: st) (mkCtx (ICap (S k) :: ts) (S k)) cf).
  { assert (R : rule N_block (Some 63) = Push [TAny; NT N_d]) by (vm_compute; reflexivity).
    destruct n as [|n]; [discriminate H|]. unfold acc in H. cbn [PatternRead.mrun hd_error] in H. rewrite R in H. cbn [app] in H.
    apply acc_any in H as (n' & L & H). exists n'. split; [lia|exact H]. }
  destruct R as (m & Lm & K). clear H. back_nt K.
  1-4: do 2 back K; back_nt K; [do 2 back K..|]; back K;
    (eapply (G _ [63; _; 41]); [ | | | |exact K]; [reflexivity|lia|discriminate|]; left; split; [reflexivity|apply at_mode; listed]).
  - (* (?< *) back K. back_nt K.
    + back_nt K. back K. back K. apply names_back in K as (t & i' & n' & p' & Ei & Hn & Hp' & Ht & K); [|discriminate]. subst. back K.
      take_content K IH. destruct Kp as [[-> Kp]|[_ ->]]; [|cbn [tl] in K; back_sym K; cbn in A; discriminate A].
      do 2 back K. eapply (G _ (63 :: 60 :: d0 :: t ++ 62 :: u ++ [41])); [ | | | |exact K]; [ |lia|discriminate|].
      { lit. reflexivity. }
      left. split; [reflexivity|]. apply (at_named props B (named ts) k (d0 :: t) u r k'); [|exact Kp].
      exists d0, t. split; [reflexivity|]. split; [apply set8_start; assumption|assumption].
    + do 3 back K. take_content K IH. apply kept_plain in Kp as [-> Kp]; [|reflexivity]. back_sym K. cbn in A.
      destruct (b_behind B true r) as [r'|] eqn:Eb; [|discriminate]. injection A as <-. back K.
      eapply (G _ (63 :: 60 :: 33 :: u ++ [41])); [ | | | |exact K]; [lit; reflexivity|lia|discriminate|].
      left. split; [reflexivity|]. eapply (at_not_behind props B (named ts) k u r); eassumption.
    + do 3 back K. take_content K IH. apply kept_plain in Kp as [-> Kp]; [|reflexivity]. back_sym K. cbn in A.
      destruct (b_behind B false r) as [r'|] eqn:Eb; [|discriminate]. injection A as <-. back K.
      eapply (G _ (63 :: 60 :: 61 :: u ++ [41])); [ | | | |exact K]; [lit; reflexivity|lia|discriminate|].
      left. split; [reflexivity|]. eapply (at_behind props B (named ts) k u r); eassumption.
  - (* (?: *) do 2 back K. take_content K IH. back K.
    eapply (G _ (63 :: 58 :: u ++ [41])); [ | | | |exact K]; [lit; reflexivity|lia|discriminate|].
    destruct Kp as [[-> Kp]|Kp]; [left|right; exact Kp]. split; [reflexivity|]. apply (at_group props B (named ts) k u r k' Kp).
  - (* (?> *) do 3 back K. take_content K IH. apply kept_plain in Kp as [-> Kp]; [|reflexivity]. do 2 back K.
    eapply (G _ (63 :: 62 :: u ++ [41])); [ | | | |exact K]; [lit; reflexivity|lia|discriminate|].
    left. split; [reflexivity|]. apply (at_atomic props B (named ts) k u r k' Kp).
  - (* (?! *) do 3 back K. take_content K IH. apply kept_plain in Kp as [-> Kp]; [|reflexivity]. do 2 back K.
    eapply (G _ (63 :: 33 :: u ++ [41])); [ | | | |exact K]; [lit; reflexivity|lia|discriminate|].
    left. split; [reflexivity|]. apply (at_not_ahead props B (named ts) k u r k' Kp).
  - (* (?= *) do 3 back K. take_content K IH. apply kept_plain in Kp as [-> Kp]; [|reflexivity]. do 2 back K.
    eapply (G _ (63 :: 61 :: u ++ [41])); [ | | | |exact K]; [lit; reflexivity|lia|discriminate|].
    left. split; [reflexivity|]. apply (at_ahead props B (named ts) k u r k' Kp).
Qed.

Lemma atom_back : forall n, (forall m, (m < n)%nat -> alt_back m) -> forall p i x t st ts k cf, In (x, t) leads -> opens x i -> quiet ts ->
  acc n p i (NT x :: st) (mkCtx ts k) cf ->
  exists u r i' n' p' ts' k', i = u ++ i' /\ (n' < n)%nat /\ some p' /\ kept (atom_text props B (named ts) k u r k') ts ts' /\
    acc n' p' i' (behind_atom t ++ st) (mkCtx (IRe r :: ts') k') cf.
Proof.
  intros n IH p i x t st ts k cf Hx Ho Q H. eapply lead_back in H as (ch & i0 & n' & -> & L & H); [|eassumption|assumption].
  assert (F : forall m u r i' p', (m < n)%nat -> ch :: i0 = u ++ i' -> some p' -> leaf_text props k u r -> acc m p' i' (behind_atom t ++ st) (mkCtx (IRe r :: ts) k) cf ->
    exists u r i' n' p' ts' k', ch :: i0 = u ++ i' /\ (n' < n)%nat /\ some p' /\ kept (atom_text props B (named ts) k u r k') ts ts' /\
    acc n' p' i' (behind_atom t ++ st) (mkCtx (IRe r :: ts') k') cf).
  { intros m u r i' p' L' E Hp Hu K. exists u, r, i', m, p', ts, k. split; [assumption|]. split; [assumption|]. split; [assumption|].
    split; [left; split; [reflexivity|apply at_leaf; assumption]|exact K]. }
  destruct H as [[-> H]|[[-> H]|[[-> H]|[(a & Ha & H)|[Hm H]]]]].
  - apply backslash_back in H as (u & r & i' & n2 & p' & ts' & -> & L2 & Hp & K & H); [|assumption].
    exists (92 :: u), r, i', n2, p', ts', k. split; [reflexivity|]. split; [lia|]. auto.
  - apply set_back in H as (u & r & i' & n2 & -> & L2 & K & H); [|assumption].
    eapply (F n2 (91 :: u)); [ | | | |exact H]; [lia|reflexivity|discriminate|apply K].
  - back H. apply paren_back in H as (u & r & i' & n2 & p' & ts' & k' & -> & L2 & Hp & K & H); [|intros m Lm; apply IH; lia|assumption|discriminate].
    exists (40 :: u), r, i', n2, p', ts', k'. split; [reflexivity|]. split; [lia|]. auto.
  - cbn [In] in Ha. destruct Ha as [E|[E|[E|[]]]]; injection E as <- <-; back H; (eapply (F _ [_]); [ | | | |exact H]; [lia|reflexivity|discriminate|constructor]).
  - back H. eapply (F _ [_]); [ | | | |exact H]; [lia|reflexivity|discriminate|constructor; assumption].
Qed.
Lemma quantified_back : forall n, (forall m, (m < n)%nat -> alt_back m) -> forall p i x t st ts k cf, In (x, t) leads -> opens x i -> quiet ts ->
  acc n p i (NT x :: st) (mkCtx ts k) cf ->
  exists u r i' n' p' ts' k', i = u ++ i' /\ (n' < n)%nat /\ some p' /\ kept (item_text props B (named ts) k u r k') ts ts' /\
    acc n' p' i' (NT N_string2 :: t ++ st) (mkCtx (IRe r :: ts') k') cf.
Proof.
  intros n IH p i x t st ts k cf Hx Ho Q H.
  eapply atom_back in H as (u & r & i' & n' & p' & ts' & k' & -> & L & Hp & K & H); [|eassumption|eassumption|assumption|assumption].
  cbn [behind_atom app] in H. apply quant_back in H as (q & y & i2 & n2 & p2 & -> & L2 & Hp2 & Hq & H); [|assumption].
  exists (u ++ q), y, i2, n2, p2, ts', k'. split; [apply app_assoc|]. split; [lia|]. split; [assumption|]. split; [|exact H].
  destruct K as [[-> K]|K]; [left; split; [reflexivity|]; econstructor; eassumption|right; exact K].
Qed.
(** Where no further atom begins. *)
Lemma opens_dec : forall x i, opens x i \/ i = [] \/ hd_error i = Some 41 \/ hd_error i = Some 124 \/ (x = N_block /\ hd_error i = Some 63).
Proof.
  intros x [|c i]; [auto|]. destruct (Z.eq_dec c 41) as [-> |N1]; [auto|]. destruct (Z.eq_dec c 124) as [-> |N2]; [auto|].
  assert (D : x = N_block \/ x <> N_block) by (destruct x; auto; right; discriminate).
  destruct (Z.eq_dec c 63) as [-> |N3]; [|left; exists c, i; split; [reflexivity|split; [intros [E|[E|[]]]; symmetry in E; contradiction|intros _; exact N3]]].
  destruct D as [-> |D]; [right; right; right; right; split; reflexivity|]. left. exists 63, i. split; [reflexivity|]. split; [intros [E|[E|[]]]; discriminate E|intros E; destruct (D E)].
Qed.
Lemma string2_back : forall n p i st c cf, acc n p i (NT N_string2 :: st) c cf ->
  opens N_string2 i \/ exists n', (n' < n)%nat /\ acc n' p i st c cf.
Proof.
  intros n p i st c cf H. destruct (opens_dec N_string2 i) as [O|O]; [left; assumption|right].
  destruct n as [|n]; [discriminate H|]. exists n. split; [lia|]. unfold acc in H. cbn [PatternRead.mrun] in H.
  assert (R : rule N_string2 (hd_error i) = Push []).
  { destruct O as [-> |[O|[O|[O _]]]]; try rewrite O; try (vm_compute; reflexivity). discriminate. }
  rewrite R in H. exact H.
Qed.
Lemma content2_back : forall n p i st c cf, acc n p i (NT N_content2 :: st) c cf ->
  (exists n', (n' < n)%nat /\ acc n' p i st c cf) \/
  exists i0 n', (n' < n)%nat /\ i = 124 :: i0 /\ acc n' (Some 124) i0 (NT N_a :: st) c cf.
Proof.
  intros n p i st c cf H. back_nt H.
  - left. eauto.
  - left. eauto.
  - right. back H. exists i0, n1. split; [lia|]. auto.
Qed.
Lemma branch_back : forall n, (forall m, (m < n)%nat -> alt_back m) -> forall p i x t st ts k cf, In (x, t) leads -> opens x i -> quiet ts ->
  acc n p i (NT x :: st) (mkCtx ts k) cf ->
  exists u r i' n' p' ts' k', i = u ++ i' /\ (n' < n)%nat /\ some p' /\ kept (branch_text props B (named ts) k u r k') ts ts' /\
    acc n' p' i' (t ++ st) (mkCtx (IRe r :: ts') k') cf.
Proof.
  induction n as [n IHn] using lt_wf_ind. intros IH p i x t st ts k cf Hx Ho Q H.
  eapply quantified_back in H as (u & r & i' & n' & p' & ts' & k' & -> & L & Hp & K & H); [|eassumption|eassumption|assumption|assumption].
  destruct (string2_back _ _ _ _ _ _ H) as [O|(n2 & L2 & C)].
  - eapply IHn in H as (v & y & i2 & n2 & p2 & ts2 & k2 & -> & L2 & Hp2 & K2 & H);
      [|lia|intros; apply IH; lia|right; right; right; right; right; right; left; reflexivity|exact O|exact I].
    apply kept_plain in K2 as [-> K2]; [|reflexivity]. destruct p2 as [p2|]; [|congruence]. cbn [app] in H. back H.
    exists (u ++ v). do 6 eexists. split; [rewrite <- app_assoc; reflexivity|]. split; [|split; [|split; [|exact H]]]; [lia|discriminate|].
    destruct K as [[-> K]|K]; [left; split; [reflexivity|]; econstructor; eassumption|right; exact K].
  - exists u, r, i', n2, p', ts', k'. split; [reflexivity|]. split; [lia|]. split; [assumption|]. split; [|exact C].
    destruct K as [[-> K]|K]; [left; split; [reflexivity|]; constructor; assumption|right; exact K].
Qed.
Lemma rest_back : forall n, (forall m, (m < n)%nat -> alt_back m) -> forall p i x t st ts k cf, In (x, t) rest_places -> quiet ts -> named ts = false -> some p ->
  acc n p i (NT x :: st) (mkCtx ts k) cf ->
  exists u r i' n' p' k', i = u ++ i' /\ (n' < n)%nat /\ some p' /\ rest_text props B k u r k' /\
    acc n' p' i' (t ++ st) (mkCtx (IRe r :: ts) k') cf.
Proof.
  induction n as [n IHn] using lt_wf_ind. intros IH p i x t st ts k cf Hx Q Nm Hp H.
  destruct (opens_dec x i) as [O|O].
  - pose proof (rest_lead _ _ Hx) as Hx'.
    eapply branch_back in H as (u & r & i' & n' & p' & ts' & k' & -> & L & Hp' & K & H); [|eassumption|eassumption|assumption|assumption].
    apply kept_plain in K as [-> K]; [|assumption]. rewrite Nm in K. cbn [app] in H.
    destruct (content2_back _ _ _ _ _ _ H) as [(n2 & L2 & C)|(i0 & n2 & L2 & -> & C)].
    + exists u, r, i', n2, p', k'. split; [reflexivity|]. split; [lia|]. split; [assumption|]. split; [apply rt_branch; exact K|exact C].
    + eapply IHn in C as (v & y & i2 & n3 & p3 & k3 & -> & L3 & Hp3 & K3 & C);
        [|lia|intros; apply IH; lia|left; reflexivity|exact I|reflexivity|discriminate].
      destruct p3 as [p3|]; [|congruence]. cbn [app] in C. back C.
      exists (u ++ 124 :: v). do 5 eexists. split; [rewrite <- app_assoc; reflexivity|]. split; [|split; [|split; [|exact C]]]; [lia|discriminate|].
      apply (rt_more props B k u r k' v y k3 K K3).
  - destruct p as [q|]; [|congruence].
    assert (E : exists n', (n' < n)%nat /\ acc n' (Some q) i (t ++ st) (mkCtx (IRe REmpty :: ts) k) cf).
    { destruct O as [-> |[O|[O|[-> _]]]].
      - cbn [rest_places In] in Hx. destruct Hx as [X|[X|[X|[]]]]; injection X as <- <-; back_nt H; back H; eexists; (split; [|exact H]); lia.
      - destruct i as [|c i]; [discriminate|]. injection O as ->.
        cbn [rest_places In] in Hx. destruct Hx as [X|[X|[X|[]]]]; injection X as <- <-; back_nt H;
          try (exfalso; vm_compute in M; intuition discriminate); try (exfalso; apply M; apply mem_in; vm_compute; reflexivity);
          back H; eexists; (split; [|exact H]); lia.
      - destruct i as [|c i]; [discriminate|]. injection O as ->.
        cbn [rest_places In] in Hx. destruct Hx as [X|[X|[X|[]]]]; injection X as <- <-; back_nt H;
          try (exfalso; vm_compute in M; intuition discriminate); try (exfalso; apply M; apply mem_in; vm_compute; reflexivity).
      - cbn [rest_places In] in Hx. intuition discriminate. }
    destruct E as (n' & L & C). exists [], REmpty, i, n', (Some q), k. split; [reflexivity|]. split; [assumption|]. split; [assumption|].
    split; [constructor|exact C].
Qed.
Lemma any_is_term : forall n p a ch i st c cf, acc n p (ch :: i) (Act a :: TAny :: st) c cf -> acc n p (ch :: i) (Act a :: TTerm ch :: st) c cf.
Proof.
  intros [|n] p a ch i st c cf H; unfold acc in *; cbn [PatternRead.mrun] in *; [discriminate|]. destruct (act a p c); try discriminate.
  destruct n as [|n]; cbn [PatternRead.mrun term_matches] in *; [discriminate|]. rewrite Z.eqb_refl. exact H.
Qed.
Lemma alts_back : forall n, alt_back n.
Proof.
  induction n as [n IH] using lt_wf_ind. intros x t w p i st ts k cf Hx Q Hp Hb H.
  destruct (opens_dec x i) as [O|O].
  - pose proof (alt_lead _ _ _ Hx) as Hx'.
    eapply branch_back in H as (u & r & i' & n' & p' & ts' & k' & -> & L & Hp' & K & H); [|eassumption|eassumption|assumption|assumption].
    cbn [app] in H. destruct (content2_back _ _ _ _ _ _ H) as [(n2 & L2 & C)|(i0 & n2 & L2 & -> & C)].
    + exists u, r, i', n2, p', ts', k'. split; [reflexivity|]. split; [lia|]. split; [intros _; assumption|]. split; [|exact C].
      destruct K as [[-> K]|K]; [left; split; [reflexivity|]; apply al_branch; assumption|right; exact K].
    + eapply rest_back in C as (v & y & i2 & n3 & p3 & k3 & -> & L3 & Hp3 & K3 & C);
        [|intros; apply IH; lia|left; reflexivity|exact I|reflexivity|discriminate].
      destruct p3 as [p3|]; [|congruence]. cbn [app] in C. back C.
      exists (u ++ 124 :: v). do 6 eexists. split; [rewrite <- app_assoc; reflexivity|]. split; [|split; [|split; [|exact C]]]; [lia|discriminate|].
      destruct K as [[-> K]|K]; [left; split; [reflexivity|]; apply (al_more props B _ k u r k' v y k3 K K3)|right; exact K].
  - assert (E : (exists n', (n' < n)%nat /\ acc n' p i (Act A_push_empty :: t ++ st) (mkCtx ts k) cf) \/
                (exists i0 n', (n' < n)%nat /\ i = 124 :: i0 /\ acc n' (Some 124) i0 (Act A_push_empty :: NT w :: Act A_make_alternate :: t ++ st) (mkCtx ts k) cf)).
    { destruct (alt_rest x t w Hx) as [R _]. destruct O as [-> |[O|[O|[-> O]]]]; [| | |contradiction (Hb eq_refl O)].
      - left. cbn [alt_places In] in Hx. destruct Hx as [X|[X|[X|[]]]]; injection X as <- <- <-; back_nt H.
        eexists. split; [|exact H]. lia.
      - left. destruct i as [|c i]; [discriminate|]. injection O as ->.
        destruct n as [|n]; [discriminate H|]. unfold acc in H. cbn [PatternRead.mrun hd_error] in H.
        cbn [alt_places In] in Hx. destruct Hx as [X|[X|[X|[]]]]; injection X as <- <- <-.
        + exfalso. change (rule N_s (Some 41)) with (Rej) in H. discriminate H.
        + exists n. split; [lia|]. change (rule N_content_in_capture (Some 41)) with (Push [Act A_push_empty]) in H. exact H.
        + exists n. split; [lia|]. change (rule N_block (Some 41)) with (Push [Act A_push_empty; Act A_make_capture; TAny]) in H.
          destruct n as [|n]; [discriminate H|]. unfold acc. cbn [PatternRead.mrun app] in H |- *.
          destruct (act A_push_empty p (mkCtx ts k)) as [c1| |]; try discriminate H.
          apply any_is_term. exact H.
      - right. destruct i as [|c i]; [discriminate|]. injection O as ->. destruct n as [|n]; [discriminate H|]. unfold acc in H. cbn [PatternRead.mrun hd_error] in H.
        rewrite R in H. cbn [app] in H. change (acc n p (124 :: i) (TAny :: Act A_push_empty :: NT w :: Act A_make_alternate :: t ++ st) (mkCtx ts k) cf) in H.
        apply acc_any in H as (n' & L & H). exists i, n'. split; [lia|]. auto. }
    destruct E as [(n' & L & C)|(i0 & n' & L & -> & C)].
    + apply acc_act in C as (n2 & c2 & L2 & A & C).
      assert (c2 = mkCtx (IRe REmpty :: ts) k) as ->.
      { destruct p as [q|]; [injection A as <-; reflexivity|]. destruct Hp as [Hp|[-> _]]; [congruence|]. cbn in A. injection A as <-. reflexivity. }
      exists [], REmpty, i, n2, p, ts, k. split; [reflexivity|]. split; [lia|]. split; [auto|]. split; [left; split; [reflexivity|constructor]|exact C].
    + back C. eapply rest_back in C as (v & y & i2 & n3 & p3 & k3 & -> & L3 & Hp3 & K3 & C);
        [|intros; apply IH; lia|apply (alt_rest x t w Hx)|exact I|reflexivity|discriminate].
      destruct p3 as [p3|]; [|congruence]. cbn [app] in C. back C.
      exists (124 :: v). do 6 eexists. split; [reflexivity|]. split; [|split; [|split; [|exact C]]]; [lia|discriminate|].
      left. split; [reflexivity|]. apply (al_lead props B _ k v y k3 K3).
Qed.

(** Only the texts of the specification are read, and as what it says. *)
Theorem pattern_read_back : forall n u cf, mrun n None u [NT N_s] (mkCtx [] 0) = PAccept cf ->
  exists r k, cf = mkCtx [IRe r] k /\ pattern_text props B u r.
Proof.
  intros n u cf H.
  destruct (alts_back n N_s [] N_opt_content None u [] [] 0%nat cf ltac:(left; reflexivity) I ltac:(right; auto) ltac:(discriminate) H)
    as (v & r & i' & n' & p' & ts' & k' & -> & L & _ & K & E).
  apply kept_plain in K as [-> K]; [|reflexivity]. unfold acc in E. destruct n' as [|n']; [discriminate|]. cbn [PatternRead.mrun app] in E.
  destruct i' as [|c i']; [|discriminate]. injection E as <-. exists r, k'. split; [reflexivity|]. exists k'. rewrite app_nil_r. exact K.
Qed.
End Machine.
