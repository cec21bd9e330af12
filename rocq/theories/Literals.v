(** Patterns that spell a text, and numbers in patterns: C16, C17, C37. *)
From Coq Require Import List ZArith NArith Bool Arith Lia.
From Coq Require Import ZifyBool ZifyNat ZifyN.
From Verif Require Import Chars Syntax View Eval Api Grammar Actions Parser Spec CharProofs EvalInv ApiProofs Repeat ParserProofs.
Import ListNotations.

Section Goes.
Variable props : list Z -> option (list Z) -> option (list (Z * Z)).

(** * Runs of the machine *)
(** [goes prev i st c prev' i' st' c']: from the first configuration the machine reaches the second. *)
Definition goes prev input st c prev' input' st' c' : Prop :=
  exists k, forall fuel, run props (k + fuel) prev input st c = run props fuel prev' input' st' c'.
Lemma goes_refl : forall p i st c, goes p i st c p i st c.
Proof. intros. exists 0. reflexivity. Qed.
Lemma goes_trans : forall p i st c p1 i1 st1 c1 p2 i2 st2 c2,
  goes p i st c p1 i1 st1 c1 -> goes p1 i1 st1 c1 p2 i2 st2 c2 -> goes p i st c p2 i2 st2 c2.
Proof.
  intros p i st c p1 i1 st1 c1 p2 i2 st2 c2 [k H] [k' H']. exists (k + k'). intros fuel.
  rewrite <- Nat.add_assoc, H. apply H'.
Qed.
Lemma goes_nt : forall p i n st c l p' i' st' c', rule n (hd_error i) = Push l ->
  goes p i (l ++ st) c p' i' st' c' -> goes p i (NT n :: st) c p' i' st' c'.
Proof. intros p i n st c l p' i' st' c' H [k K]. exists (S k). intros fuel. cbn [Nat.add run]. rewrite H. apply K. Qed.
Lemma goes_act : forall p i a st c c1 p' i' st' c', apply props a p c = Done c1 ->
  goes p i st c1 p' i' st' c' -> goes p i (Act a :: st) c p' i' st' c'.
Proof. intros p i a st c c1 p' i' st' c' H [k K]. exists (S k). intros fuel. cbn [Nat.add run]. rewrite H. apply K. Qed.
Lemma goes_any : forall p ch i st c p' i' st' c',
  goes (Some ch) i st c p' i' st' c' -> goes p (ch :: i) (TAny :: st) c p' i' st' c'.
Proof. intros p ch i st c p' i' st' c' [k K]. exists (S k). intros fuel. cbn [Nat.add run term_matches]. apply K. Qed.
Lemma goes_term : forall p ch i st c p' i' st' c',
  goes (Some ch) i st c p' i' st' c' -> goes p (ch :: i) (TTerm ch :: st) c p' i' st' c'.
Proof. intros p ch i st c p' i' st' c' [k K]. exists (S k). intros fuel. cbn [Nat.add run term_matches]. rewrite Z.eqb_refl. apply K. Qed.
Lemma goes_set : forall p l ch i st c p' i' st' c', In ch l ->
  goes (Some ch) i st c p' i' st' c' -> goes p (ch :: i) (TSet l :: st) c p' i' st' c'.
Proof.
  intros p l ch i st c p' i' st' c' H [k K]. exists (S k). intros fuel. cbn [Nat.add run term_matches].
  apply mem_in in H. rewrite H. apply K.
Qed.
Lemma goes_accept : forall input p c, goes None input [NT N_s] (mkCtx [] 0) p [] [] c -> parse_ctx props input = PAccept c.
Proof.
  intros input p c [k H]. specialize (H 1). cbn [run] in H.
  destruct (parse_total props input (Nat.max (k + 1) (8 * length input + 3)) ltac:(lia)) as (x & Hx & H1 & H2).
  rewrite H2, <- H1. apply (run_mono props (k + 1)); [lia|assumption|discriminate].
Qed.

(** * Spelling a character *)
(** Characters that stand for themselves, and those that may be escaped. *)
Definition ordinary (c : Z) : Prop := In c set0 \/ ~ In c not_others.
Definition is_hex (c : Z) : Prop := (48 <= c <= 57 \/ 65 <= c <= 70 \/ 97 <= c <= 102)%Z.
Definition hex_digit (c : Z) : N :=
  Z.to_N (if (c <=? 57)%Z then c - 48 else if (c <=? 70)%Z then c - 55 else c - 87).
(** The number a string of hexadecimal digits denotes. *)
Definition hexadecimal (l : list Z) : N := fold_left (fun a d => a * 16 + hex_digit d)%N l 0%N.

Definition controls : list (Z * Z) := [(97, 7); (101, 20); (102, 12); (110, 10); (48, 0); (114, 13); (116, 9)]%Z.
Definition escapable : list Z := [36; 40; 41; 42; 43; 45; 46; 47; 60; 62; 63; 91; 92; 34; 93; 94; 123; 124; 125]%Z.

(** [spell1 u c]: the pattern text [u] stands for the single character [c]. *)
Inductive spell1 : list Z -> Z -> Prop :=
| sp_plain : forall c, ordinary c -> spell1 [c] c
| sp_escaped : forall c, In c escapable -> spell1 [92; c]%Z c
| sp_control : forall e c, In (e, c) controls -> spell1 [92; e]%Z c
| sp_x2 : forall a b, is_hex a -> is_hex b -> spell1 [92; 120; a; b]%Z (Z.of_N (hexadecimal [a; b]))
| sp_u4 : forall a b c d, is_hex a -> is_hex b -> is_hex c -> is_hex d ->
    spell1 [92; 117; a; b; c; d]%Z (Z.of_N (hexadecimal [a; b; c; d]))
| sp_braces : forall x ds, (x = 120 \/ x = 117)%Z -> ds <> [] -> Forall is_hex ds -> (hexadecimal ds < 2 ^ 32)%N ->
    spell1 ([92; x; 123]%Z ++ ds ++ [125]%Z) (Z.of_N (hexadecimal ds)).
(** [spells p w]: the pattern text [p] is a row of those, standing for the text [w]. *)
Inductive spells : list Z -> list Z -> Prop :=
| spells_nil : spells [] []
| spells_cons : forall u c p w, spell1 u c -> spells p w -> spells (u ++ p) (c :: w).

(** The AST of a spelled text. *)
Definition literal (w : list Z) : re := match w with [] => REmpty | [c] => RCls (CChar c) | _ => RStr w end.

Ltac entry m := apply rule_spec; exists m; split; [cbn [rules]; repeat first [left; reflexivity | right] | ].
Lemma hex_in : forall c, is_hex c -> In c set12.
Proof.
  intros c H. assert (E : (c = 48 \/ c = 49 \/ c = 50 \/ c = 51 \/ c = 52 \/ c = 53 \/ c = 54 \/ c = 55 \/ c = 56 \/ c = 57 \/
    c = 65 \/ c = 66 \/ c = 67 \/ c = 68 \/ c = 69 \/ c = 70 \/ c = 97 \/ c = 98 \/ c = 99 \/ c = 100 \/ c = 101 \/ c = 102)%Z)
    by (unfold is_hex in H; lia).
  unfold set12. cbn [In]. intuition congruence.
Qed.
Lemma hex_value_digit : forall c, is_hex c -> Z.to_N (hex_value c) = hex_digit c.
Proof.
  intros c H. unfold is_hex in H. unfold hex_value, hex_digit. f_equal.
  destruct (Z.leb_spec 97 c), (Z.leb_spec c 102), (Z.leb_spec 65 c), (Z.leb_spec c 70), (Z.leb_spec c 57); cbn [andb]; lia.
Qed.
Lemma wrap_step : forall k n d, wrap (wrap (wrap n * k) + d) = wrap (n * k + d).
Proof.
  intros k n d. unfold wrap. rewrite N.add_mod_idemp_l by discriminate.
  rewrite <- N.add_mod_idemp_l by discriminate. rewrite N.mul_mod_idemp_l by discriminate.
  rewrite N.add_mod_idemp_l by discriminate. reflexivity.
Qed.
Lemma wrap_step1 : forall k n d, wrap (wrap n * k + d) = wrap (n * k + d).
Proof.
  intros k n d. rewrite <- (wrap_step k n d). unfold wrap. rewrite N.add_mod_idemp_l by discriminate. reflexivity.
Qed.
Lemma wrap_small : forall n, (n < size_mod)%N -> wrap n = n.
Proof. intros. apply N.mod_small. assumption. Qed.

Definition hex_run (a : N) (l : list Z) : N := fold_left (fun a d => wrap (a * 16 + hex_digit d)) l a.
Lemma hex_run_spec : forall l a, hex_run (wrap a) l = wrap (fold_left (fun a d => a * 16 + hex_digit d)%N l a).
Proof.
  induction l as [|d l IH]; intros a; [reflexivity|]. cbn [hex_run fold_left]. rewrite wrap_step1. apply IH.
Qed.
Lemma hex_run_0 : forall l m, (hexadecimal l < m)%N -> (m <= 2 ^ 32)%N -> hex_run (wrap 0) l = hexadecimal l.
Proof.
  intros l m H Hm. rewrite hex_run_spec. apply wrap_small. eapply N.lt_le_trans; [exact H|].
  eapply N.le_trans; [exact Hm|]. discriminate.
Qed.
Lemma push_hex : forall p k n ts d, is_hex d -> p = Some d ->
  apply props A_push_hexdec p (mkCtx (INum n :: ts) k) = Done (mkCtx (INum (wrap (n * 16 + hex_digit d)) :: ts) k).
Proof.
  intros p k n ts d H ->. cbn [apply stk counter]. rewrite hex_value_digit by assumption.
  unfold wrap at 1 2. rewrite N.add_mod_idemp_l by discriminate. reflexivity.
Qed.
Lemma hex_repeat : forall l p rest st n ts k, Forall is_hex l ->
  goes p (l ++ 125%Z :: rest) (NT N_hexdec_repeat :: TTerm 125 :: st) (mkCtx (INum n :: ts) k)
       (Some 125%Z) rest st (mkCtx (INum (hex_run n l) :: ts) k).
Proof.
  induction l as [|d l IH]; intros p rest st n ts k H.
  - cbn [app hex_run fold_left]. eapply goes_nt; [entry (MTerm 125); reflexivity|]. cbn [app]. apply goes_term. apply goes_refl.
  - inversion H; subst. cbn [app hex_run fold_left]. eapply goes_nt; [entry (MSet set12); apply hex_in; assumption|].
    cbn [app]. apply goes_any. eapply goes_act; [apply (push_hex _ _ _ _ d); [assumption|reflexivity]|]. apply IH. assumption.
Qed.
Lemma hex_small : forall l, (length l <= 15)%nat -> Forall is_hex l -> (hexadecimal l < 16 ^ N.of_nat (length l))%N.
Proof.
  intros l _ H. unfold hexadecimal.
  assert (G : forall l a, Forall is_hex l -> (fold_left (fun a d => a * 16 + hex_digit d) l a < (a + 1) * 16 ^ N.of_nat (length l))%N).
  { clear. induction l as [|d l IH]; intros a H; [cbn; lia|]. inversion H; subst. cbn [fold_left length].
    eapply N.lt_le_trans; [apply IH; assumption|]. rewrite Nat2N.inj_succ, N.pow_succ_r'.
    assert (D : (hex_digit d <= 15)%N).
    { unfold is_hex in *. unfold hex_digit. destruct (Z.leb_spec d 57), (Z.leb_spec d 70); lia. }
    set (m := (16 ^ N.of_nat (length l))%N). nia. }
  specialize (G l 0%N H). lia.
Qed.
Lemma finish_hex : forall v k n ts, (n < 2 ^ 32)%N ->
  apply props A_finish_hexdec (Some v) (mkCtx (INum n :: ts) k) = Done (mkCtx (IRe (RCls (CChar (Z.of_N n))) :: ts) k).
Proof.
  intros v k n ts H. cbn [apply stk counter]. change 4294967296%N with (2 ^ 32)%N.
  destruct (N.ltb_spec n (2 ^ 32)); [reflexivity|lia].
Qed.

(** The two places where an atom may begin, and what they leave to do behind it. *)
Definition begins (x : nt) (l : list sym) : Prop :=
  (x = N_s /\ l = [NT N_repeat; NT N_string2; NT N_content2]) \/
  (x = N_string2 /\ l = [NT N_repeat; NT N_string2; Act A_make_sequence]).
Lemma begin_plain : forall x l c, begins x l -> ordinary c -> rule x (Some c) = Push (TAny :: Act A_push_character :: l).
Proof.
  intros x l c [[-> ->]|[-> ->]] [H|H].
  - entry (MSet set0). assumption.
  - entry MOthers. assumption.
  - entry (MSet set0). assumption.
  - entry MOthers. assumption.
Qed.
Lemma begin_backslash : forall x l, begins x l -> rule x (Some 92%Z) = Push (TAny :: NT N_backslash :: l).
Proof. intros x l [[-> ->]|[-> ->]]; entry (MTerm 92); reflexivity. Qed.

(** Reading one character: from the start of an atom to behind it. *)
Lemma read_char : forall u c x l p rest st ts k, begins x l -> spell1 u c ->
  exists p', goes p (u ++ rest) (NT x :: st) (mkCtx ts k) (Some p') rest (l ++ st) (mkCtx (IRe (RCls (CChar c)) :: ts) k).
Proof.
  intros u c x l p rest st ts k Hx H.
  destruct H as [c Hc|c Hc|e c Hc|a b Ha Hb|a b c d Ha Hb Hc Hd|y ds Hy Hn Hd Hb].
  - exists c. cbn [app]. eapply goes_nt; [apply begin_plain; eassumption|]. cbn [app]. apply goes_any.
    eapply goes_act; [reflexivity|]. apply goes_refl.
  - exists c. cbn [app]. eapply goes_nt; [apply begin_backslash; eassumption|]. cbn [app]. apply goes_any.
    eapply goes_nt; [entry (MSet set4); exact Hc|]. cbn [app]. apply goes_any.
    eapply goes_act; [reflexivity|]. apply goes_refl.
  - exists e. cbn [app]. eapply goes_nt; [apply begin_backslash; eassumption|]. cbn [app]. apply goes_any.
    cbn [controls In] in Hc. repeat (destruct Hc as [Hc|Hc]; [injection Hc as <- <-|]); [..|contradiction];
      (eapply goes_nt; [vm_compute; reflexivity|]); cbn [app]; apply goes_any; (eapply goes_act; [reflexivity|]); apply goes_refl.
  - exists b. cbn [app]. eapply goes_nt; [apply begin_backslash; eassumption|]. cbn [app]. apply goes_any.
    eapply goes_nt; [vm_compute; reflexivity|]. cbn [app]. apply goes_any.
    eapply goes_nt; [entry (MSet set12); apply hex_in; assumption|]. cbn [app].
    eapply goes_act; [reflexivity|]. apply goes_any. eapply goes_act; [apply push_hex; [exact Ha|reflexivity]|].
    apply goes_set; [apply hex_in; assumption|]. eapply goes_act; [apply push_hex; [exact Hb|reflexivity]|].
    pose proof (hex_small [a; b] ltac:(cbn; lia) ltac:(auto)) as B.
    assert (R : hex_run (wrap 0) [a; b] = hexadecimal [a; b]) by (eapply hex_run_0; [exact B|discriminate]).
    change (wrap (wrap (0 * 16 + hex_digit a) * 16 + hex_digit b)) with (hex_run (wrap 0) [a; b]). rewrite R.
    eapply goes_act; [apply finish_hex|apply goes_refl]. eapply N.lt_le_trans; [exact B|discriminate].
  - exists d. cbn [app]. eapply goes_nt; [apply begin_backslash; eassumption|]. cbn [app]. apply goes_any.
    eapply goes_nt; [vm_compute; reflexivity|]. cbn [app]. apply goes_any.
    eapply goes_nt; [entry (MSet set12); apply hex_in; assumption|]. cbn [app].
    eapply goes_act; [reflexivity|]. apply goes_any. eapply goes_act; [apply push_hex; [exact Ha|reflexivity]|].
    apply goes_set; [apply hex_in; assumption|]. eapply goes_act; [apply push_hex; [exact Hb|reflexivity]|].
    apply goes_set; [apply hex_in; assumption|]. eapply goes_act; [apply push_hex; [exact Hc|reflexivity]|].
    apply goes_set; [apply hex_in; assumption|]. eapply goes_act; [apply push_hex; [exact Hd|reflexivity]|].
    pose proof (hex_small [a; b; c; d] ltac:(cbn; lia) ltac:(auto)) as B.
    assert (R : hex_run (wrap 0) [a; b; c; d] = hexadecimal [a; b; c; d]) by (eapply hex_run_0; [exact B|discriminate]).
    change (wrap (wrap (wrap (wrap (0 * 16 + hex_digit a) * 16 + hex_digit b) * 16 + hex_digit c) * 16 + hex_digit d))
      with (hex_run (wrap 0) [a; b; c; d]). rewrite R.
    eapply goes_act; [apply finish_hex|apply goes_refl]. eapply N.lt_le_trans; [exact B|discriminate].
  - exists 125%Z. rewrite <- !app_assoc. cbn [app]. eapply goes_nt; [apply begin_backslash; eassumption|]. cbn [app]. apply goes_any.
    destruct ds as [|d ds]; [congruence|]. inversion Hd as [|? ? Hd1 Hd2]; subst.
    assert (K : goes (Some y) ((123 :: d :: ds ++ 125 :: rest)%Z) ([Act A_create_hexdec; TAny; TSet set12; Act A_push_hexdec; NT N_hexdec_repeat; TTerm 125; Act A_finish_hexdec] ++ l ++ st)
      (mkCtx ts k) (Some 125%Z) rest (l ++ st) (mkCtx (IRe (RCls (CChar (Z.of_N (hexadecimal (d :: ds))))) :: ts) k)).
    { cbn [app]. eapply goes_act; [reflexivity|]. apply goes_any. apply goes_set; [apply hex_in; assumption|].
      eapply goes_act; [apply push_hex; [exact Hd1|reflexivity]|].
      eapply goes_trans; [apply hex_repeat; assumption|].
      assert (R : hex_run (wrap 0) (d :: ds) = hexadecimal (d :: ds)) by (eapply hex_run_0; [exact Hb|discriminate]).
      change (hex_run (wrap (0 * 16 + hex_digit d)) ds) with (hex_run (wrap 0) (d :: ds)). rewrite R.
      eapply goes_act; [apply finish_hex; exact Hb|apply goes_refl]. }
    destruct Hy as [-> | ->].
    + eapply goes_nt; [vm_compute; reflexivity|]. cbn [app]. apply goes_any. eapply goes_nt; [vm_compute; reflexivity|]. exact K.
    + eapply goes_nt; [vm_compute; reflexivity|]. cbn [app]. apply goes_any. eapply goes_nt; [vm_compute; reflexivity|]. exact K.
Qed.

(** A value from 2^32 up to 2^64 - 1 is a compile error, wherever it stands. *)
Theorem hex_too_large : forall y ds rest, (y = 120 \/ y = 117)%Z -> ds <> [] -> Forall is_hex ds ->
  (2 ^ 32 <= hexadecimal ds < 2 ^ 64)%N -> compile props ([92; y; 123]%Z ++ ds ++ 125%Z :: rest) = CIll.
Proof.
  intros y ds rest Hy Hn Hd [Hb Hb2]. destruct ds as [|d ds]; [congruence|]. inversion Hd as [|? ? Hd1 Hd2]; subst.
  assert (R : hex_run (wrap 0) (d :: ds) = hexadecimal (d :: ds)) by (rewrite hex_run_spec; apply wrap_small; exact Hb2).
  assert (G : exists st, goes None ([92; y; 123]%Z ++ (d :: ds) ++ 125%Z :: rest) [NT N_s] (mkCtx [] 0)
    (Some 125%Z) rest (Act A_finish_hexdec :: st) (mkCtx [INum (hexadecimal (d :: ds))] 0)).
  { assert (K : forall st, goes (Some y) ((123 :: d :: ds ++ 125 :: rest)%Z) ([Act A_create_hexdec; TAny; TSet set12; Act A_push_hexdec; NT N_hexdec_repeat; TTerm 125; Act A_finish_hexdec] ++ st)
      (mkCtx [] 0) (Some 125%Z) rest (Act A_finish_hexdec :: st) (mkCtx [INum (hexadecimal (d :: ds))] 0)).
    { intros st. cbn [app]. eapply goes_act; [reflexivity|]. apply goes_any. apply goes_set; [apply hex_in; assumption|].
      eapply goes_act; [apply (push_hex _ _ _ _ d); [exact Hd1|reflexivity]|].
      eapply goes_trans; [apply hex_repeat; assumption|].
      change (hex_run (wrap (0 * 16 + hex_digit d)) ds) with (hex_run (wrap 0) (d :: ds)). rewrite R. apply goes_refl. }
    eexists. cbn [app]. eapply goes_nt; [apply (begin_backslash N_s _ (or_introl (conj eq_refl eq_refl)))|]. cbn [app]. apply goes_any.
    destruct Hy as [-> | ->]; (eapply goes_nt; [vm_compute; reflexivity|]); cbn [app]; apply goes_any;
      (eapply goes_nt; [vm_compute; reflexivity|]); apply K. }
  destruct G as (st & k & G). specialize (G 1). cbn [run apply stk counter] in G. change 4294967296%N with (2 ^ 32)%N in G.
  destruct (N.ltb_spec (hexadecimal (d :: ds)) (2 ^ 32)); [lia|].
  unfold compile. set (input := ([92; y; 123]%Z ++ (d :: ds) ++ 125%Z :: rest)) in *.
  destruct (parse_total props input (Nat.max (k + 1) (8 * length input + 3)) ltac:(lia)) as (x & Hx & H1 & H2).
  rewrite H2, <- H1. rewrite (run_mono props (k + 1) _ None input [NT N_s] (mkCtx [] 0) PIll); [reflexivity|lia|assumption|discriminate].
Qed.

(** * Texts *)
Lemma spell1_head : forall u c p, spell1 u c -> exists h t, u ++ p = h :: t /\ (ordinary h \/ h = 92%Z).
Proof. intros u c p H. destruct H; cbn [app]; eauto 6. Qed.
Lemma subset : forall a b, forallb (fun c => mem c b) a = true -> forall c : Z, In c a -> In c b.
Proof. intros a b H c Hc. rewrite forallb_forall in H. apply mem_in. apply H. assumption. Qed.
Lemma no_repeat : forall p w, spells p w -> rule N_repeat (hd_error p) = Push [].
Proof.
  intros p w H. destruct H as [|u c p w H1 H2]; [vm_compute; reflexivity|].
  destruct (spell1_head u c p H1) as (h & t & -> & Hh). cbn [hd_error]. destruct Hh as [[Hh|Hh]| ->].
  - entry (MSet set16). cbn [viable snd fst]. apply (subset set0 set16 eq_refl h Hh).
  - entry MOthers. assumption.
  - vm_compute. reflexivity.
Qed.
Lemma literal_cons : forall x c w, make_sequence (literal (c :: w)) (RCls (CChar x)) = literal (x :: c :: w).
Proof. intros x c [|y w]; reflexivity. Qed.

(** From behind the first atom to the end of the pattern. *)
Lemma read_text : forall p w, spells p w -> forall pr st c ts k,
  exists pr', goes (Some pr) p (NT N_repeat :: NT N_string2 :: st) (mkCtx (IRe (RCls (CChar c)) :: ts) k)
                   (Some pr') [] st (mkCtx (IRe (literal (c :: w)) :: ts) k).
Proof.
  intros p w H. induction H as [|u d p w H1 H2 IH]; intros pr st c ts k.
  - exists pr. eapply goes_nt; [vm_compute; reflexivity|]. cbn [app]. eapply goes_nt; [vm_compute; reflexivity|]. apply goes_refl.
  - destruct (read_char u d N_string2 _ (Some pr) p st (IRe (RCls (CChar c)) :: ts) k (or_intror (conj eq_refl eq_refl)) H1) as (p1 & K1).
    destruct (IH p1 (Act A_make_sequence :: st) d (IRe (RCls (CChar c)) :: ts) k) as (p2 & K2).
    exists p2. eapply goes_nt; [apply (no_repeat (u ++ p) (d :: w)); constructor; assumption|].
    cbn [app]. eapply goes_trans; [exact K1|]. cbn [app]. eapply goes_trans; [exact K2|].
    eapply goes_act; [reflexivity|]. rewrite literal_cons. apply goes_refl.
Qed.

(** A pattern that spells a text is compiled to this text. *)
Theorem spelled_compiles : forall p w, spells p w -> compile props p = CRegex (literal w).
Proof.
  intros p w H. unfold compile. destruct H as [|u c p w H1 H2].
  - vm_compute. reflexivity.
  - destruct (read_char u c N_s _ None p [] [] 0 (or_introl (conj eq_refl eq_refl)) H1) as (p1 & K1).
    destruct (read_text p w H2 p1 [NT N_content2] c [] 0) as (p2 & K2).
    rewrite (goes_accept (u ++ p) (Some p2) (mkCtx [IRe (literal (c :: w))] 0)); [reflexivity|].
    eapply goes_trans; [exact K1|]. cbn [app]. eapply goes_trans; [exact K2|].
    eapply goes_nt; [vm_compute; reflexivity|]. apply goes_refl.
Qed.

(** * Numbers *)
Definition is_digit (c : Z) : Prop := (48 <= c <= 57)%Z.
Definition decimal (l : list Z) : N := fold_left (fun a d => a * 10 + Z.to_N (d - 48))%N l 0%N.
Lemma digit_in : forall c, is_digit c -> In c set15.
Proof.
  intros c H. assert (E : (c = 48 \/ c = 49 \/ c = 50 \/ c = 51 \/ c = 52 \/ c = 53 \/ c = 54 \/ c = 55 \/ c = 56 \/ c = 57)%Z)
    by (unfold is_digit in H; lia).
  unfold set15. cbn [In]. intuition congruence.
Qed.
Definition dec_run (a : N) (l : list Z) : N := fold_left (fun a d => wrap (a * 10 + Z.to_N (d - 48))) l a.
Lemma dec_run_spec : forall l a, dec_run (wrap a) l = wrap (fold_left (fun a d => a * 10 + Z.to_N (d - 48))%N l a).
Proof. induction l as [|d l IH]; intros a; [reflexivity|]. cbn [dec_run fold_left]. rewrite wrap_step1. apply IH. Qed.
Lemma digits : forall l p stop rest st n ts k, Forall is_digit l -> (stop = 44 \/ stop = 125)%Z -> p <> None ->
  exists p', p' <> None /\
  goes p (l ++ stop :: rest) (NT N_number2 :: st) (mkCtx (INum n :: ts) k)
       p' (stop :: rest) st (mkCtx (INum (dec_run n l) :: ts) k).
Proof.
  induction l as [|d l IH]; intros p stop rest st n ts k H Hs Hp.
  - exists p. split; [assumption|]. cbn [app dec_run fold_left]. apply goes_nt with (l := []); [|apply goes_refl].
    entry (MSet set18). destruct Hs as [-> | ->]; cbn; auto.
  - inversion H; subst. destruct (IH (Some d) stop rest st (wrap (n * 10 + Z.to_N (d - 48))) ts k ltac:(assumption) Hs ltac:(discriminate)) as (p' & Hp' & K).
    exists p'. split; [assumption|]. cbn [app dec_run fold_left]. eapply goes_nt; [entry (MSet set15); apply digit_in; assumption|].
    cbn [app]. apply goes_any. eapply goes_act; [reflexivity|]. exact K.
Qed.
Lemma number : forall l p stop rest st ts k, Forall is_digit l -> l <> [] -> (stop = 44 \/ stop = 125)%Z ->
  exists p', p' <> None /\
  goes p (l ++ stop :: rest) (NT N_number :: st) (mkCtx ts k)
       p' (stop :: rest) st (mkCtx (INum (wrap (decimal l)) :: ts) k).
Proof.
  intros [|d l] p stop rest st ts k H Hn Hs; [congruence|]. inversion H; subst.
  destruct (digits l (Some d) stop rest st (Z.to_N (d - 48)) ts k ltac:(assumption) Hs ltac:(discriminate)) as (p' & Hp' & K).
  exists p'. split; [assumption|]. eapply goes_nt; [entry (MSet set15); apply digit_in; assumption|].
  cbn [app]. apply goes_any. eapply goes_act; [reflexivity|].
  replace (wrap (decimal (d :: l))) with (dec_run (Z.to_N (d - 48)) l); [exact K|].
  pose proof (dec_run_spec (d :: l) 0) as R. cbn [dec_run fold_left] in R. rewrite N.mul_0_l, N.add_0_l in R.
  change (wrap 0) with 0%N in R. rewrite N.mul_0_l, N.add_0_l in R.
  rewrite wrap_small in R; [exact R|]. unfold is_digit, size_mod in *. lia.
Qed.

(** Repetition bounds behind any atom [x]; [v] is the value of the digits modulo 2^64. *)
Lemma bounds_exactly : forall l p rest st x ts k, Forall is_digit l -> l <> [] ->
  exists p', p' <> None /\ goes p (123%Z :: l ++ 125%Z :: rest) (NT N_repeat :: st) (mkCtx (IRe x :: ts) k)
    p' rest st (mkCtx (IRe (RRep Greedy (wrap (decimal l)) (wrap (decimal l)) (unwrap x)) :: ts) k).
Proof.
  intros l p rest st x ts k H Hn. destruct (number l (Some 123%Z) 125%Z rest (NT N_b :: st) (IRe x :: ts) k H Hn (or_intror eq_refl)) as (p' & Hp' & K).
  exists (Some 125%Z). split; [discriminate|]. eapply goes_nt; [vm_compute; reflexivity|]. cbn [app]. apply goes_any.
  eapply goes_trans; [exact K|]. eapply goes_nt; [vm_compute; reflexivity|]. cbn [app].
  destruct p' as [p'|]; [|congruence]. eapply goes_act; [reflexivity|]. apply goes_any. apply goes_refl.
Qed.
Lemma bounds_at_least : forall l p rest st x ts k, Forall is_digit l -> l <> [] ->
  exists p', p' <> None /\ goes p (123%Z :: l ++ 44%Z :: 125%Z :: rest) (NT N_repeat :: st) (mkCtx (IRe x :: ts) k)
    p' rest (NT N_mod :: st) (mkCtx (IRe (RRep Greedy (wrap (decimal l)) 0 (unwrap x)) :: ts) k).
Proof.
  intros l p rest st x ts k H Hn. destruct (number l (Some 123%Z) 44%Z (125%Z :: rest) (NT N_b :: st) (IRe x :: ts) k H Hn (or_introl eq_refl)) as (p' & Hp' & K).
  exists (Some 125%Z). split; [discriminate|]. eapply goes_nt; [vm_compute; reflexivity|]. cbn [app]. apply goes_any.
  eapply goes_trans; [exact K|]. eapply goes_nt; [vm_compute; reflexivity|]. cbn [app]. apply goes_any.
  eapply goes_nt; [vm_compute; reflexivity|]. cbn [app]. eapply goes_act; [reflexivity|]. apply goes_any. apply goes_refl.
Qed.
Lemma bounds_between : forall l m p rest st x ts k, Forall is_digit l -> l <> [] -> Forall is_digit m -> m <> [] ->
  exists p', p' <> None /\ goes p (123%Z :: l ++ 44%Z :: m ++ 125%Z :: rest) (NT N_repeat :: st) (mkCtx (IRe x :: ts) k)
    p' rest (NT N_mod :: st) (mkCtx (IRe (RRep Greedy (wrap (decimal l)) (wrap (decimal m)) (unwrap x)) :: ts) k).
Proof.
  intros l m p rest st x ts k H Hn Hm Hnm.
  destruct (number l (Some 123%Z) 44%Z (m ++ 125%Z :: rest) (NT N_b :: st) (IRe x :: ts) k H Hn (or_introl eq_refl)) as (p' & Hp' & K).
  destruct (number m (Some 44%Z) 125%Z rest (Act A_repeat_ab :: TTerm 125 :: NT N_mod :: st) (INum (wrap (decimal l)) :: IRe x :: ts) k Hm Hnm (or_intror eq_refl)) as (p2 & Hp2 & K2).
  exists (Some 125%Z). split; [discriminate|]. eapply goes_nt; [vm_compute; reflexivity|]. cbn [app]. apply goes_any.
  eapply goes_trans; [exact K|]. eapply goes_nt; [vm_compute; reflexivity|]. cbn [app]. apply goes_any.
  eapply goes_nt.
  - destruct m as [|d m]; [congruence|]. inversion Hm; subst. cbn [app hd_error]. entry (MSet set15). apply digit_in. assumption.
  - cbn [app]. eapply goes_trans; [exact K2|]. destruct p2 as [p2|]; [|congruence]. eapply goes_act; [reflexivity|]. apply goes_term. apply goes_refl.
Qed.

(** Whole patterns: one spelled character with bounds. *)
Theorem bounds_compile : forall u c l, spell1 u c -> Forall is_digit l -> l <> [] ->
  compile props (u ++ 123%Z :: l ++ [125%Z]) = CRegex (RRep Greedy (wrap (decimal l)) (wrap (decimal l)) [RCls (CChar c)]) /\
  compile props (u ++ 123%Z :: l ++ [44%Z; 125%Z]) = CRegex (RRep Greedy (wrap (decimal l)) 0 [RCls (CChar c)]).
Proof.
  intros u c l Hu Hl Hn.
  assert (E : forall i x, (forall p, exists p', goes (Some p) i [NT N_repeat; NT N_string2; NT N_content2] (mkCtx [IRe (RCls (CChar c))] 0)
     p' [] [] (mkCtx [IRe x] 0)) -> compile props (u ++ i) = CRegex x).
  { intros i x K. unfold compile. destruct (read_char u c N_s _ None i [] [] 0 (or_introl (conj eq_refl eq_refl)) Hu) as (p1 & K1).
    destruct (K p1) as (p2 & K2). rewrite (goes_accept (u ++ i) p2 (mkCtx [IRe x] 0)); [reflexivity|].
    eapply goes_trans; [exact K1|]. exact K2. }
  split; apply E; intros p.
  - destruct (bounds_exactly l (Some p) [] [NT N_string2; NT N_content2] (RCls (CChar c)) [] 0 Hl Hn) as (p' & Hp' & K).
    exists p'. eapply goes_trans; [exact K|]. eapply goes_nt; [vm_compute; reflexivity|]. cbn [app].
    eapply goes_nt; [vm_compute; reflexivity|]. apply goes_refl.
  - destruct (bounds_at_least l (Some p) [] [NT N_string2; NT N_content2] (RCls (CChar c)) [] 0 Hl Hn) as (p' & Hp' & K).
    exists p'. eapply goes_trans; [exact K|]. eapply goes_nt; [vm_compute; reflexivity|]. cbn [app].
    eapply goes_nt; [vm_compute; reflexivity|]. cbn [app]. eapply goes_nt; [vm_compute; reflexivity|]. apply goes_refl.
Qed.
Theorem bounds_compile2 : forall u c l m, spell1 u c -> Forall is_digit l -> l <> [] -> Forall is_digit m -> m <> [] ->
  compile props (u ++ 123%Z :: l ++ 44%Z :: m ++ [125%Z]) = CRegex (RRep Greedy (wrap (decimal l)) (wrap (decimal m)) [RCls (CChar c)]).
Proof.
  intros u c l m Hu Hl Hn Hm Hnm. unfold compile.
  destruct (read_char u c N_s _ None (123%Z :: l ++ 44%Z :: m ++ [125%Z]) [] [] 0 (or_introl (conj eq_refl eq_refl)) Hu) as (p1 & K1).
  destruct (bounds_between l m (Some p1) [] [NT N_string2; NT N_content2] (RCls (CChar c)) [] 0 Hl Hn Hm Hnm) as (p' & Hp' & K).
  rewrite (goes_accept _ p' (mkCtx [IRe (RRep Greedy (wrap (decimal l)) (wrap (decimal m)) [RCls (CChar c)])] 0)); [reflexivity|].
  eapply goes_trans; [exact K1|]. cbn [app]. eapply goes_trans; [exact K|]. eapply goes_nt; [vm_compute; reflexivity|]. cbn [app].
  eapply goes_nt; [vm_compute; reflexivity|]. cbn [app]. eapply goes_nt; [vm_compute; reflexivity|]. apply goes_refl.
Qed.
End Goes.

(** * Matching a text *)
Section Text.
Variables (opt : bool) (s : list Z) (f : flags) (w : list Z).
Hypothesis Hw : forallb lit_ok w = true.
Hypothesis Hs : forallb val_ok s = true.
Notation v := (arr_view s).
(** [agree t l]: [l] begins with a text equal to [t] (up to letter case in case-insensitive mode). *)
Fixpoint agree (t l : list Z) : bool :=
  match t with [] => true | a :: t' => match l with x :: l' => lit_has (f_ci f) a x && agree t' l' | [] => false end end.

Lemma string_agree : forall t p, forallb lit_ok t = true -> p <= length s ->
  match_string v (f_ci f) t p = if agree t (skipn p s) then Ok (p + length t) else No.
Proof.
  induction t as [|a t IH]; intros p Ht Hp; cbn [match_string agree].
  - rewrite Nat.add_0_r. reflexivity.
  - cbn [forallb] in Ht. apply andb_true_iff in Ht as [Ha Ht]. change (vend v p) with (Some (Nat.eqb p (length s))). cbn [or_ub].
    destruct (Nat.eqb_spec p (length s)) as [E|E]; [subst; rewrite skipn_all; reflexivity|].
    destruct (nth_error s p) as [x|] eqn:Ex; [|apply nth_error_None in Ex; lia].
    assert (K : skipn p s = x :: skipn (S p) s).
    { clear - Ex. revert s Ex. induction p as [|p IH]; intros [|y s] Ex; cbn in *; try discriminate; [congruence|]. apply IH. assumption. }
    rewrite K. change (vget v p) with (nth_error s p). rewrite Ex. cbn [or_ub].
    change (vnext v p) with (if Nat.ltb p (length s) then Some (S p) else None).
    destruct (Nat.ltb_spec p (length s)); [|lia]. cbn [or_ub].
    rewrite match_lit_spec; [|assumption|rewrite forallb_forall in Hs; apply Hs; eapply nth_error_In; eassumption].
    destruct (lit_has (f_ci f) a x); cbn [andb]; [|reflexivity]. rewrite IH by (auto; lia).
    destruct (agree t (skipn (S p) s)); [|reflexivity]. f_equal. cbn [length]. lia.
Qed.

Lemma agree_length : forall t p, agree t (skipn p s) = true -> p <= length s -> p + length t <= length s.
Proof.
  intros t p H Hp. assert (G : forall t l, agree t l = true -> length t <= length l).
  { clear. induction t as [|a t IH]; intros [|x l] H; cbn in *; try lia; try discriminate. apply andb_true_iff in H as [_ H]. apply IH in H. lia. }
  apply G in H. rewrite skipn_length in H. lia.
Qed.

Definition advanced : flags := match w with [] => f | _ => consumed_something f true end.
Lemma literal_step : forall n p c tl, p <= length s ->
  eval opt (S n) v v p f c (AR (literal w) :: tl) =
  if agree w (skipn p s) then eval opt n v v (p + length w) advanced c tl else No.
Proof.
  intros n p c tl Hp. unfold advanced. destruct w as [|a [|b t]] eqn:E.
  - cbn [literal eval agree length]. rewrite Nat.add_0_r. reflexivity.
  - cbn [literal eval]. pose proof (string_agree [a] p Hw Hp) as H. cbn [match_string] in H. cbn [length].
    change (match_cls (f_ci f) (CChar a)) with (match_lit (f_ci f) a).
    destruct (vend v p) as [e|]; cbn [or_ub] in *; [|destruct (agree [a] (skipn p s)); discriminate].
    destruct e; [destruct (agree [a] (skipn p s)); [discriminate|reflexivity]|].
    destruct (vget v p) as [x|]; cbn [or_ub] in *; [|destruct (agree [a] (skipn p s)); discriminate].
    destruct (vnext v p) as [q|]; cbn [or_ub] in *; [|destruct (agree [a] (skipn p s)); discriminate].
    destruct (match_lit (f_ci f) a x); destruct (agree [a] (skipn p s)); try discriminate; [|reflexivity].
    cbn [length] in H. injection H as ->. reflexivity.
  - change (literal (a :: b :: t)) with (RStr (a :: b :: t)). cbn [eval]. rewrite string_agree by auto.
    destruct (agree (a :: b :: t) (skipn p s)); reflexivity.
Qed.

Definition whole_caps (b e : nat) : caps := mkCaps (mkSlot (Some b) (Some e) true) [].
Lemma fresh_literal : fresh (literal w) = mkCaps empty_slot [].
Proof. destruct w as [|a [|b t]]; reflexivity. Qed.

Lemma literal_attempt : forall n p, p <= length s -> 4 <= n ->
  attempt opt n s f (literal w) p = if agree w (skipn p s) then Ok (whole_caps p (p + length w)) else No.
Proof.
  intros n p Hp Hn. do 4 (destruct n as [|n]; [lia|]). unfold attempt. rewrite fresh_literal.
  change (eval opt (S (S (S (S n)))) v v p f (mkCaps empty_slot []) [AStart; AR (literal w); AEnd; AAccept])
    with (eval opt (S (S (S n))) v v p f (set_start_mark p (mkCaps empty_slot [])) [AR (literal w); AEnd; AAccept]).
  rewrite literal_step by assumption. destruct (agree w (skipn p s)); reflexivity.
Qed.

(** [match] accepts exactly the text. *)
Theorem literal_match : forall n, 5 <= n -> exists c, ctre_match opt n s f (literal w) = Ok c /\
  (matched c = true <-> length s = length w /\ agree w s = true) /\
  (matched c = true -> group c 0 = Some (0, length s)).
Proof.
  intros n Hn. do 5 (destruct n as [|n]; [lia|]). unfold ctre_match, exec_match. rewrite fresh_literal.
  change (eval opt (S (S (S (S (S n))))) v v 0 f (mkCaps empty_slot []) [AStart; AR (literal w); AR (RAssert ASubjectEnd); AEnd; AAccept])
    with (eval opt (S (S (S (S n)))) v v 0 f (set_start_mark 0 (mkCaps empty_slot [])) [AR (literal w); AR (RAssert ASubjectEnd); AEnd; AAccept]).
  rewrite literal_step by lia. cbn [skipn]. rewrite Nat.add_0_l. destruct (agree w s) eqn:E.
  - cbn [eval eval_assert]. change (vend v (length w)) with (Some (Nat.eqb (length w) (length s))). cbn [or_ub].
    destruct (Nat.eqb_spec (length w) (length s)) as [L|L].
    + eexists. split; [reflexivity|]. split; [split; [auto|reflexivity]|]. intros _. cbn. rewrite L. reflexivity.
    + eexists. split; [reflexivity|]. cbn [returned]. rewrite fresh_literal. cbn. split; [split; [discriminate|intros []; congruence]|discriminate].
  - eexists. split; [reflexivity|]. cbn [returned]. rewrite fresh_literal. cbn. split; [split; [discriminate|intros []; congruence]|discriminate].
Qed.
(** [starts_with] accepts exactly the subjects that begin with the text. *)
Theorem literal_starts : forall n, 4 <= n -> exists c, ctre_starts_with opt n s f (literal w) = Ok c /\
  (matched c = true <-> agree w s = true) /\ (matched c = true -> group c 0 = Some (0, length w)).
Proof.
  intros n Hn. unfold ctre_starts_with, exec_starts_with.
  change (eval opt n v v 0 f (fresh (literal w)) [AStart; AR (literal w); AEnd; AAccept]) with (attempt opt n s f (literal w) 0).
  rewrite literal_attempt by lia. cbn [skipn]. destruct (agree w s) eqn:E.
  - eexists. split; [reflexivity|]. split; [split; reflexivity|]. intros _. reflexivity.
  - eexists. split; [reflexivity|]. cbn [returned]. rewrite fresh_literal. cbn. split; [split; congruence|discriminate].
Qed.
Lemma literal_numbered : well_numbered (literal w).
Proof. destruct w as [|a [|b t]]; (split; [reflexivity|constructor]). Qed.
Lemma literal_unanchored : starts_with_anchor f (literal w) = false.
Proof. destruct w as [|a [|b t]]; reflexivity. Qed.
Lemma literal_loop : forall n m p, 4 <= n -> p <= length s -> length s < m + p -> exists c,
  search_loop opt n v v f (literal w) m p = Ok c.
Proof.
  intros n m. induction m as [|m IH]; intros p Hn Hp Hm; [lia|].
  assert (A : exists x, attempt opt n s f (literal w) p = x /\ (x = No \/ exists c, x = Ok c)).
  { rewrite literal_attempt by assumption. eexists. split; [reflexivity|]. destruct (agree w (skipn p s)); eauto. }
  destruct A as (x & A & Hx).
  cbn [search_loop]. change (vend v p) with (Some (Nat.eqb p (length s))). cbn [or_ub]. rewrite literal_unanchored.
  unfold search_last. change (eval opt n v v p f (fresh (literal w)) [AStart; AR (literal w); AEnd; AAccept]) with (attempt opt n s f (literal w) p).
  rewrite A. destruct (Nat.eqb_spec p (length s)) as [E|E]; cbn [negb andb].
  - destruct Hx as [-> | [c ->]]; eauto.
  - destruct Hx as [-> | [c ->]]; eauto. change (vnext v p) with (if Nat.ltb p (length s) then Some (S p) else None).
    destruct (Nat.ltb_spec p (length s)); [|lia]. cbn [or_ub]. apply IH; lia.
Qed.
(** [search] finds the first occurrence. *)
Theorem literal_search : forall n, 4 <= n -> length s < n -> exists c, ctre_search opt n s f (literal w) = Ok c /\
  (matched c = true <-> exists p, p <= length s /\ agree w (skipn p s) = true) /\
  (matched c = true -> exists p, group c 0 = Some (p, p + length w) /\ agree w (skipn p s) = true /\
     forall q, q < p -> agree w (skipn q s) = false).
Proof.
  intros n Hn Hl. destruct (literal_loop n n 0 Hn ltac:(lia) ltac:(lia)) as (c & Hc). exists c. split; [exact Hc|].
  apply (search_cases opt n s f (literal w) c 0 literal_numbered ltac:(lia)) in Hc. rewrite literal_unanchored in Hc.
  destruct Hc as [(q & Hq & H1 & _ & H2) | (q & -> & _ & H2)].
  - rewrite literal_attempt in H1 by lia. destruct (agree w (skipn q s)) eqn:E; [|discriminate]. injection H1 as <-.
    split; [split; [intros _; exists q; split; [lia|assumption]|reflexivity]|]. intros _. exists q. split; [reflexivity|]. split; [assumption|].
    intros q' Hq'. specialize (H2 q' ltac:(lia)). rewrite literal_attempt in H2 by lia. destruct (agree w (skipn q' s)); [discriminate|reflexivity].
  - rewrite fresh_literal. cbn. split; [split; [discriminate|]|discriminate]. intros (p & Hp & E).
    specialize (H2 p ltac:(lia)). rewrite literal_attempt in H2 by lia. rewrite E in H2. discriminate.
Qed.
End Text.

(** Case-sensitive: agreement is equality. *)
Lemma agree_exact : forall f t l, f_ci f = false -> agree f t l = true <-> exists r, l = t ++ r.
Proof.
  intros f t. induction t as [|a t IH]; intros l Hf; cbn [agree].
  - split; [exists l; reflexivity|reflexivity].
  - destruct l as [|x l]; [split; [discriminate|intros (r & H); discriminate]|]. rewrite Hf.
    unfold lit_has, fold_test. cbn [andb]. rewrite andb_true_iff, (IH l Hf). split.
    + intros [H (r & ->)]. exists r. cbn [app]. f_equal. lia.
    + intros (r & H). injection H as -> ->. split; [lia|eauto].
Qed.
Lemma agree_whole : forall f t l, f_ci f = false -> (length l = length t /\ agree f t l = true) <-> l = t.
Proof.
  intros f t l Hf. rewrite (agree_exact f t l Hf). split.
  - intros [H (r & ->)]. rewrite app_length in H. destruct r; [apply app_nil_r|cbn in H; lia].
  - intros ->. split; [reflexivity|exists []; rewrite app_nil_r; reflexivity].
Qed.

(** * Escaping *)
(** Put a backslash before each metacharacter. *)
Definition meta (c : Z) : bool := mem c [36; 40; 41; 42; 43; 46; 63; 91; 92; 94; 123; 124; 125]%Z.
Definition escape (w : list Z) : list Z := flat_map (fun c => if meta c then [92; c]%Z else [c]) w.
Lemma ordinary_not_meta : forall c, meta c = false -> ordinary c.
Proof.
  intros c H. unfold ordinary. destruct (mem c not_others) eqn:E.
  - left. assert (G : forallb (fun c => meta c || mem c set0) not_others = true) by (vm_compute; reflexivity).
    rewrite forallb_forall in G. apply mem_in in E. apply G in E. rewrite H in E. apply mem_in. exact E.
  - right. intros I. apply mem_in in I. congruence.
Qed.
Lemma meta_escapable : forall c, meta c = true -> In c escapable.
Proof.
  intros c H. apply mem_in in H. assert (G : forallb (fun c => mem c escapable) [36; 40; 41; 42; 43; 46; 63; 91; 92; 94; 123; 124; 125]%Z = true) by reflexivity.
  rewrite forallb_forall in G. apply mem_in. apply G. assumption.
Qed.
Theorem escape_spells : forall w, spells (escape w) w.
Proof.
  induction w as [|c w IH]; [constructor|]. cbn [escape flat_map]. constructor; [|exact IH].
  destruct (meta c) eqn:E; constructor; [apply meta_escapable|apply ordinary_not_meta]; assumption.
Qed.
Theorem plain_spells : forall w, Forall (fun c => meta c = false) w -> spells w w.
Proof.
  intros w H. induction H as [|c w H1 H2 IH]; [constructor|]. apply (spells_cons [c] c w w); [|assumption].
  constructor. apply ordinary_not_meta. assumption.
Qed.

(** * Summaries *)
Definition plain (f : flags) : Prop := f_ci f = false.
Theorem text_match : forall props opt n s f p w, spells p w -> forallb lit_ok w = true -> forallb val_ok s = true -> 5 <= n -> plain f ->
  exists r c, compile props p = CRegex r /\ ctre_match opt n s f r = Ok c /\ (matched c = true <-> s = w).
Proof.
  intros props opt n s f p w H Hw Hs Hn Hf. exists (literal w).
  destruct (literal_match opt s f w Hw Hs n Hn) as (c & Hc & M & _). exists c. split; [apply spelled_compiles; assumption|].
  split; [assumption|]. rewrite M. apply agree_whole. assumption.
Qed.
Theorem text_starts : forall props opt n s f p w, spells p w -> forallb lit_ok w = true -> forallb val_ok s = true -> 4 <= n -> plain f ->
  exists r c, compile props p = CRegex r /\ ctre_starts_with opt n s f r = Ok c /\
    (matched c = true <-> exists t, s = w ++ t) /\ (matched c = true -> group c 0 = Some (0, length w)).
Proof.
  intros props opt n s f p w H Hw Hs Hn Hf. exists (literal w).
  destruct (literal_starts opt s f w Hw Hs n Hn) as (c & Hc & M & G). exists c. split; [apply spelled_compiles; assumption|].
  split; [assumption|]. split; [|assumption]. rewrite M. apply agree_exact. assumption.
Qed.
(** [occurs w s p]: the text [w] stands in [s] at position [p]. *)
Definition occurs (w s : list Z) (p : nat) : Prop := exists a b, s = a ++ w ++ b /\ length a = p.
Lemma occurs_agree : forall f w s p, plain f -> p <= length s -> agree f w (skipn p s) = true <-> occurs w s p.
Proof.
  intros f w s p Hf Hp. rewrite (agree_exact f w (skipn p s) Hf). split.
  - intros (r & E). exists (firstn p s), r. split; [rewrite <- E; symmetry; apply firstn_skipn|apply firstn_length_le; assumption].
  - intros (a & b & -> & <-). exists b. rewrite skipn_app, skipn_all, Nat.sub_diag. reflexivity.
Qed.
Lemma occurs_le : forall w s p, occurs w s p -> p + length w <= length s.
Proof. intros w s p (a & b & -> & <-). rewrite !app_length. lia. Qed.
Theorem text_search : forall props opt n s f p w, spells p w -> forallb lit_ok w = true -> forallb val_ok s = true ->
  4 <= n -> length s < n -> plain f ->
  exists r c, compile props p = CRegex r /\ ctre_search opt n s f r = Ok c /\
    (matched c = true <-> exists q, occurs w s q) /\
    (matched c = true -> exists q, group c 0 = Some (q, q + length w) /\ occurs w s q /\ forall q', occurs w s q' -> q <= q').
Proof.
  intros props opt n s f p w H Hw Hs Hn Hl Hf. exists (literal w).
  destruct (literal_search opt s f w Hw Hs n Hn Hl) as (c & Hc & M & G). exists c. split; [apply spelled_compiles; assumption|].
  split; [assumption|]. split.
  - rewrite M. split.
    + intros (q & Hq & E). exists q. apply (occurs_agree f); assumption.
    + intros (q & E). exists q. pose proof (occurs_le _ _ _ E). split; [lia|]. apply (occurs_agree f); [assumption|lia|assumption].
  - intros E. apply G in E as (q & E1 & E2 & E3). exists q. split; [assumption|].
    assert (Q : q <= length s).
    { destruct (Nat.le_gt_cases q (length s)); [assumption|]. specialize (E3 (length s) ltac:(lia)).
      rewrite skipn_all2 in E2 by lia. rewrite skipn_all in E3. congruence. }
    split; [apply (occurs_agree f); assumption|]. intros q' Hq'. pose proof (occurs_le _ _ _ Hq').
    destruct (Nat.le_gt_cases q q'); [assumption|]. specialize (E3 q' ltac:(lia)).
    apply (occurs_agree f) in Hq'; [congruence|assumption|lia].
Qed.
(** Case-insensitive matching of a text: letter by letter. *)
Lemma agree_forall2 : forall f t l, (length l = length t /\ agree f t l = true) <-> Forall2 (fun a x => lit_has (f_ci f) a x = true) t l.
Proof.
  intros f t. induction t as [|a t IH]; intros [|x l]; cbn [agree length].
  - split; [constructor|split; reflexivity].
  - split; [intros [E _]; discriminate|intros H; inversion H].
  - split; [intros [E _]; discriminate|intros H; inversion H].
  - split.
    + intros [E H]. apply andb_true_iff in H as [H1 H2]. constructor; [assumption|]. apply IH. split; [lia|assumption].
    + intros H. inversion H; subst. apply IH in H5 as [E ->]. split; [lia|]. rewrite H3. reflexivity.
Qed.
Theorem text_match_ci : forall props opt n s f p w, spells p w -> forallb lit_ok w = true -> forallb val_ok s = true -> 5 <= n ->
  exists r c, compile props p = CRegex r /\ ctre_match opt n s f r = Ok c /\
    (matched c = true <-> Forall2 (fun a x => lit_has (f_ci f) a x = true) w s).
Proof.
  intros props opt n s f p w H Hw Hs Hn. exists (literal w).
  destruct (literal_match opt s f w Hw Hs n Hn) as (c & Hc & M & _). exists c. split; [apply spelled_compiles; assumption|].
  split; [assumption|]. rewrite M. apply agree_forall2.
Qed.

(** Bounds as counts. *)
Lemma repeat_iff : forall c s, Forall (fun x => cls_has false (CChar c) x = true) s <-> s = repeat c (length s).
Proof.
  intros c s. induction s as [|x s IH]; [split; [reflexivity|constructor]|]. cbn [length repeat]. split.
  - intros H. inversion H as [|? ? H1 H2]; subst. cbn [cls_has] in H1. unfold lit_has, fold_test in H1. cbn [andb] in H1.
    f_equal; [lia|apply IH; assumption].
  - intros H. injection H as -> H. constructor; [|apply IH; assumption]. cbn [cls_has]. unfold lit_has, fold_test. cbn [andb]. lia.
Qed.
Theorem bounds_count : forall props u c l m, spell1 u c -> lit_ok c = true ->
  Forall is_digit l -> l <> [] -> (decimal l < 2 ^ 64)%N -> Forall is_digit m -> m <> [] -> (0 < decimal m < 2 ^ 64)%N ->
  exists r1 r2 r3, compile props (u ++ 123%Z :: m ++ [125%Z]) = CRegex r1 /\
    compile props (u ++ 123%Z :: l ++ [44%Z; 125%Z]) = CRegex r2 /\
    compile props (u ++ 123%Z :: l ++ 44%Z :: m ++ [125%Z]) = CRegex r3 /\
    forall opt n s f x, forallb val_ok s = true -> plain f ->
      (ctre_match opt n s f r1 = Ok x -> (matched x = true <-> s = repeat c (length s) /\ N.of_nat (length s) = decimal m)) /\
      (ctre_match opt n s f r2 = Ok x -> (matched x = true <-> s = repeat c (length s) /\ (decimal l <= N.of_nat (length s))%N)) /\
      (ctre_match opt n s f r3 = Ok x -> (matched x = true <-> s = repeat c (length s) /\ (decimal l <= N.of_nat (length s) <= decimal m)%N)).
Proof.
  intros props u c l m Hu Hc Hl Hl2 Hl3 Hm Hm2 Hm3.
  destruct (bounds_compile props u c l Hu Hl Hl2) as [_ E2]. destruct (bounds_compile props u c m Hu Hm Hm2) as [E1 _].
  pose proof (bounds_compile2 props u c l m Hu Hl Hl2 Hm Hm2) as E3.
  rewrite (wrap_small (decimal l)) in * by exact Hl3. rewrite (wrap_small (decimal m)) in * by apply Hm3.
  do 3 eexists. split; [exact E1|]. split; [exact E2|]. split; [exact E3|].
  intros opt n s f x Hs Hf. unfold plain in Hf.
  assert (Hk : cls_ok (f_ci f) (CChar c) = true) by (rewrite Hf; exact Hc).
  split; [|split]; intros H.
  - apply rep_counts in H; [|assumption|assumption]. rewrite Hf, repeat_iff in H. rewrite H. intuition lia.
  - apply rep_counts in H; [|assumption|assumption]. rewrite Hf, repeat_iff in H. rewrite H. intuition lia.
  - apply rep_counts in H; [|assumption|assumption]. rewrite Hf, repeat_iff in H. rewrite H. intuition lia.
Qed.
