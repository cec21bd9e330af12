(** Mode switches inside a pattern: (?i), (?c), (?m), (?s). *)
From Coq Require Import List ZArith NArith Bool Lia Arith.
From Verif Require Import Chars Syntax First View Eval Api Spec CharProofs EvalMono EvalSem EvalTop
  EvalSound Match.
Import ListNotations.

(** * Textual scope, as documented for (?i) in Perl and PCRE *)
(** The mode in effect: multiline, case-insensitive. *)
Definition modes : Type := bool * bool.
Definition switch (m : mode) (x : modes) : modes :=
  match m with
  | ModeCI => (fst x, true) | ModeCS => (fst x, false)
  | ModeSL => (false, snd x) | ModeML => (true, snd x)
  end.
(** The mode at the end of an alternative, which is where the next alternative starts. *)
Definition mode_end (x : modes) (r : re) : modes :=
  match r with
  | RMode m => switch m x
  | RSeq l => fold_left (fun y i => match i with RMode m => switch m y | _ => y end) l x
  | _ => x
  end.

Section Scoped.
Variable s : list Z.
(** The ends of [r] read from [p]. A switch acts on the items after it in its sequence and on the
    alternatives after its own, not outside of the group. Constructs without switches are read as in
    Spec.v; repetitions and lookarounds around a switch are not covered here. *)
Fixpoint scoped (x : modes) (r : re) (p : nat) : list nat :=
  let seq := fix seq (x : modes) (l : list re) (p : nat) : list nat :=
    match l with
    | [] => [p]
    | RMode m :: ys => seq (switch m x) ys p
    | y :: ys => flat_map (seq x ys) (scoped x y p)
    end in
  match r with
  | RSeq l | RCap _ l | RNCap _ _ l => seq x l p
  | RSelect l => (fix alt (x : modes) (l : list re) : list nat :=
      match l with [] => [] | y :: ys => scoped x y p ++ alt (mode_end x y) ys end) x l
  | RMode _ => [p]
  | _ => map fst (enum s (fst x) (snd x) (fun _ => None) false r (p, []))
  end.
Fixpoint scoped_items (x : modes) (l : list re) (p : nat) : list nat :=
  match l with
  | [] => [p]
  | RMode m :: ys => scoped_items (switch m x) ys p
  | y :: ys => flat_map (scoped_items x ys) (scoped x y p)
  end.
Lemma scoped_seq : forall x l p, scoped x (RSeq l) p = scoped_items x l p.
Proof. reflexivity. Qed.
End Scoped.

(** * What the evaluator does *)
(** Items without a switch in them. *)
Fixpoint simple (r : re) : bool :=
  match r with
  | RCls c | RBound c | RNotBound c => cls_ok true c && cls_ok false c
  | RAny | REmpty | RAssert _ => true
  | RStr t => forallb lit_ok t
  | RSelect l => forallb simple l
  | RSeq l => negb (Nat.eqb (length l) 0) && forallb simple l
  | _ => false
  end.
Definition item (r : re) : bool := match r with RMode _ => true | _ => simple r end.
(** A top-level sequence of switches and simple items. *)
Definition flat (r : re) : bool :=
  match r with RSeq l => negb (Nat.eqb (length l) 0) && forallb item l | _ => false end.

Definition mode_of (f : flags) : modes := (f_ml f, f_ci f).
Lemma mode_add : forall f m, mode_of (add_mode f m) = switch m (mode_of f).
Proof. intros [? ? ?] []; reflexivity. Qed.

Fixpoint first_of (l : list (res caps)) : res caps :=
  match l with [] => No | No :: tl => first_of tl | x :: _ => x end.
Lemma first_app : forall l1 l2, first_of (l1 ++ l2) = match first_of l1 with No => first_of l2 | x => x end.
Proof. induction l1 as [|x l1 IH]; intros l2; [reflexivity|]. destruct x; cbn; auto. Qed.
Lemma first_flat : forall (K : nat -> res caps) (g : nat -> list nat) l,
  first_of (map K (flat_map g l)) = first_of (map (fun q => first_of (map K (g q))) l).
Proof.
  intros K g l. induction l as [|x l IH]; [reflexivity|]. cbn [flat_map map]. rewrite map_app, first_app.
  cbn [first_of]. destruct (first_of (map K (g x))); auto.
Qed.

(** [X] has the outcome [x] with enough fuel. *)
Definition gives (X : nat -> res caps) (x : res caps) : Prop := exists n, forall m, n <= m -> X m = x.

Section Flat.
Variables (opt : bool) (s : list Z).
Hypothesis s_ok : forallb val_ok s = true.
Notation v := (arr_view s).

Lemma give_S : forall (X Y : nat -> res caps) x, (forall n, X (S n) = Y n) -> gives Y x -> gives X x.
Proof. intros X Y x E [n H]. exists (S n). intros [|m] Hm; [lia|]. rewrite E. apply H. lia. Qed.
Lemma give_const : forall (X : nat -> res caps) x, (forall n, X (S n) = x) -> gives X x.
Proof. intros X x E. exists 1. intros [|m] Hm; [lia|]. apply E. Qed.

Definition total (K : nat -> res caps) (f : flags) (c : caps) (tl : list atom) : Prop :=
  forall q, q <= length s -> gives (fun n => eval opt n v v q f c tl) (K q).

Lemma item_eval : forall r, simple r = true -> forall f c tl K p, f_block f = false -> p <= length s -> total K f c tl ->
  gives (fun n => eval opt n v v p f c (AR r :: tl)) (first_of (map K (scoped s (mode_of f) r p))) /\
  Forall (fun q => q <= length s) (scoped s (mode_of f) r p).
Proof.
  assert (CS : forall f b, f_block f = false -> consumed_something f b = f).
  { intros [fb fm fc] []; cbn; intros; subst; reflexivity. }
  assert (STEP : forall p P, p <= length s -> Forall (fun q => q <= length s) (map fst (step s P (p, [])))).
  { intros p P Hp. unfold step. cbn [fst snd]. destruct (nth_error s p) as [x|] eqn:E; [|constructor].
    assert (p < length s) by (apply nth_error_Some; congruence).
    destruct (P x); constructor; [cbn; lia|constructor]. }
  induction r as
    [ | r l IHr IHl | k | | t | l IH | l IH | | | kd a b l IH | id l IH | id nm l IH | id | nm
    | neg l IH | neg l IH | l IH | k | k | a | md ]
    using re_ind2 with (Q := fun l => Forall (fun r => simple r = true -> forall f c tl K p, f_block f = false ->
      p <= length s -> total K f c tl ->
      gives (fun n => eval opt n v v p f c (AR r :: tl)) (first_of (map K (scoped s (mode_of f) r p))) /\
      Forall (fun q => q <= length s) (scoped s (mode_of f) r p)) l);
    [constructor | constructor; assumption | ..]; intros Hr f c tl K p Hf Hp HK; try discriminate.
  - (* RCls *)
    split; [|apply STEP; assumption]. cbn [scoped enum map fst snd mode_of]. unfold step. cbn [fst snd].
    cbn [simple] in Hr. apply andb_true_iff in Hr as [R1 R2].
    destruct (nth_error s p) as [x|] eqn:E.
    + assert (Hlt : p < length s) by (apply nth_error_Some; congruence).
      assert (Hc : match_cls (f_ci f) k x = cls_has (f_ci f) k x).
      { apply match_cls_spec; [destruct (f_ci f); assumption|eapply nth_val; eassumption]. }
      assert (Hne : Nat.eqb p (length s) = false) by (apply Nat.eqb_neq; lia).
      assert (Hl : Nat.ltb p (length s) = true) by (apply Nat.ltb_lt; lia).
      destruct (cls_has (f_ci f) k x) eqn:Eh.
      * apply give_S with (Y := fun n => eval opt n v v (S p) f c tl).
        { intros n. cbn [eval arr_view vend vget vnext]. rewrite Hne. cbn [or_ub]. rewrite E. cbn [or_ub]. rewrite Hc, Hl.
          cbn [or_ub]. rewrite CS by assumption. reflexivity. }
        cbn [map fst first_of]. destruct (HK (S p) ltac:(lia)) as [n H]. exists n. intros m Hm. rewrite H by assumption.
        destruct (K (S p)); reflexivity.
      * apply give_const. intros n. cbn [eval arr_view vend vget vnext]. rewrite Hne. cbn [or_ub]. rewrite E. cbn [or_ub].
        rewrite Hc. reflexivity.
    + assert (Heq : p = length s) by (apply nth_error_None in E; lia). apply give_const. intros n.
      cbn [eval arr_view vend]. rewrite (proj2 (Nat.eqb_eq _ _) Heq). reflexivity.
  - (* RAny *)
    split; [|apply STEP; assumption]. cbn [scoped enum map fst snd mode_of]. unfold step. cbn [fst snd].
    destruct (nth_error s p) as [x|] eqn:E.
    + assert (Hlt : p < length s) by (apply nth_error_Some; congruence).
      assert (Hne : Nat.eqb p (length s) = false) by (apply Nat.eqb_neq; lia).
      assert (Hl : Nat.ltb p (length s) = true) by (apply Nat.ltb_lt; lia).
      assert (Hd : (if f_ml f then option_map (fun x => Z.eqb x 10) (nth_error s p) else Some false) = Some (negb (dot (f_ml f) x))).
      { unfold dot. rewrite E. destruct (f_ml f); cbn; [rewrite negb_involutive|]; reflexivity. }
      destruct (dot (f_ml f) x) eqn:Eh.
      * apply give_S with (Y := fun n => eval opt n v v (S p) f c tl).
        { intros n. cbn [eval arr_view vend vget vnext]. rewrite Hne. cbn [or_ub]. rewrite Hd, Hl. cbn [or_ub negb].
          rewrite CS by assumption. reflexivity. }
        cbn [map fst first_of]. destruct (HK (S p) ltac:(lia)) as [n H]. exists n. intros m Hm. rewrite H by assumption.
        destruct (K (S p)); reflexivity.
      * apply give_const. intros n. cbn [eval arr_view vend vget vnext]. rewrite Hne. cbn [or_ub]. rewrite Hd. reflexivity.
    + assert (Heq : p = length s) by (apply nth_error_None in E; lia). apply give_const. intros n.
      cbn [eval arr_view vend]. rewrite (proj2 (Nat.eqb_eq _ _) Heq). reflexivity.
  - (* RStr *)
    cbn [scoped enum map fst snd mode_of]. cbn [simple] in Hr.
    pose proof (match_string_walk s (f_ci f) s_ok t p [] Hr Hp) as M.
    destruct (match_string v (f_ci f) t p) as [q| | | |] eqn:E.
    + destruct M as (M1 & M2 & M3). 
      assert (M1' : map fst (walk s (f_ci f) t (p, [])) = [q]) by exact (f_equal (map fst) M1).
      setoid_rewrite M1'. cbn [map first_of]. split; [|constructor; [assumption|constructor]].
      apply give_S with (Y := fun n => eval opt n v v q f c tl).
      { intros n. cbn [eval]. rewrite E, CS by assumption. reflexivity. }
      destruct (HK q M3) as [n H]. exists n. intros m Hm. rewrite H by assumption. destruct (K q); reflexivity.
    + assert (M' : map fst (walk s (f_ci f) t (p, [])) = []) by exact (f_equal (map fst) M). setoid_rewrite M'.
      split; [|constructor]. apply give_const. intros n. cbn [eval]. rewrite E. reflexivity.
    + exfalso. clear -E Hp. revert p Hp E. induction t as [|ch t IH]; cbn [match_string]; [discriminate|]. intros p Hp.
      cbn [arr_view vend vget vnext or_ub]. destruct (Nat.eqb_spec p (length s)); [discriminate|].
      destruct (nth_error s p); [|discriminate]. cbn [or_ub]. destruct (Nat.ltb_spec p (length s)); [|discriminate]. cbn [or_ub].
      destruct (match_lit _ _ _); [|discriminate]. apply IH. lia.
    + exfalso. clear -E Hp. revert p Hp E. induction t as [|ch t IH]; cbn [match_string]; [discriminate|]. intros p Hp.
      cbn [arr_view vend vget vnext or_ub]. destruct (Nat.eqb_spec p (length s)); [discriminate|].
      destruct (nth_error s p) eqn:E; [|apply nth_error_None in E; lia]. cbn [or_ub].
      destruct (Nat.ltb_spec p (length s)); [|lia]. cbn [or_ub].
      destruct (match_lit _ _ _); [|discriminate]. apply IH. lia.
    + exfalso. clear -E Hp. revert p Hp E. induction t as [|ch t IH]; cbn [match_string]; [discriminate|]. intros p Hp.
      cbn [arr_view vend vget vnext or_ub]. destruct (Nat.eqb_spec p (length s)); [discriminate|].
      destruct (nth_error s p); [|discriminate]. cbn [or_ub]. destruct (Nat.ltb_spec p (length s)); [|discriminate]. cbn [or_ub].
      destruct (match_lit _ _ _); [|discriminate]. apply IH. lia.
  - (* RSelect *)
    cbn [simple] in Hr.
    assert (ME : forall x y, simple y = true -> mode_end x y = x).
    { intros x y Hy. destruct y; try reflexivity; try discriminate. cbn [simple] in Hy. apply andb_true_iff in Hy as [_ Hy].
      cbn [mode_end]. clear -Hy. match type of Hy with forallb _ ?L = _ => induction L as [|z l0 IH] end; [reflexivity|]. cbn [forallb] in Hy. apply andb_true_iff in Hy as [H1 H2].
      cbn [fold_left]. destruct z; try discriminate; apply IH; assumption. }
    induction l as [|y ys IHl].
    + split; [|constructor]. apply give_const. reflexivity.
    + cbn [forallb] in Hr. apply andb_true_iff in Hr as [R1 R2]. inversion IH as [|? ? I1 I2]; subst.
      destruct (I1 R1 f c tl K p Hf Hp HK) as [[n1 G1] B1]. destruct (IHl I2 R2) as [[n2 G2] B2].
      change (scoped s (mode_of f) (RSelect (y :: ys)) p)
        with (scoped s (mode_of f) y p ++ scoped s (mode_end (mode_of f) y) (RSelect ys) p).
      rewrite ME by assumption. split; [|apply Forall_app; split; assumption].
      rewrite map_app, first_app. exists (S (n1 + n2)). intros [|m] Hm; [lia|]. cbn [eval]. rewrite G1 by lia.
      destruct (first_of (map K (scoped s (mode_of f) y p))); try reflexivity. apply G2. lia.
  - (* RSeq *)
    rewrite scoped_seq. cbn [simple] in Hr. apply andb_true_iff in Hr as [Hne Hr].
    revert K tl p Hp HK. induction l as [|y ys IHl]; [discriminate|]. intros K tl p Hp HK.
    cbn [forallb] in Hr. apply andb_true_iff in Hr as [R1 R2]. inversion IH as [|? ? I1 I2]; subst.
    assert (SI : scoped_items s (mode_of f) (y :: ys) p = flat_map (scoped_items s (mode_of f) ys) (scoped s (mode_of f) y p))
      by (destruct y; try reflexivity; discriminate).
    destruct ys as [|z zs].
    + destruct (I1 R1 f c tl K p Hf Hp HK) as [G1 B1].
      assert (SI1 : scoped_items s (mode_of f) [y] p = scoped s (mode_of f) y p).
      { rewrite SI. clear. induction (scoped s (mode_of f) y p) as [|x l IH]; [reflexivity|]. cbn. f_equal. exact IH. }
      rewrite SI1. split; [|assumption].
      eapply give_S; [|exact G1]. reflexivity.
    + specialize (IHl I2 ltac:(reflexivity) R2).
      assert (HK' : total (fun q => first_of (map K (scoped_items s (mode_of f) (z :: zs) q))) f c (AR (RSeq (z :: zs)) :: tl)).
      { intros q Hq. apply (IHl K tl q Hq HK). }
      destruct (I1 R1 f c _ _ p Hf Hp HK') as [G1 B1]. rewrite SI. split.
      * rewrite first_flat. eapply give_S; [|exact G1]. reflexivity.
      * apply Forall_flat_map. rewrite Forall_forall in B1 |- *. intros q Hq. apply (IHl K tl q (B1 q Hq) HK).
  - (* REmpty *)
    cbn [scoped enum map fst first_of]. split; [|constructor; [assumption|constructor]].
    apply give_S with (Y := fun n => eval opt n v v p f c tl); [reflexivity|].
    destruct (HK p Hp) as [n H]. exists n. intros m Hm. rewrite H by assumption. destruct (K p); reflexivity.
  - (* RBound *)
    cbn [simple] in Hr. apply andb_true_iff in Hr as [R1 R2].
    assert (Hc : cls_ok (f_ci f) k = true) by (destruct (f_ci f); assumption).
    assert (A := around_boundary s (f_ci f) s_ok k p Hc Hp).
    cbn [scoped enum mode_of fst snd]. unfold boundary.
    destruct (char_before s (cls_has (f_ci f) k) p), (char_after s (cls_has (f_ci f) k) p);
      cbn [xorb map fst first_of];
      (split; [|repeat constructor; assumption]);
      try (apply give_const; intros n; cbn [eval]; rewrite A; reflexivity);
      (apply give_S with (Y := fun n => eval opt n v v p f c tl); [intros n; cbn [eval]; rewrite A; reflexivity|];
       destruct (HK p Hp) as [n H]; exists n; intros m Hm; rewrite H by assumption; destruct (K p); reflexivity).
  - (* RNotBound *)
    cbn [simple] in Hr. apply andb_true_iff in Hr as [R1 R2].
    assert (Hc : cls_ok (f_ci f) k = true) by (destruct (f_ci f); assumption).
    assert (A := around_boundary s (f_ci f) s_ok k p Hc Hp).
    cbn [scoped enum mode_of fst snd]. unfold boundary.
    destruct (char_before s (cls_has (f_ci f) k) p), (char_after s (cls_has (f_ci f) k) p);
      cbn [xorb map fst first_of];
      (split; [|repeat constructor; assumption]);
      try (apply give_const; intros n; cbn [eval]; rewrite A; reflexivity);
      (apply give_S with (Y := fun n => eval opt n v v p f c tl); [intros n; cbn [eval]; rewrite A; reflexivity|];
       destruct (HK p Hp) as [n H]; exists n; intros m Hm; rewrite H by assumption; destruct (K p); reflexivity).
  - (* RAssert *)
    assert (A := assert_holds s (f_ml f) a p Hp).
    cbn [scoped enum mode_of fst snd].
    destruct (holds s (f_ml f) a p); cbn [map fst first_of].
    + split; [|repeat constructor; assumption].
      apply give_S with (Y := fun n => eval opt n v v p f c tl); [intros n; cbn [eval]; rewrite A; reflexivity|].
      destruct (HK p Hp) as [n H]. exists n. intros m Hm. rewrite H by assumption. destruct (K p); reflexivity.
    + split; [|constructor]. apply give_const. intros n. cbn [eval]. rewrite A. reflexivity.
Qed.

(** A sequence of switches and items. *)
Lemma items_eval : forall l, l <> [] -> forallb item l = true -> forall f c tl (K : nat -> res caps) p, f_block f = false -> p <= length s ->
  (forall f', f_block f' = false -> total K f' c tl) ->
  gives (fun n => eval opt n v v p f c (AR (RSeq l) :: tl)) (first_of (map K (scoped_items s (mode_of f) l p))).
Proof.
  assert (BM : forall f m, f_block (add_mode f m) = f_block f) by (intros [? ? ?] []; reflexivity).
  induction l as [|y ys IH]; [congruence|]. intros _ Hl f c tl K p Hf Hp HK.
  cbn [forallb] in Hl. apply andb_true_iff in Hl as [H1 H2].
  destruct ys as [|z zs].
  - apply give_S with (Y := fun n => eval opt n v v p f c (AR y :: tl)); [reflexivity|].
    assert (Sm : simple y = true -> gives (fun n => eval opt n v v p f c (AR y :: tl)) (first_of (map K (scoped_items s (mode_of f) [y] p)))).
    { intros Hy. destruct (item_eval y Hy f c tl K p Hf Hp (HK f Hf)) as [G _].
      assert (SI1 : scoped_items s (mode_of f) [y] p = scoped s (mode_of f) y p).
      { replace (scoped_items s (mode_of f) [y] p) with (flat_map (fun q => [q]) (scoped s (mode_of f) y p))
          by (destruct y; try reflexivity; discriminate).
        apply flat_map_single. }
      rewrite SI1. exact G. }
    destruct y; try (apply Sm; exact H1).
    cbn [scoped_items map first_of].
    apply give_S with (Y := fun n => eval opt n v v p (add_mode f m) c tl); [reflexivity|].
    destruct (HK (add_mode f m) ltac:(rewrite BM; assumption) p Hp) as [n H]. exists n. intros k Hk. rewrite H by assumption.
    destruct (K p); reflexivity.
  - specialize (IH ltac:(discriminate) H2).
    apply give_S with (Y := fun n => eval opt n v v p f c (AR y :: AR (RSeq (z :: zs)) :: tl)); [reflexivity|].
    assert (Sm : simple y = true -> gives (fun n => eval opt n v v p f c (AR y :: AR (RSeq (z :: zs)) :: tl))
             (first_of (map K (scoped_items s (mode_of f) (y :: z :: zs) p)))).
    { intros Hy. pose (K' := fun q => first_of (map K (scoped_items s (mode_of f) (z :: zs) q))).
      assert (HK' : total K' f c (AR (RSeq (z :: zs)) :: tl)).
      { intros q Hq. apply (IH f c tl K q Hf Hq HK). }
      destruct (item_eval y Hy f c _ K' p Hf Hp HK') as [G _].
      replace (scoped_items s (mode_of f) (y :: z :: zs) p)
        with (flat_map (scoped_items s (mode_of f) (z :: zs)) (scoped s (mode_of f) y p))
        by (destruct y; try reflexivity; discriminate).
      rewrite first_flat. exact G. }
    destruct y; try (apply Sm; exact H1).
    change (scoped_items s (mode_of f) (RMode m :: z :: zs) p)
      with (scoped_items s (switch m (mode_of f)) (z :: zs) p).
    rewrite <- mode_add.
    apply give_S with (Y := fun n => eval opt n v v p (add_mode f m) c (AR (RSeq (z :: zs)) :: tl)); [reflexivity|].
    apply (IH (add_mode f m) c tl K p); [rewrite BM; assumption | assumption | assumption].
Qed.

(** Matching a whole subject. *)
Theorem flat_match : forall f r, f_block f = false -> flat r = true ->
  exists n c, (forall m, n <= m -> ctre_match opt m s f r = Ok c) /\
    (matched c = true <-> In (length s) (scoped s (mode_of f) r 0)).
Proof.
  intros f r Hf Hr. destruct r; try discriminate. cbn [flat] in Hr. apply andb_true_iff in Hr as [Hne Hl].
  assert (Hl0 : l <> []) by (destruct l; [discriminate|discriminate]).
  pose (c1 := set_start_mark 0 (fresh (RSeq l))).
  pose (K := fun q => if Nat.eqb q (length s) then Ok (set_matched (set_end_mark q c1)) else No).
  assert (HK : forall f', f_block f' = false -> total K f' c1 [AR (RAssert ASubjectEnd); AEnd; AAccept]).
  { intros f' _ q Hq. unfold K. exists 3. intros m Hm. do 3 (destruct m as [|m]; [lia|]).
    cbn [eval eval_assert arr_view vend vconv or_ub]. destruct (Nat.eqb q (length s)); reflexivity. }
  destruct (items_eval l Hl0 Hl f c1 _ K 0 Hf ltac:(lia) HK) as [n H].
  rewrite scoped_seq.
  set (ends := scoped_items s (mode_of f) l 0) in *.
  assert (V : In (length s) ends /\ first_of (map K ends) = Ok (set_matched (set_end_mark (length s) c1)) \/
              ~ In (length s) ends /\ first_of (map K ends) = No).
  { clear. induction ends as [|q ends IH]; [right; split; [intros []|reflexivity]|].
    cbn [map first_of].
    replace (K q) with (if Nat.eqb q (length s) then Ok (set_matched (set_end_mark q c1)) else No) by reflexivity.
    destruct (Nat.eqb_spec q (length s)) as [->|Hq].
    - left. split; [left; reflexivity | reflexivity].
    - destruct IH as [[I1 I2]|[I1 I2]]; [left|right]; (split; [|assumption]); cbn; tauto. }
  destruct V as [[V1 V2]|[V1 V2]]; rewrite V2 in H.
  - exists (S n), (set_matched (set_end_mark (length s) c1)). split.
    + intros [|m] Hm; [lia|]. unfold ctre_match, exec_match. cbn [eval vconv arr_view].
      fold c1. fold v. rewrite (H m) by lia. reflexivity.
    + split; [auto|reflexivity].
  - exists (S n), (fresh (RSeq l)). split.
    + intros [|m] Hm; [lia|]. unfold ctre_match, exec_match. cbn [eval vconv arr_view].
      fold c1. fold v. rewrite (H m) by lia. reflexivity.
    + split; [discriminate|contradiction].
Qed.
End Flat.

(** * A switch at the beginning of the pattern *)
Definition under (m : mode) (l : list re) : re := RSeq (RMode m :: l).
Lemma captures_under : forall m l, find_captures (under m l) = find_captures (RSeq l).
Proof. reflexivity. Qed.
Theorem match_under : forall opt n s f m x xs,
  ctre_match opt (S (S (S n))) s f (under m (x :: xs)) = ctre_match opt (S n) s (add_mode f m) (RSeq (x :: xs)).
Proof. reflexivity. Qed.
Theorem starts_under : forall opt n s f m x xs,
  ctre_starts_with opt (S (S (S n))) s f (under m (x :: xs)) = ctre_starts_with opt (S n) s (add_mode f m) (RSeq (x :: xs)).
Proof. reflexivity. Qed.
Theorem leading_sound : forall opt s f m x xs n c, forallb val_ok s = true ->
  sound_fragment opt (add_mode f m) (RSeq (x :: xs)) ->
  ctre_match opt (S (S n)) s f (RSeq (RMode m :: x :: xs)) = Ok c -> matched c = true ->
  exists lg, derives s (add_mode f m) (RSeq (x :: xs)) 0 (length s) lg /\ captures_are (RSeq (x :: xs)) c lg.
Proof.
  intros opt s f m x xs n c Hs Hf H Hm. destruct n as [|n]; [discriminate|].
  apply (match_sound opt s (add_mode f m) (RSeq (x :: xs)) Hs (S n) c Hf H Hm).
Qed.

(** * The modifiers of the call *)
Lemma last_modifier : forall (on off : modifier) (get : flags -> bool), on <> off -> get (mkFlags false false false) = false ->
  (forall f, get (set_flag f on) = true) -> (forall f, get (set_flag f off) = false) ->
  (forall f m, m <> on -> m <> off -> get (set_flag f m) = get f) ->
  forall l, get (flags_of l) = true <-> exists l1 l2, l = l1 ++ on :: l2 /\ ~ In off l2.
Proof.
  intros on off get D H0 H1 H2 H3 l. unfold flags_of.
  induction l as [|m l IH] using rev_ind; [cbn; rewrite H0; split; [discriminate|intros ([|] & l2 & E & _); discriminate E]|].
  rewrite fold_left_app. cbn [fold_left]. assert (ED : forall a b : modifier, {a = b} + {a <> b}) by decide equality.
  destruct (ED m on) as [->|N1]; [rewrite H1; split; [intros _; exists l, []; split; [reflexivity|intros []]|reflexivity]|].
  destruct (ED m off) as [->|N2].
  - rewrite H2. split; [discriminate|]. intros (l1 & l2 & E & I). exfalso. destruct l2 as [|x l2] using rev_ind.
    + apply app_inj_tail in E as [_ E]. congruence.
    + rewrite app_comm_cons, app_assoc in E. apply app_inj_tail in E as [_ <-]. apply I. apply in_or_app. right. left. reflexivity.
  - rewrite H3, IH by assumption. split.
    + intros (l1 & l2 & -> & I). exists l1, (l2 ++ [m]). split; [rewrite app_comm_cons, app_assoc; reflexivity|].
      intros J. apply in_app_or in J as [J|[J|[]]]; [contradiction|congruence].
    + intros (l1 & l2 & E & I). destruct l2 as [|x l2 _] using rev_ind.
      * apply app_inj_tail in E as [_ E]. congruence.
      * rewrite app_comm_cons, app_assoc in E. apply app_inj_tail in E as [-> ->]. exists l1, l2. split; [reflexivity|].
        intros J. apply I. apply in_or_app. left. assumption.
Qed.
Lemma modifiers : forall l, f_block (flags_of l) = false /\
  (f_ci (flags_of l) = true <-> exists l1 l2, l = l1 ++ Mcase_insensitive :: l2 /\ ~ In Mcase_sensitive l2) /\
  (f_ml (flags_of l) = true <-> exists l1 l2, l = l1 ++ Mmultiline :: l2 /\ ~ In Msingleline l2).
Proof.
  intros l. split; [|split; apply last_modifier; try reflexivity; try discriminate; intros f [] N1 N2; solve [reflexivity|congruence]].
  unfold flags_of. assert (G : forall l f, f_block f = false -> f_block (fold_left set_flag l f) = false); [|apply G; reflexivity].
  clear l. induction l as [|m l IH]; intros f H; [assumption|]. cbn [fold_left]. apply IH. destruct m; assumption.
Qed.
