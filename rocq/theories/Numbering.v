(** Numbers of the groups of a pattern: C32. *)
From Coq Require Import List ZArith NArith Bool Arith Lia Permutation.
From Coq Require Import ZifyBool ZifyNat ZifyN.
From Verif Require Import Chars Syntax View Eval Api Grammar Actions Parser Spec EvalInv ApiProofs ParserProofs.
Import ListNotations.

(** * Specification: the groups of a pattern text *)
(** A scan of the pattern text. [Open]: just behind an opening parenthesis; [OpenQ]: behind [(?]; [OpenLt]:
    behind [(?<]; [Switch]: in a mode switch; [Switches]: in one with several letters; [Set]: in [[...]]. *)
Inductive place := Plain | Escape | Open | OpenQ | OpenLt | Switch | Switches | Set1 | SetEscape | Named.
Definition outside (ch : Z) : place :=
  if (ch =? 92)%Z then Escape else if (ch =? 40)%Z then Open else if (ch =? 91)%Z then Set1 else Plain.
(** The next place, and whether a capturing group begins here. *)
Definition next_place (p : place) (ch : Z) : place * bool :=
  match p with
  | Plain => (outside ch, false)
  | Escape => (Plain, false)
  | Open => if (ch =? 63)%Z then (OpenQ, false) else (outside ch, true)
  | OpenQ => if (ch =? 60)%Z then (OpenLt, false)
             else if mem ch [105; 99; 109; 115]%Z then (Switch, false) else (Plain, false)
  | OpenLt => if mem ch [33; 61]%Z then (Plain, false) else (Plain, true)
  | Switch | Switches => if (ch =? 41)%Z then (Plain, false) else (Switches, false)
  | Set1 => if (ch =? 92)%Z then (SetEscape, false) else if (ch =? 91)%Z then (Named, false)
            else if (ch =? 93)%Z then (Plain, false) else (Set1, false)
  | SetEscape => (Set1, false)
  | Named => if (ch =? 93)%Z then (Set1, false) else (Named, false)
  end.
Record scanned := mkScan { s_place : place; s_groups : nat; s_several : bool }.
Definition scan1 (x : scanned) (ch : Z) : scanned :=
  let '(p, g) := next_place (s_place x) ch in
  mkScan p (if g then S (s_groups x) else s_groups x)
    (s_several x || match p with Switches => true | _ => false end).
Definition scan (l : list Z) : scanned := fold_left scan1 l (mkScan Plain 0 false).
(** The number of capturing groups of a pattern text, and whether it has a mode switch of several letters
    such as [(?im)]. *)
Definition groups (l : list Z) : nat := s_groups (scan l).
Definition several_letters (l : list Z) : bool := s_several (scan l).

(** The numbers of the groups of an AST in the order of the pattern text ([rv]: in a reversed part, the
    content of a lookbehind). *)
Definition pick (rv : bool) (l : list (list nat)) : list nat := concat (if rv then rev l else l).
Fixpoint ord (rv : bool) (r : re) : list nat :=
  match r with
  | RSelect l => concat (map (ord rv) l)
  | RSeq l | RRep _ _ _ l | RAtomic l => pick rv (map (ord rv) l)
  | RCap i l | RNCap i _ l => i :: pick rv (map (ord rv) l)
  | RAhead _ l => concat (map (ord false) l)
  | RBehind _ l => pick true (map (ord true) l)
  | _ => []
  end.
Definition numbers (r : re) : list nat := ord false r.

(** * The actions keep the numbers in order *)
Lemma opt_map_forall : forall (f : re -> option re) (g h : re -> list nat) l y, opt_map f l = Some y ->
  (forall r x, In r l -> f r = Some x -> h x = g r) -> map h y = map g l.
Proof.
  intros f g h l. induction l as [|r l IH]; intros y H K; cbn [opt_map] in H; [injection H as <-; reflexivity|].
  destruct (f r) as [x|] eqn:E; [|discriminate]. destruct (opt_map f l) as [ys|] eqn:E2; [|discriminate].
  injection H as <-. cbn [map]. rewrite (K r x) by (auto; left; reflexivity). f_equal. apply IH; [reflexivity|].
  intros r' x' I. apply K. right. assumption.
Qed.
Lemma pick_rev : forall l, pick true (rev l) = concat l.
Proof. intros l. unfold pick. rewrite rev_involutive. reflexivity. Qed.
Lemma rotate_ord : forall r x, rotate r = Some x -> ord true x = ord false r.
Proof.
  intros r.
  apply (re_ind2 (fun r => forall x, rotate r = Some x -> ord true x = ord false r)
    (fun l => forall r x, In r l -> rotate r = Some x -> ord true x = ord false r));
  intros; cbn [rotate] in *; try discriminate; try (injection H0 as <-; reflexivity); try (injection H as <-; reflexivity).
  - destruct H.
  - destruct H1 as [<-|I]; eauto.
  - destruct (opt_map rotate l) as [y|] eqn:E; cbn [map_some] in *; [|discriminate]. injection H0 as <-. cbn [ord].
    rewrite (opt_map_forall _ (ord false) (ord true) _ _ E) by assumption. reflexivity.
  - destruct (opt_map rotate l) as [y|] eqn:E; cbn [map_some] in *; [|discriminate]. injection H0 as <-. cbn [ord].
    rewrite map_rev, pick_rev, (opt_map_forall _ (ord false) (ord true) _ _ E) by assumption. reflexivity.
  - destruct (opt_map rotate l) as [y|] eqn:E; cbn [map_some] in *; [|discriminate]. injection H0 as <-. cbn [ord].
    rewrite map_rev, pick_rev, (opt_map_forall _ (ord false) (ord true) _ _ E) by assumption. reflexivity.
  - destruct (opt_map rotate l) as [y|] eqn:E; cbn [map_some] in *; [|discriminate]. injection H0 as <-. cbn [ord].
    rewrite map_rev, pick_rev, (opt_map_forall _ (ord false) (ord true) _ _ E) by assumption. reflexivity.
  - destruct (opt_map rotate l) as [y|] eqn:E; cbn [map_some] in *; [|discriminate]. injection H0 as <-. cbn [ord].
    rewrite map_rev, pick_rev, (opt_map_forall _ (ord false) (ord true) _ _ E) by assumption. reflexivity.
  - destruct (opt_map rotate l) as [y|] eqn:E; cbn [map_some] in *; [|discriminate]. injection H0 as <-. cbn [ord].
    rewrite map_rev, pick_rev, (opt_map_forall _ (ord false) (ord true) _ _ E) by assumption. reflexivity.
Qed.
Lemma unwrap_numbers : forall r, concat (map (ord false) (unwrap r)) = numbers r.
Proof. intros r. destruct r; cbn [unwrap map concat numbers]; try apply app_nil_r; reflexivity. Qed.
Lemma behind_numbers : forall r l, behind_content r = Some l -> pick true (map (ord true) l) = numbers r.
Proof.
  intros r l H. assert (G : (exists l0, r = RSeq l0) \/ map_some (fun x => [x]) (rotate r) = Some l).
  { destruct r; cbn [behind_content] in H; eauto. }
  destruct G as [[l0 ->]|G].
  - cbn [behind_content] in H. destruct (opt_map rotate l0) as [y|] eqn:E; cbn [map_some] in H; [|discriminate].
    injection H as <-. rewrite map_rev, pick_rev. rewrite (opt_map_forall _ (ord false) (ord true) _ _ E); [reflexivity|].
    intros; apply rotate_ord; assumption.
  - destruct (rotate r) as [x|] eqn:E; cbn [map_some] in G; [|discriminate]. injection G as <-. unfold pick. cbn.
    rewrite app_nil_r. apply rotate_ord. assumption.
Qed.
(** Equal ASTs have equal numbers. *)
Lemma leqb_map : forall (f : re -> re -> bool) (g : re -> list nat) l l', leqb f l l' = true ->
  (forall x y, In x l -> f x y = true -> g x = g y) -> map g l = map g l'.
Proof.
  intros f g l. induction l as [|x l IH]; intros [|y l'] H K; cbn [leqb] in H; try discriminate; [reflexivity|].
  apply andb_true_iff in H as [H1 H2]. cbn [map]. rewrite (K x y) by (auto; left; reflexivity). f_equal.
  apply IH; [assumption|]. intros; apply K; [right; assumption|assumption].
Qed.
Lemma eqb_ord : forall r r' rv, re_eqb r r' = true -> ord rv r = ord rv r'.
Proof.
  intros rr.
  apply (re_ind2 (fun r => forall r' rv, re_eqb r r' = true -> ord rv r = ord rv r')
    (fun l => forall x y, In x l -> forall rv, re_eqb x y = true -> ord rv x = ord rv y)).
  - intros x y [].
  - intros r l Hr Hl x y [<-|I] rv; [apply Hr|apply Hl; assumption].
  - intros c r' rv H; destruct r'; cbn in H; try discriminate; reflexivity.
  - intros r' rv H; destruct r'; cbn in H; try discriminate; reflexivity.
  - intros l r' rv H; destruct r'; cbn in H; try discriminate; reflexivity.
  - intros l Hl r' rv H; destruct r' as [ | | |l'| | | | | | | | | | | | | | | ]; cbn [re_eqb] in H; try discriminate. cbn [ord].
    rewrite (leqb_map _ (ord rv) _ _ H); [reflexivity|]. intros; apply Hl; assumption.
  - intros l Hl r' rv H; destruct r' as [ | | | |l'| | | | | | | | | | | | | | ]; cbn [re_eqb] in H; try discriminate. cbn [ord].
    rewrite (leqb_map _ (ord rv) _ _ H); [reflexivity|]. intros; apply Hl; assumption.
  - intros r' rv H; destruct r'; cbn in H; try discriminate; reflexivity.
  - intros r' rv H; destruct r'; cbn in H; try discriminate; reflexivity.
  - intros k a b l Hl r' rv H; destruct r' as [ | | | | | | |k' a' b' l'| | | | | | | | | | | ]; cbn [re_eqb] in H; try discriminate.
    apply andb_true_iff in H as [_ H]. cbn [ord]. rewrite (leqb_map _ (ord rv) _ _ H); [reflexivity|]. intros; apply Hl; assumption.
  - intros i l Hl r' rv H; destruct r' as [ | | | | | | | |i' l'| | | | | | | | | | ]; cbn [re_eqb] in H; try discriminate.
    apply andb_true_iff in H as [E H]. apply Nat.eqb_eq in E as ->. cbn [ord]. rewrite (leqb_map _ (ord rv) _ _ H); [reflexivity|].
    intros; apply Hl; assumption.
  - intros i nm l Hl r' rv H; destruct r' as [ | | | | | | | | |i' nm' l'| | | | | | | | | ]; cbn [re_eqb] in H; try discriminate.
    apply andb_true_iff in H as [E H]. apply andb_true_iff in E as [E _]. apply Nat.eqb_eq in E as ->. cbn [ord].
    rewrite (leqb_map _ (ord rv) _ _ H); [reflexivity|]. intros; apply Hl; assumption.
  - intros i r' rv H; destruct r'; cbn in H; try discriminate; reflexivity.
  - intros i r' rv H; destruct r'; cbn in H; try discriminate; reflexivity.
  - intros n l Hl r' rv H; destruct r' as [ | | | | | | | | | | | |n' l'| | | | | | ]; cbn [re_eqb] in H; try discriminate.
    apply andb_true_iff in H as [_ H]. cbn [ord]. rewrite (leqb_map _ (ord false) _ _ H); [reflexivity|]. intros; apply Hl; assumption.
  - intros n l Hl r' rv H; destruct r' as [ | | | | | | | | | | | | |n' l'| | | | | ]; cbn [re_eqb] in H; try discriminate.
    apply andb_true_iff in H as [_ H]. cbn [ord]. rewrite (leqb_map _ (ord true) _ _ H); [reflexivity|]. intros; apply Hl; assumption.
  - intros l Hl r' rv H; destruct r' as [ | | | | | | | | | | | | | |l'| | | | ]; cbn [re_eqb] in H; try discriminate.
    cbn [ord]. rewrite (leqb_map _ (ord rv) _ _ H); [reflexivity|]. intros; apply Hl; assumption.
  - intros c r' rv H; destruct r'; cbn in H; try discriminate; reflexivity.
  - intros c r' rv H; destruct r'; cbn in H; try discriminate; reflexivity.
  - intros c r' rv H; destruct r'; cbn in H; try discriminate; reflexivity.
  - intros c r' rv H; destruct r'; cbn in H; try discriminate; reflexivity.
Qed.

Lemma nodup_twice : forall (l : list nat) t, NoDup (l ++ l ++ t) -> l = [].
Proof.
  intros [|x l] t H; [reflexivity|]. cbn in H. inversion H as [|? ? N _]; subst. exfalso. apply N.
  apply in_or_app. right. left. reflexivity.
Qed.
Lemma combine_numbers : forall k a b c d l, concat (map (ord false) l) = [] -> numbers (combine_repeat k a b c d l) = [].
Proof.
  intros k a b c d l H. unfold numbers.
  destruct k; cbn [combine_repeat]; repeat match goal with |- context [if ?x then _ else _] => destruct x end; cbn [ord pick map concat app]; exact H.
Qed.
Lemma sequence_numbers : forall b a, NoDup (numbers a ++ numbers b) -> numbers (make_sequence b a) = numbers a ++ numbers b.
Proof.
  intros b a H.
  assert (P : numbers (RSeq [a; b]) = numbers a ++ numbers b) by (unfold numbers; cbn; rewrite app_nil_r; reflexivity).
  assert (M : forall k k' a1 b1 a2 b2 l l' sq, NoDup (numbers (RRep k' a1 b1 l') ++ numbers (RRep k a2 b2 l) ++ sq) ->
    rkind_eqb k k' && leqb re_eqb l l' = true -> concat (map (ord false) l) = [] /\ concat (map (ord false) l') = []).
  { intros k k' a1 b1 a2 b2 l l' sq N E. apply andb_true_iff in E as [_ E].
    apply leqb_map with (g := ord false) in E; [|intros; apply eqb_ord; assumption].
    unfold numbers in N. cbn [ord pick] in N. rewrite E in N. apply nodup_twice in N. rewrite E. auto. }
  destruct b as [kb|  |tb|lb|lb| | |k2 a2 b2 l2|i2 l2|i2 n2 l2|i2|n2|ng2 l2|ng2 l2|l2|c2|c2|as2|m2]; cbn [make_sequence];
    try (destruct a as [[x|? ?|?|?|?|?|?]| | | | | | | | | | | | | | | | | |]; exact P).
  - destruct kb; try exact P. destruct a as [[x|? ?|?|?|?|?|?]| | | | | | | | | | | | | | | | | |]; try exact P; reflexivity.
  - (* sequence *)
    assert (Q : numbers (RSeq (a :: lb)) = numbers a ++ numbers (RSeq lb)) by reflexivity.
    destruct a as [[x|? ?|?|?|?|?|?]| | | | | | |k1 a1 b1 l1| | | | | | | | | | |];
    try (destruct lb as [|[[y|? ?|?|?|?|?|?]| |ty| | | | |ky ay byy ly| | | | | | | | | | |] sq]; exact Q).
    + destruct lb as [|[[y|? ?|?|?|?|?|?]| |ty| | | | |ky ay byy ly| | | | | | | | | | |] sq]; try exact Q.
      destruct (rkind_eqb ky k1 && leqb re_eqb ly l1) eqn:E; [|reflexivity].
      destruct (M ky k1 a1 b1 ay byy ly l1 (concat (map (ord false) sq)) H E) as [Z1 Z2].
      unfold numbers. cbn [ord pick map concat]. pose proof (combine_numbers ky ay byy a1 b1 ly Z1) as C. unfold numbers in C. rewrite C.
      cbn [ord pick] in *. rewrite Z1, Z2. reflexivity.
  - (* repetition *)
    destruct a as [[x|? ?|?|?|?|?|?]| | | | | | |k1 a1 b1 l1| | | | | | | | | | |]; try exact P.
    destruct (rkind_eqb k2 k1 && leqb re_eqb l2 l1) eqn:E; [|exact P].
    destruct (M k2 k1 a1 b1 a2 b2 l2 l1 []) as [Z1 Z2]; [rewrite app_nil_r; exact H|assumption|].
    rewrite combine_numbers by assumption. unfold numbers. cbn [ord]. unfold pick. rewrite Z1, Z2. reflexivity.
Qed.
Lemma alternate_numbers : forall b a, numbers (make_alternate b a) = numbers a ++ numbers b.
Proof. intros b a. destruct b; unfold numbers; cbn [make_alternate ord map concat]; rewrite ?app_nil_r; reflexivity. Qed.
Lemma optional_numbers : forall r, numbers (make_optional r) = numbers r.
Proof.
  intros r. assert (P : numbers (RRep Greedy 0 1 [r]) = numbers r) by (unfold numbers; cbn; apply app_nil_r).
  destruct r as [ | | | | | | |k a b l| | | | | | | | | | | ]; try exact P; [reflexivity|].
  cbn [make_optional]. destruct k; try exact P; destruct a as [|pa]; try exact P; destruct b as [|[pb|pb|]]; try exact P;
    destruct l as [|x [|y l]]; try exact P; reflexivity.
Qed.

Lemma wrap_rep : forall k a b r, numbers (RRep k a b (unwrap r)) = numbers r.
Proof. intros. apply unwrap_numbers. Qed.
Lemma wrap_atomic : forall r, numbers (RAtomic (unwrap r)) = numbers r.
Proof. intros. apply unwrap_numbers. Qed.
Lemma wrap_ahead : forall n r, numbers (RAhead n (unwrap r)) = numbers r.
Proof. intros. apply unwrap_numbers. Qed.
Lemma wrap_cap : forall i r, numbers (RCap i (unwrap r)) = i :: numbers r.
Proof. intros. unfold numbers at 1. cbn [ord]. f_equal. apply unwrap_numbers. Qed.
Lemma wrap_ncap : forall i nm r, numbers (RNCap i nm (unwrap r)) = i :: numbers r.
Proof. intros. unfold numbers at 1. cbn [ord]. f_equal. apply unwrap_numbers. Qed.

(** * The invariant of the numbers *)
Definition item_numbers (i : item) : list nat := match i with IRe r => numbers r | ICap i => [i] | _ => [] end.
Definition stack_numbers (l : list item) : list nat := flat_map item_numbers (rev l).
Lemma stack_cons : forall i l, stack_numbers (i :: l) = stack_numbers l ++ item_numbers i.
Proof. intros i l. unfold stack_numbers. cbn [rev]. rewrite flat_map_app. cbn [flat_map]. rewrite app_nil_r. reflexivity. Qed.
Definition in_order (c : ctx) : Prop := stack_numbers (stk c) = seq 1 (counter c).
Lemma seq_last : forall l i n, l ++ [i] = seq 1 n -> i = n /\ l = seq 1 (pred n) /\ 1 <= n.
Proof.
  intros l i [|n] H; [destruct l; discriminate|]. rewrite seq_S in H. apply app_inj_tail in H as [H1 H2].
  cbn [pred]. split; [lia|]. split; [assumption|lia].
Qed.
Lemma push_order : forall c i, item_numbers i = [] -> in_order c -> in_order (mkCtx (i :: stk c) (counter c)).
Proof. intros c i H K. unfold in_order in *. cbn [stk counter]. rewrite stack_cons, H, app_nil_r. assumption. Qed.

Ltac stacks := rewrite ?stack_cons, ?app_nil_r, <- ?app_assoc in *; cbn [item_numbers app] in *.
Lemma apply_order : forall props a p c c', apply props a p c = Done c' -> in_order c -> in_order c'.
Proof.
  intros props a p c c' H K. assert (W : forall i, item_numbers i = [] -> push c i = Done c' -> in_order c').
  { intros i Hi E. injection E as <-. apply push_order; assumption. }
  unfold apply in H. destruct p as [v|].
  2: { destruct a; try discriminate; destruct c as [s n]; cbn [stk counter] in *; destruct s; try discriminate.
       injection H as <-. exact K. }
  assert (M : forall m, apply_mode m c = Done c' -> in_order c').
  { intros m E. unfold apply_mode in E. destruct c as [s n]. unfold in_order in *. cbn [stk counter] in *.
    destruct s as [|[] ts]; injection E as <-; cbn [stk counter]; stacks; try assumption.
    apply seq_last in K as (_ & K & _). assumption. }
  destruct a; try (apply (W _ eq_refl H)); try (apply (M _ H)); clear W M;
    destruct c as [s n]; unfold in_order in *; cbn [stk counter] in *;
    try (injection H as <-; cbn [stk counter]; stacks; rewrite ?seq_S; cbn [stk counter]; stacks; rewrite ?K; reflexivity).
  all: repeat match type of H with context [match ?x with _ => _ end] => is_var x; destruct x; try discriminate H end;
    try (destruct (N.ltb _ _); discriminate).
  all: repeat match type of H with context [if ?x then _ else _] => destruct x; try discriminate H end.
  all: repeat match type of H with context [match ?g ?x ?y with _ => _ end] => is_var g; destruct (g x y); try discriminate H end.
  all: try (injection H as <-; cbn [stk counter]; stacks; assumption).
  all: try (injection H as <-; cbn [stk counter] in *; stacks; rewrite ?wrap_atomic, ?wrap_ahead, ?wrap_cap, ?wrap_ncap, ?wrap_rep; stacks; assumption).
  - (* look behind *) destruct (behind_content r) as [l|] eqn:E; [|discriminate]. injection H as <-. cbn [stk counter]. stacks.
    change (numbers (RBehind neg l)) with (pick true (map (ord true) l)). rewrite (behind_numbers _ _ E). assumption.
  - (* alternate *) injection H as <-. cbn [stk counter]. stacks. rewrite alternate_numbers. assumption.
  - injection H as <-. cbn [stk counter]. stacks. rewrite optional_numbers. assumption.
  - (* sequence *) injection H as <-. cbn [stk counter]. stacks. rewrite sequence_numbers; [assumption|].
    assert (N : NoDup (stack_numbers s ++ numbers r0 ++ numbers r)) by (rewrite K; apply seq_NoDup).
    clear - N. induction (stack_numbers s) as [|x l IH]; [exact N|]. apply IH. inversion N; assumption.
  - (* reset *) injection H as <-. cbn [stk counter]. stacks. apply seq_last in K as (_ & K & _). assumption.
Qed.

(** * The scan against the parser *)
(** What is known about the top of the action stack. *)
Inductive top := AnyTop | CapTop | ModeTop.
(** [a_debt]: a number has been given to a parenthesis that the scan has not counted (yet). *)
Record astate := mkA { a_place : place; a_debt : bool; a_top : top }.
Definition place_eqb (p q : place) : bool :=
  match p, q with
  | Plain, Plain | Escape, Escape | Open, Open | OpenQ, OpenQ | OpenLt, OpenLt | Switch, Switch | Switches, Switches
  | Set1, Set1 | SetEscape, SetEscape | Named, Named => true
  | _, _ => false
  end.
Definition top_eqb (p q : top) : bool :=
  match p, q with AnyTop, AnyTop | CapTop, CapTop | ModeTop, ModeTop => true | _, _ => false end.
Definition top_fits (t u : top) : bool := top_eqb u AnyTop || top_eqb t u.
Definition fits (s t : astate) : bool :=
  place_eqb (a_place s) (a_place t) && Bool.eqb (a_debt s) (a_debt t) && top_fits (a_top s) (a_top t).
Lemma place_eq : forall p q, place_eqb p q = true <-> p = q.
Proof. intros p q. destruct p, q; split; try discriminate; reflexivity. Qed.
Lemma fits_spec : forall s t, fits s t = true -> a_place s = a_place t /\ a_debt s = a_debt t /\ (a_top t = AnyTop \/ a_top s = a_top t).
Proof.
  intros [p d t] [p' d' t'] H. unfold fits, top_fits in H. cbn in *. apply andb_true_iff in H as [H H3]. apply andb_true_iff in H as [H1 H2].
  apply place_eq in H1. apply Bool.eqb_prop in H2. split; [assumption|]. split; [assumption|].
  destruct t', t; cbn in H3; try discriminate; auto.
Qed.
Lemma fits_refl : forall s, fits s s = true.
Proof. intros [p d t]. unfold fits, top_fits. cbn. destruct p, d, t; reflexivity. Qed.
Lemma fits_trans : forall s t u, fits s t = true -> fits t u = true -> fits s u = true.
Proof.
  intros [p d t] [p1 d1 t1] [p2 d2 t2] H K. apply fits_spec in H as (H1 & H2 & H3). apply fits_spec in K as (K1 & K2 & K3).
  cbn in *. subst p d p1 d1. unfold fits, top_fits. cbn [a_place a_debt a_top].
  assert (E : top_eqb t2 AnyTop || top_eqb t t2 = true).
  { destruct K3 as [-> | <-]; [reflexivity|]. destruct H3 as [-> | ->]; [reflexivity|]. destruct t1; reflexivity. }
  rewrite E. destruct p2, d2; reflexivity.
Qed.

Definition plain_state : astate := mkA Plain false AnyTop.
Definition set_state : astate := mkA Set1 false AnyTop.
Definition named_state : astate := mkA Named false AnyTop.
(** Before and behind each nonterminal. *)
Definition spec (n : nt) (p : place) (d : bool) : option (top * astate) :=
  match n with
  | N_backslash => match p, d with Escape, false => Some (AnyTop, plain_state) | _, _ => None end
  | N_e | N_f | N_backslash_range => match p, d with SetEscape, false => Some (AnyTop, set_state) | _, _ => None end
  | N_k | N_l | N_hexdec_repeat | N_property_name | N_property_name2 | N_property_value | N_property_value2 =>
      match p, d with Plain, false => Some (AnyTop, plain_state) | Set1, false => Some (AnyTop, set_state) | _, _ => None end
  | N_c => match p, d with Set1, false => Some (AnyTop, plain_state) | _, _ => None end
  | N_range | N_j | N_set2a | N_set2b => match p, d with Set1, false => Some (AnyTop, set_state) | _, _ => None end
  | N_i => match p, d with Named, false => Some (AnyTop, set_state) | _, _ => None end
  | N_class_named_name | N_g | N_h | N_p => match p, d with Named, false => Some (AnyTop, named_state) | _, _ => None end
  | N_block => match p, d with Open, true => Some (CapTop, plain_state) | _, _ => None end
  | N_d => match p, d with OpenQ, true => Some (CapTop, plain_state) | _, _ => None end
  | N_o => match p, d with OpenLt, true => Some (CapTop, plain_state) | _, _ => None end
  | N_block_name => match p, d with OpenLt, true => Some (AnyTop, plain_state) | _, _ => None end
  | N_mode_switch2 => match p, d with Switch, false | Switches, false => Some (ModeTop, plain_state) | _, _ => None end
  | _ => match p, d with Plain, false => Some (AnyTop, plain_state) | _, _ => None end
  end.
Definition astep (s : astate) (ch : Z) : option astate :=
  let '(p, g) := next_place (a_place s) ch in
  if g then if a_debt s then Some (mkA p false (a_top s)) else None else Some (mkA p (a_debt s) (a_top s)).
Definition aact (a : action) (s : astate) : option astate :=
  match a with
  | A_prepare_capture => if a_debt s then None else Some (mkA (a_place s) true CapTop)
  | A_reset_capture => if a_debt s && top_eqb (a_top s) CapTop then Some (mkA (a_place s) false AnyTop) else None
  | A_mode_case_insensitive | A_mode_case_sensitive | A_mode_multiline | A_mode_singleline =>
      match a_top s, a_debt s, a_place s with
      | CapTop, true, _ => Some (mkA (a_place s) false ModeTop)
      | ModeTop, false, Switches => Some (mkA Switches false ModeTop)
      | _, _, _ => None
      end
  | _ => Some (mkA (a_place s) (a_debt s) AnyTop)
  end.
Definition agrees (o : option astate) (s : astate) : bool :=
  match o with Some t => fits t s && fits s t | None => false end.
Fixpoint aexec (look : option Z) (l : list sym) (s : astate) : option astate :=
  match l with
  | [] => Some s
  | Act a :: t => match aact a s with Some s' => aexec look t s' | None => None end
  | TAny :: t =>
      match look with
      | Some ch => match astep s ch with Some s' => aexec None t s' | None => None end
      | None => None
      end
  | TTerm d :: t => match astep s d with Some s' => aexec None t s' | None => None end
  | TSet ds :: t =>
      match ds with
      | [] => None
      | d :: _ => match astep s d with
                  | Some s' => if forallb (fun d' => agrees (astep s d') s') ds then aexec None t s' else None
                  | None => None
                  end
      end
  | NT n :: t =>
      match spec n (a_place s) (a_debt s) with
      | Some (u, post) => if top_fits (a_top s) u then aexec None t post else None
      | None => None
      end
  end.

(** The effect of an action on the number of items that will end up in the AST: all but names and numbers. *)
Definition act_height (a : action) : Z :=
  match a with
  | A_make_alternate | A_make_sequence | A_make_capture | A_make_capture_with_name | A_look_finish | A_make_atomic
  | A_set_combine | A_make_range | A_reset_capture => -1
  | A_make_optional | A_make_lazy | A_make_possessive | A_repeat_ab | A_repeat_at_least | A_repeat_exactly
  | A_repeat_plus | A_repeat_star | A_create_number | A_push_number | A_create_hexdec | A_push_hexdec | A_push_name
  | A_push_property_name | A_push_property_value | A_set_start | A_set_make | A_set_make_negative
  | A_negate_class_named | A_mode_case_insensitive | A_mode_case_sensitive | A_mode_multiline | A_mode_singleline => 0
  | _ => 1
  end.
Definition nt_height (n : nt) : Z :=
  match n with
  | N_backslash | N_backslash_range | N_c | N_class_named_name | N_content_in_capture | N_content_or_empty | N_e | N_f
  | N_g | N_h | N_i | N_k | N_l | N_m | N_opt_content | N_p | N_s | N_set2a => 1
  | _ => 0
  end.
Definition sym_height (x : sym) : Z := match x with NT n => nt_height n | Act a => act_height a | _ => 0 end.
Definition heights (l : list sym) : Z := fold_right (fun x a => (sym_height x + a)%Z) 0%Z l.

(** The check of the table. *)
Definition looks (m : tmatch) : list (option Z) :=
  match m with MTerm c => [Some c] | MSet l => map Some l | MOthers => [Some 0%Z] | MEps => [None] end.
Definition all_places : list place := [Plain; Escape; Open; OpenQ; OpenLt; Switch; Switches; Set1; SetEscape; Named].
Definition checked (n : nt) : bool :=
  forallb (fun p => forallb (fun d =>
    match spec n p d with
    | None => true
    | Some (u, post) =>
        forallb (fun e => match e with
          | (m, Push l) => forallb (fun k => match aexec k l (mkA p d u) with Some s => fits s post | None => false end) (looks m)
          | (_, Rej) => true
          end) (rules n)
    end) [false; true]) all_places.
Definition level (n : nt) : bool :=
  forallb (fun e => match e with (_, Push l) => (heights l =? nt_height n)%Z | (_, Rej) => true end) (rules n).
Lemma all_checked : forall n, checked n = true.
Proof. apply by_nt. vm_compute. reflexivity. Qed.
Lemma all_level : forall n, level n = true.
Proof. apply by_nt. vm_compute. reflexivity. Qed.

Lemma other_places : forall p ch, ~ In ch not_others -> next_place p ch = next_place p 0.
Proof.
  intros p ch H.
  assert (E : forall d, mem d not_others = true -> (ch =? d)%Z = false).
  { intros d Hd. apply Z.eqb_neq. intros ->. apply H. apply mem_in. assumption. }
  destruct p; cbn [next_place outside]; unfold outside, mem; cbn [existsb]; rewrite ?(E 92%Z), ?(E 40%Z), ?(E 91%Z), ?(E 63%Z), ?(E 60%Z), ?(E 105%Z), ?(E 99%Z), ?(E 109%Z), ?(E 115%Z), ?(E 33%Z), ?(E 61%Z), ?(E 41%Z), ?(E 93%Z) by reflexivity; reflexivity.
Qed.
Lemma other_exec : forall ch l s, ~ In ch not_others -> aexec (Some ch) l s = aexec (Some 0%Z) l s.
Proof.
  intros ch l. induction l as [|x l IH]; intros s H; [reflexivity|]. cbn [aexec]. destruct x; try reflexivity.
  - destruct (aact a s); auto.
  - unfold astep. rewrite (other_places _ _ H). reflexivity.
Qed.
Lemma look_some : forall ch l s t, aexec None l s = Some t -> aexec (Some ch) l s = Some t.
Proof.
  intros ch l. induction l as [|x l IH]; intros s t H; [exact H|]. cbn [aexec] in *. destruct x; try assumption; try discriminate.
  destruct (aact a s); [auto|discriminate].
Qed.
(** More knowledge about the top does no harm. *)
Lemma act_fits : forall a s s' t, fits s' s = true -> aact a s = Some t -> exists t', aact a s' = Some t' /\ fits t' t = true.
Proof.
  intros a [p d u] [p' d' u'] t H. apply fits_spec in H as (H1 & H2 & H3). cbn in *. subst.
  destruct a; cbn [aact a_debt a_place a_top]; intros E;
    try (injection E as <-; eexists; split; [reflexivity|apply fits_refl]).
  all: destruct H3 as [-> | ->]; cbn [top_eqb] in *; try (rewrite andb_false_r in E; discriminate); try discriminate;
    eauto using fits_refl.
  all: destruct d; try discriminate; eauto using fits_refl.
Qed.
Lemma step_fits : forall ch s s' t, fits s' s = true -> astep s ch = Some t -> exists t', astep s' ch = Some t' /\ fits t' t = true.
Proof.
  intros ch [p d u] [p' d' u'] t H. apply fits_spec in H as (H1 & H2 & H3). cbn in *. subst. unfold astep. cbn [a_place a_debt a_top].
  destruct (next_place p ch) as [q g]. intros E. destruct g, d; try discriminate; injection E as <-; eexists; (split; [reflexivity|]);
    unfold fits, top_fits; cbn; destruct H3 as [-> | ->]; destruct q; try reflexivity; destruct u; reflexivity.
Qed.
Lemma exec_fits : forall l look s s' t, fits s' s = true -> aexec look l s = Some t -> exists t', aexec look l s' = Some t' /\ fits t' t = true.
Proof.
  induction l as [|x l IH]; intros look s s' t H E; [injection E as <-; exists s'; auto|]. cbn [aexec] in *. destruct x.
  - pose proof (fits_spec _ _ H) as (H1 & H2 & H3). rewrite H1, H2.
    destruct (spec n (a_place s) (a_debt s)) as [[u post]|]; [|discriminate].
    destruct (top_fits (a_top s) u) eqn:E1; [|discriminate]. assert (E2 : top_fits (a_top s') u = true).
    { destruct H3 as [H3|H3]; [|congruence]. rewrite H3 in E1. unfold top_fits in *. destruct u; cbn in *; try discriminate. reflexivity. }
    rewrite E2. exists t. split; [assumption|apply fits_refl].
  - destruct (aact a s) as [t1|] eqn:E1; [|discriminate]. destruct (act_fits _ _ _ _ H E1) as (t1' & -> & F). eauto.
  - destruct (astep s c) as [t1|] eqn:E1; [|discriminate]. destruct (step_fits _ _ _ _ H E1) as (t1' & -> & F). eauto.
  - destruct look as [ch|]; [|discriminate]. destruct (astep s ch) as [t1|] eqn:E1; [|discriminate].
    destruct (step_fits _ _ _ _ H E1) as (t1' & -> & F). eauto.
  - destruct l0 as [|d ds]; [discriminate|]. destruct (astep s d) as [t1|] eqn:E1; [|discriminate].
    destruct (forallb (fun d' => agrees (astep s d') t1) (d :: ds)) eqn:E2; [|discriminate].
    destruct (step_fits _ _ _ _ H E1) as (t1' & E1' & F). rewrite E1'.
    assert (G : forallb (fun d' => agrees (astep s' d') t1') (d :: ds) = true).
    { apply forallb_forall. intros d' I. rewrite forallb_forall in E2. specialize (E2 d' I).
      unfold agrees in *. destruct (astep s d') as [t2|] eqn:E3; [|discriminate]. apply andb_true_iff in E2 as [A B].
      destruct s as [p de u], s' as [p' de' u']. pose proof (fits_spec _ _ H) as (H1 & H2 & H3). cbn in H1, H2, H3. subst p' de'.
      unfold astep in *. cbn [a_place a_debt a_top] in *. destruct (next_place p d') as [q g], (next_place p d) as [q1 g1].
      destruct g, g1, de; try discriminate; injection E3 as <-; injection E1 as <-; injection E1' as <-;
        apply fits_spec in A as (A1 & A2 & _); apply fits_spec in B as (_ & _ & _); cbn in A1, A2; try discriminate; subst;
        rewrite !fits_refl; reflexivity. }
    rewrite G. eauto.
Qed.
Lemma exec_app : forall l look st s s1, aexec look l s = Some s1 -> exists look', (look' = None \/ look' = look) /\
  aexec look (l ++ st) s = aexec look' st s1.
Proof.
  induction l as [|x l IH]; intros look st s s1 H; [injection H as <-; exists look; auto|]. cbn [app aexec] in *. destruct x.
  - destruct (spec n (a_place s) (a_debt s)) as [[u post]|]; [|discriminate]. destruct (top_fits (a_top s) u); [|discriminate].
    destruct (IH None st _ _ H) as (k & [-> | ->] & E); eauto.
  - destruct (aact a s) as [t1|]; [|discriminate]. destruct (IH look st _ _ H) as (k & K & E). eauto.
  - destruct (astep s c) as [t1|]; [|discriminate]. destruct (IH None st _ _ H) as (k & [-> | ->] & E); eauto.
  - destruct look as [ch|]; [|discriminate]. destruct (astep s ch) as [t1|]; [|discriminate]. destruct (IH None st _ _ H) as (k & [-> | ->] & E); eauto.
  - destruct l0 as [|d ds]; [discriminate|]. destruct (astep s d) as [t1|]; [|discriminate].
    destruct (forallb (fun d' => agrees (astep s d') t1) (d :: ds)); [|discriminate]. destruct (IH None st _ _ H) as (k & [-> | ->] & E); eauto.
Qed.

(** * Concrete states *)
Definition conc (s : astate) (x : scanned) (c : ctx) : Prop :=
  s_place x = a_place s /\ counter c = s_groups x + (if a_debt s then 1 else 0) /\
  match a_top s with
  | AnyTop => True
  | CapTop => exists i ts, stk c = ICap i :: ts
  | ModeTop => exists m ts, stk c = IRe (RMode m) :: ts
  end /\ (s_place x = Switches -> s_several x = true).
Lemma conc_fits : forall s t x c, fits s t = true -> conc s x c -> conc t x c.
Proof.
  intros s t x c H (H1 & H2 & H3 & H4). apply fits_spec in H as (K1 & K2 & K3). unfold conc.
  rewrite <- K1, <- K2. split; [assumption|]. split; [assumption|]. split; [|assumption].
  destruct K3 as [-> | <-]; [exact I|assumption].
Qed.
Lemma conc_step : forall s x c ch t, conc s x c -> astep s ch = Some t -> conc t (scan1 x ch) c.
Proof.
  intros s x c ch t (H1 & H2 & H3 & H4) E. unfold astep, scan1 in *. rewrite H1. destruct (next_place (a_place s) ch) as [q g].
  unfold conc. cbn [s_place s_groups s_several].
  assert (S1 : q = Switches -> s_several x || match q with Switches => true | _ => false end = true) by (intros ->; apply orb_true_r).
  destruct g; [destruct (a_debt s); [|discriminate]|]; injection E as <-; cbn [a_place a_debt a_top]; repeat split; auto; lia.
Qed.
Lemma apply_counter : forall props a p c c', apply props a p c = Done c' ->
  match a with
  | A_prepare_capture => counter c' = S (counter c) /\ exists i ts, stk c' = ICap i :: ts
  | A_reset_capture => counter c' = pred (counter c)
  | A_mode_case_insensitive | A_mode_case_sensitive | A_mode_multiline | A_mode_singleline =>
      (exists m ts, stk c' = IRe (RMode m) :: ts) /\
      ((exists i ts, stk c = ICap i :: ts) /\ counter c' = pred (counter c) \/
       (forall i ts, stk c <> ICap i :: ts) /\ counter c' = counter c)
  | _ => counter c' = counter c
  end.
Proof.
  intros props a p c c' H. unfold apply in H. destruct p as [v|].
  2: { destruct a; try discriminate; destruct (stk c); try discriminate. injection H as <-. reflexivity. }
  assert (M : forall m, apply_mode m c = Done c' -> (exists m ts, stk c' = IRe (RMode m) :: ts) /\
      ((exists i ts, stk c = ICap i :: ts) /\ counter c' = pred (counter c) \/
       (forall i ts, stk c <> ICap i :: ts) /\ counter c' = counter c)).
  { intros m E. unfold apply_mode in E. destruct (stk c) as [|[] ts]; injection E as <-; cbn [stk counter];
      (split; [eauto|]); try (left; split; [eauto|reflexivity]); right; split; try reflexivity; intros; discriminate. }
  destruct a; try (apply (M _ H)); clear M; try (injection H as <-; try (split; [|eauto]); reflexivity).
  all: destruct c as [s n]; cbn [stk counter] in *.
  all: repeat match type of H with context [match ?x with _ => _ end] => is_var x; destruct x; try discriminate H end.
  all: repeat match type of H with context [if ?x then _ else _] => destruct x; try discriminate H end.
  all: repeat match type of H with context [match ?g ?x ?y with _ => _ end] => is_var g; destruct (g x y); try discriminate H end.
  all: try (injection H as <-; reflexivity).
  - destruct (behind_content r); [|discriminate]. injection H as <-. reflexivity.
  - injection H as <-. cbn. eauto.
Qed.
Lemma conc_act : forall props s x c a p t c', conc s x c -> aact a s = Some t -> apply props a p c = Done c' -> conc t x c'.
Proof.
  intros props s x c a p t c' (H1 & H2 & H3 & H4) E K. apply apply_counter in K. unfold conc.
  assert (G : counter c' = counter c -> t = mkA (a_place s) (a_debt s) AnyTop ->
    s_place x = a_place t /\ counter c' = s_groups x + (if a_debt t then 1 else 0) /\
    match a_top t with AnyTop => True | CapTop => exists i ts, stk c' = ICap i :: ts
    | ModeTop => exists m ts, stk c' = IRe (RMode m) :: ts end /\ (s_place x = Switches -> s_several x = true)).
  { intros -> ->. cbn. auto. }
  assert (M : (exists m ts, stk c' = IRe (RMode m) :: ts) /\
      ((exists i ts, stk c = ICap i :: ts) /\ counter c' = pred (counter c) \/
       (forall i ts, stk c <> ICap i :: ts) /\ counter c' = counter c) ->
      match a_top s, a_debt s, a_place s with
      | CapTop, true, _ => Some (mkA (a_place s) false ModeTop)
      | ModeTop, false, Switches => Some (mkA Switches false ModeTop)
      | _, _, _ => None
      end = Some t ->
    s_place x = a_place t /\ counter c' = s_groups x + (if a_debt t then 1 else 0) /\
    match a_top t with AnyTop => True | CapTop => exists i ts, stk c' = ICap i :: ts
    | ModeTop => exists m ts, stk c' = IRe (RMode m) :: ts end /\ (s_place x = Switches -> s_several x = true)).
  { clear K E G. intros [M1 M2] E. destruct s as [pl d u]. cbn [a_place a_debt a_top] in *. destruct u; [discriminate| |].
    - destruct d; [|discriminate]. injection E as <-. cbn. destruct M2 as [[_ M2]|[M2 _]].
      + repeat split; auto. lia.
      + destruct H3 as (i & ts & H3). congruence.
    - destruct d; [discriminate|]. destruct pl; try discriminate. injection E as <-. cbn. destruct M2 as [[(i & ts & M2) _]|[_ M2]].
      + destruct H3 as (m & ts' & H3). congruence.
      + repeat split; auto. lia. }
  destruct a; cbn [aact] in E; try (injection E as E; apply G; [exact K|symmetry; exact E]); try (apply M; assumption); clear G M.
  - (* prepare *) destruct (a_debt s); [discriminate|]. injection E as <-. destruct K as [K1 K2]. cbn. repeat split; auto. lia.
  - (* reset *) destruct (a_debt s); [|discriminate]. cbn [andb] in E. destruct (top_eqb (a_top s) CapTop); [|discriminate].
    injection E as <-. cbn. repeat split; auto. lia.
Qed.

(** * Heights *)
Definition item_height (i : item) : Z := match i with IRe _ | ICap _ | ILook _ _ | IAtomic => 1 | _ => 0 end.
Definition height (l : list item) : Z := fold_right (fun x a => (item_height x + a)%Z) 0%Z l.
Lemma apply_height : forall props a p c c', apply props a p c = Done c' ->
  height (stk c') = (height (stk c) + act_height a)%Z \/
  (match a with A_mode_case_insensitive | A_mode_case_sensitive | A_mode_multiline | A_mode_singleline => True | _ => False end /\
   forall i ts, stk c <> ICap i :: ts).
Proof.
  intros props a p c c' H. unfold apply in H. destruct p as [v|].
  2: { destruct a; try discriminate; destruct (stk c); try discriminate. injection H as <-. left. reflexivity. }
  assert (W : forall i, push c i = Done c' -> (item_height i = act_height a -> height (stk c') = height (stk c) + act_height a)%Z).
  { intros i E K. injection E as <-. cbn [stk height fold_right]. fold (height (stk c)). lia. }
  assert (M : forall m, apply_mode m c = Done c' -> act_height a = 0%Z -> height (stk c') = (height (stk c) + act_height a)%Z \/ forall i ts, stk c <> ICap i :: ts).
  { intros m E ->. unfold apply_mode in E. destruct (stk c) as [|[] ts]; try (right; intros; discriminate).
    injection E as <-. left. cbn [stk height fold_right item_height]. lia. }
  destruct a; try (left; apply (W _ H); reflexivity); try (destruct (M _ H eq_refl); [left; assumption|right; split; [exact I|assumption]]);
    left; clear W M.
  all: destruct c as [s n]; cbn [stk counter] in *.
  all: try (injection H as <-; cbn [stk height fold_right item_height act_height]; fold (height s); lia).
  all: repeat match type of H with context [match ?x with _ => _ end] => is_var x; destruct x; try discriminate H end.
  all: repeat match type of H with context [if ?x then _ else _] => destruct x; try discriminate H end.
  all: repeat match type of H with context [match ?g ?x ?y with _ => _ end] => is_var g; destruct (g x y); try discriminate H end.
  all: try (injection H as <-; cbn [stk height fold_right item_height act_height]; lia).
  destruct (behind_content r); [|discriminate]. injection H as <-. cbn [stk height fold_right item_height act_height]. lia.
Qed.
Lemma heights_app : forall a b, heights (a ++ b) = (heights a + heights b)%Z.
Proof. induction a as [|x a IH]; intros b; [reflexivity|]. cbn [app heights fold_right]. fold (heights (a ++ b)). fold (heights a). rewrite IH. lia. Qed.

(** * All runs *)
Definition balanced (x : scanned) (c : ctx) (st : list sym) : Prop :=
  s_several x = false -> (height (stk c) + heights st = 1)%Z.
Lemma several_mono : forall x ch, s_several (scan1 x ch) = false -> s_several x = false.
Proof. intros x ch. unfold scan1. destruct (next_place (s_place x) ch). cbn. intros H. apply orb_false_iff in H. tauto. Qed.

Lemma run_scan : forall props fuel p input st c c' x s look t,
  look = None \/ look = hd_error input -> conc s x c -> aexec look st s = Some t -> fits t plain_state = true ->
  in_order c -> balanced x c st ->
  run props fuel p input st c = PAccept c' ->
  conc plain_state (fold_left scan1 input x) c' /\ in_order c' /\ balanced (fold_left scan1 input x) c' [].
Proof.
  intros props fuel. induction fuel as [|fuel IH]; intros p input st c c' x s look t HL HC HE HF HO HB HR; [discriminate|].
  cbn [run] in HR. destruct st as [|y st].
  - destruct input; [|discriminate]. injection HR as <-. cbn [fold_left]. injection HE as <-. split; [|split; assumption].
    apply (conc_fits s); assumption.
  - assert (HT : forall ch rest s', input = ch :: rest -> sym_height y = 0%Z -> astep s ch = Some s' -> aexec None st s' = Some t ->
      run props fuel (Some ch) rest st c = PAccept c' ->
      conc plain_state (fold_left scan1 input x) c' /\ in_order c' /\ balanced (fold_left scan1 input x) c' []).
    { intros ch rest s' -> H0 H1 H2 H3. cbn [fold_left]. eapply IH; [left; reflexivity|eapply conc_step; eassumption|exact H2|assumption|assumption| |exact H3].
      intros Q. specialize (HB (several_mono _ _ Q)). cbn [heights fold_right] in HB. fold (heights st) in HB. lia. }
    destruct y as [n|a|d| |ds]; cbn [aexec] in HE.
    + destruct (rule n (hd_error input)) as [l|] eqn:ER; [|discriminate].
      apply rule_in in ER as (m & HI & HV).
      destruct (spec n (a_place s) (a_debt s)) as [[u post]|] eqn:ES; [|discriminate].
      destruct (top_fits (a_top s) u) eqn:ET; [|discriminate].
      pose proof (all_checked n) as CK. unfold checked in CK. rewrite forallb_forall in CK.
      specialize (CK (a_place s)). assert (IP : In (a_place s) all_places) by (destruct (a_place s); cbn; auto 12).
      specialize (CK IP). rewrite forallb_forall in CK. specialize (CK (a_debt s)).
      assert (ID : In (a_debt s) [false; true]) by (destruct (a_debt s); cbn; auto). specialize (CK ID). rewrite ES in CK.
      rewrite forallb_forall in CK. specialize (CK _ HI). cbn beta iota in CK. rewrite forallb_forall in CK.
      set (s0 := mkA (a_place s) (a_debt s) u) in *.
      assert (F0 : fits s s0 = true).
      { unfold fits, s0. cbn [a_place a_debt a_top]. rewrite ET. destruct (a_place s), (a_debt s); reflexivity. }
      (* the abstract run of the right-hand side *)
      assert (A1 : exists s1, aexec (hd_error input) l s0 = Some s1 /\ fits s1 post = true).
      { assert (K : exists k, In k (looks m) /\ aexec (hd_error input) l s0 = aexec k l s0).
        { unfold viable in HV. cbn [fst] in HV. destruct m as [d|ds| |], (hd_error input) as [ch|]; try contradiction.
          - subst. exists (Some d). split; [left; reflexivity|reflexivity].
          - exists (Some ch). split; [apply in_map; assumption|reflexivity].
          - exists (Some 0%Z). split; [left; reflexivity|]. apply other_exec. assumption.
          - exists None. split; [left; reflexivity|reflexivity]. }
        destruct K as (k & Ik & ->). specialize (CK k Ik). destruct (aexec k l s0) as [s1|]; [|discriminate]. eauto. }
      destruct A1 as (s1 & A1 & F1).
      destruct (exec_fits _ _ _ _ _ F0 A1) as (s1' & A1' & F1').
      assert (F2 : fits s1' post = true) by (eapply fits_trans; eassumption).
      destruct (exec_fits _ _ _ _ _ F2 HE) as (t' & A2 & F3).
      destruct (exec_app _ _ st _ _ A1') as (look' & HL' & A3).
      assert (A4 : aexec look' st s1' = Some t').
      { destruct HL' as [-> | ->]; [assumption|]. destruct (hd_error input) as [ch|]; [apply look_some; assumption|assumption]. }
      rewrite A4 in A3.
      eapply IH; [right; reflexivity|exact HC|exact A3|eapply fits_trans; eassumption|assumption| |exact HR].
      intros Q. specialize (HB Q). rewrite heights_app. cbn [heights fold_right sym_height] in HB. fold (heights st) in HB.
      pose proof (all_level n) as LV. unfold level in LV. rewrite forallb_forall in LV. specialize (LV _ HI). cbn beta iota in LV. lia.
    + destruct (apply props a p c) as [c1| |] eqn:EA; try discriminate.
      destruct (aact a s) as [s1|] eqn:E1; [|discriminate].
      eapply IH; [exact HL|eapply conc_act; eassumption|exact HE|assumption|eapply apply_order; eassumption| |exact HR].
      intros Q. specialize (HB Q). cbn [heights fold_right sym_height] in HB. fold (heights st) in HB.
      destruct (apply_height _ _ _ _ _ EA) as [H|[H1 H2]]; [lia|]. exfalso.
      destruct HC as (C1 & C2 & C3 & C4). destruct s as [pl de u]. cbn [a_place a_debt a_top] in *.
      assert (E2 : match u, de, pl with
        | CapTop, true, _ => Some (mkA pl false ModeTop)
        | ModeTop, false, Switches => Some (mkA Switches false ModeTop)
        | _, _, _ => None
        end = Some s1) by (destruct a; try contradiction; exact E1).
      destruct u; [discriminate| |].
      * destruct C3 as (i & ts & C3). apply (H2 _ _ C3).
      * destruct de; [discriminate|]. destruct pl; try discriminate. rewrite (C4 C1) in Q. discriminate.
    + destruct input as [|ch rest]; [discriminate|]. cbn [term_matches] in HR. destruct (Z.eqb_spec ch d); [|discriminate]. subst.
      destruct (astep s d) as [s1|] eqn:E1; [|discriminate]. eapply HT; eauto.
    + destruct input as [|ch rest]; [discriminate|]. cbn [term_matches] in HR. destruct look as [ch'|]; [|discriminate].
      destruct HL as [HL|HL]; [discriminate|]. injection HL as ->. destruct (astep s ch) as [s1|] eqn:E1; [|discriminate]. eapply HT; eauto.
    + destruct input as [|ch rest]; [discriminate|]. cbn [term_matches] in HR. destruct (mem ch ds) eqn:EM; [|discriminate].
      apply mem_in in EM. destruct ds as [|d ds]; [discriminate|]. destruct (astep s d) as [s1|] eqn:E1; [|discriminate].
      destruct (forallb (fun d' => agrees (astep s d') s1) (d :: ds)) eqn:E2; [|discriminate]. rewrite forallb_forall in E2.
      specialize (E2 ch EM). unfold agrees in E2. destruct (astep s ch) as [s2|] eqn:E3; [|discriminate].
      apply andb_true_iff in E2 as [F1 F2]. destruct (exec_fits _ _ _ _ _ F1 HE) as (t' & A & F).
      cbn [fold_left]. eapply IH; [left; reflexivity|eapply conc_step; eassumption|exact A|eapply fits_trans; eassumption|assumption| |exact HR].
      intros Q. specialize (HB (several_mono _ _ Q)). cbn [heights fold_right] in HB. fold (heights st) in HB. exact HB.
Qed.

(** * Results *)
Lemma seq_tail : forall l t n, l ++ t = seq 1 n -> t = seq (S (length l)) (n - length l) /\ length l <= n.
Proof.
  intros l t n H. assert (L : length l + length t = n) by (rewrite <- app_length, H; apply seq_length).
  split; [|lia]. replace n with (length l + length t) in H by assumption. rewrite seq_app in H.
  apply (f_equal (skipn (length l))) in H. rewrite skipn_app, skipn_all, Nat.sub_diag in H. cbn [skipn app] in H.
  rewrite skipn_app, seq_length, Nat.sub_diag in H. rewrite skipn_all2 in H by (rewrite seq_length; lia).
  cbn [skipn app] in H. rewrite H at 1. f_equal. lia.
Qed.
Lemma height_nonneg : forall l, (0 <= height l)%Z.
Proof. induction l as [|i l IH]; [reflexivity|]. cbn [height fold_right]. fold (height l). destruct i; cbn [item_height]; lia. Qed.
Lemma height_zero : forall l, height l = 0%Z -> stack_numbers l = [].
Proof.
  induction l as [|i l IH]; intros H; [reflexivity|]. cbn [height fold_right] in H. fold (height l) in H. pose proof (height_nonneg l).
  rewrite stack_cons. destruct i; cbn [item_height item_numbers] in *; rewrite ?app_nil_r; try (apply IH); lia.
Qed.

Theorem compiled_numbers : forall props input r, compile props input = CRegex r ->
  exists k, k <= groups input /\ numbers r = seq (S k) (groups input - k) /\ (several_letters input = false -> k = 0).
Proof.
  intros props input r H. unfold compile in H. destruct (parse_ctx props input) as [c| | |] eqn:E; try discriminate.
  destruct (stk c) as [|[r'| | | | | | |] ts] eqn:ES; try discriminate. injection H as ->.
  unfold parse_ctx in E.
  destruct (run_scan props (parse_fuel input) None input [NT N_s] (mkCtx [] 0) c (mkScan Plain 0 false) plain_state None plain_state
    (or_introl eq_refl)) as (H1 & H2 & H3).
  - unfold conc. cbn. repeat split; auto. discriminate.
  - reflexivity.
  - reflexivity.
  - reflexivity.
  - intros _. reflexivity.
  - exact E.
  - change (fold_left scan1 input (mkScan Plain 0 false)) with (scan input) in *.
    destruct H1 as (_ & H1 & _ & _). cbn in H1. rewrite Nat.add_0_r in H1. fold (groups input) in H1.
    unfold in_order in H2. rewrite ES, stack_cons, H1 in H2. cbn [item_numbers] in H2. apply seq_tail in H2 as [H2 H4].
    exists (length (stack_numbers ts)). split; [assumption|]. split; [assumption|]. intros S.
    specialize (H3 S). rewrite ES in H3. cbn [heights fold_right height item_height] in H3. fold (height ts) in H3.
    rewrite height_zero by lia. reflexivity.
Qed.
Theorem all_numbers : forall props input r, compile props input = CRegex r -> several_letters input = false ->
  numbers r = seq 1 (groups input).
Proof.
  intros props input r H S. destruct (compiled_numbers props input r H) as (k & _ & E & K). rewrite (K S) in E. rewrite Nat.sub_0_r in E. exact E.
Qed.

(** * Numbers and the result type *)
Lemma pick_in : forall rv l x, In x (pick rv l) <-> exists y, In y l /\ In x y.
Proof.
  intros rv l x. unfold pick. destruct rv; rewrite in_concat; split; intros (y & H & K); exists y; split; try assumption; apply in_rev;
    rewrite ?rev_involutive; assumption.
Qed.
Lemma pick_nodup : forall rv l, NoDup (pick rv l) -> NoDup (concat l).
Proof.
  intros rv l H. destruct rv; [|exact H]. unfold pick in H. eapply Permutation_NoDup; [|exact H].
  clear H. induction l as [|x l IH]; [constructor|]. cbn [rev concat]. rewrite concat_app. cbn [concat]. rewrite app_nil_r.
  etransitivity; [apply Permutation_app_comm|]. apply Permutation_app_head. assumption.
Qed.
Lemma nodup_part : forall (l : list (list nat)) y, NoDup (concat l) -> In y l -> NoDup y.
Proof.
  induction l as [|x l IH]; intros y H I; [destruct I|]. cbn [concat] in H. destruct I as [<-|I].
  - clear - H. induction x as [|a x IHx]; constructor; inversion H; subst; auto. intros K. apply H2. apply in_or_app. auto.
  - apply IH; [|assumption]. clear - H. induction x as [|a x IHx]; [assumption|]. inversion H. auto.
Qed.
Lemma numbers_ok : forall rr rv O, NoDup (ord rv rr) -> (forall i, In i (0 :: O) -> ~ In i (ord rv rr)) -> ids_ok O rr = true.
Proof.
  intros rr.
  assert (L : forall l rv O, (forall r, In r l -> forall rv O, NoDup (ord rv r) -> (forall i, In i (0 :: O) -> ~ In i (ord rv r)) -> ids_ok O r = true) ->
    NoDup (concat (map (ord rv) l)) -> (forall i, In i (0 :: O) -> ~ In i (concat (map (ord rv) l))) -> forallb (ids_ok O) l = true).
  { intros l rv O H N K. apply forallb_forall. intros r I. apply (H r I rv).
    - apply (nodup_part _ _ N). apply in_map. assumption.
    - intros i J M. apply (K i J). apply in_concat. exists (ord rv r). split; [apply in_map; assumption|assumption]. }
  assert (P : forall l rv0 rv O, (forall r, In r l -> forall rv O, NoDup (ord rv r) -> (forall i, In i (0 :: O) -> ~ In i (ord rv r)) -> ids_ok O r = true) ->
    NoDup (pick rv0 (map (ord rv) l)) -> (forall i, In i (0 :: O) -> ~ In i (pick rv0 (map (ord rv) l))) -> forallb (ids_ok O) l = true).
  { intros l rv0 rv O H N K. apply (L l rv O H); [apply (pick_nodup rv0); assumption|].
    intros i J M. apply (K i J). apply pick_in. apply in_concat in M. exact M. }
  assert (C : forall i l rv O, (forall r, In r l -> forall rv O, NoDup (ord rv r) -> (forall i, In i (0 :: O) -> ~ In i (ord rv r)) -> ids_ok O r = true) ->
    NoDup (i :: pick rv (map (ord rv) l)) -> (forall j, In j (0 :: O) -> ~ In j (i :: pick rv (map (ord rv) l))) ->
    negb (existsb (Nat.eqb i) (0 :: O)) && forallb (ids_ok (i :: O)) l = true).
  { intros i l rv O H N K. inversion N as [|a b N1 N2]; subst. apply andb_true_iff. split.
    - apply negb_true_iff. apply not_true_iff_false. intros E. apply existsb_exists in E as (j & E1 & E2). apply Nat.eqb_eq in E2. subst j.
      apply (K i E1). left. reflexivity.
    - apply (P l rv rv (i :: O) H N2). intros j J M. destruct J as [<-|[<-|J]]; [apply (K 0); [left; reflexivity|right; assumption]|contradiction|].
      apply (K j); right; assumption. }
  apply (re_ind2 (fun r => forall rv O, NoDup (ord rv r) -> (forall i, In i (0 :: O) -> ~ In i (ord rv r)) -> ids_ok O r = true)
    (fun l => forall r, In r l -> forall rv O, NoDup (ord rv r) -> (forall i, In i (0 :: O) -> ~ In i (ord rv r)) -> ids_ok O r = true));
    try (intros; reflexivity).
  - intros r [].
  - intros x l H K r [<-|I]; [apply H|apply K; assumption].
  - intros l H rv O N K. cbn [ids_ok ord] in *. eapply L; eassumption.
  - intros l H rv O N K. cbn [ids_ok ord] in *. eapply P; eassumption.
  - intros k a b l H rv O N K. cbn [ids_ok ord] in *. eapply P; eassumption.
  - intros i l H rv O N K. cbn [ids_ok ord] in *. eapply C; eassumption.
  - intros i nm l H rv O N K. cbn [ids_ok ord] in *. eapply C; eassumption.
  - intros n l H rv O N K. cbn [ids_ok ord] in *. eapply L; eassumption.
  - intros n l H rv O N K. cbn [ids_ok ord] in *. eapply P; eassumption.
  - intros l H rv O N K. cbn [ids_ok ord] in *. eapply P; eassumption.
Qed.

(** The groups that the result type offers: those not inside a lookbehind or an atomic group. *)
Fixpoint hides (r : re) : bool :=
  match r with
  | RBehind _ _ | RAtomic _ => match numbers r with [] => false | _ => true end
  | RSelect l | RSeq l | RRep _ _ _ l | RAhead _ l | RCap _ l | RNCap _ _ l => existsb hides l
  | _ => false
  end.
Definition listed (l : list re) : list (nat * option (list Z)) := concat (map find_captures l).
Lemma captures_list : forall l,
  (fix fc (l : list re) : list (nat * option (list Z)) := match l with [] => [] | x :: xs => find_captures x ++ fc xs end) l = listed l.
Proof. induction l as [|x l IH]; [reflexivity|]. unfold listed in *. cbn [map concat]. rewrite IH. reflexivity. Qed.
Lemma captures_counted : forall rr x, count_occ Nat.eq_dec (map fst (find_captures rr)) x <= count_occ Nat.eq_dec (numbers rr) x.
Proof.
  intros rr x.
  assert (L : forall l, (forall r, In r l -> count_occ Nat.eq_dec (map fst (find_captures r)) x <= count_occ Nat.eq_dec (numbers r) x) ->
    count_occ Nat.eq_dec (map fst (listed l)) x <= count_occ Nat.eq_dec (concat (map numbers l)) x).
  { induction l as [|r l IH]; intros H; [apply Nat.le_refl|]. unfold listed in *. cbn [map concat]. rewrite map_app, !count_occ_app.
    pose proof (H r (or_introl eq_refl)). pose proof (IH (fun r' I => H r' (or_intror I))). lia. }
  apply (re_ind2 (fun r => count_occ Nat.eq_dec (map fst (find_captures r)) x <= count_occ Nat.eq_dec (numbers r) x)
    (fun l => forall r, In r l -> count_occ Nat.eq_dec (map fst (find_captures r)) x <= count_occ Nat.eq_dec (numbers r) x));
    intros; try (apply Nat.le_0_l); cbn [find_captures numbers ord pick] in *; rewrite ?captures_list; try (apply L; assumption).
  - destruct H.
  - destruct H1 as [<-|I]; auto.
  - cbn [map fst]. unfold pick. cbn [count_occ]. specialize (L l H). change (map (ord false) l) with (map numbers l). destruct (Nat.eq_dec i x); lia.
  - cbn [map fst]. unfold pick. cbn [count_occ]. specialize (L l H). change (map (ord false) l) with (map numbers l). destruct (Nat.eq_dec i x); lia.
Qed.
Lemma captures_all : forall rr, hides rr = false -> map fst (find_captures rr) = numbers rr.
Proof.
  intros rr.
  assert (L : forall l, (forall r, In r l -> hides r = false -> map fst (find_captures r) = numbers r) -> existsb hides l = false ->
    map fst (listed l) = concat (map numbers l)).
  { induction l as [|r l IH]; intros H E; [reflexivity|]. cbn [existsb] in E. apply orb_false_iff in E as [E1 E2].
    unfold listed in *. cbn [map concat]. rewrite map_app. f_equal.
    - apply H; [left; reflexivity|assumption].
    - apply IH; [|assumption]. intros r' I. apply H. right. assumption. }
  apply (re_ind2 (fun r => hides r = false -> map fst (find_captures r) = numbers r)
    (fun l => forall r, In r l -> hides r = false -> map fst (find_captures r) = numbers r));
    intros; try reflexivity; cbn [find_captures hides] in *; rewrite ?captures_list; try (apply L; assumption).
  - destruct H.
  - destruct H1 as [<-|I]; auto.
  - cbn [map fst]. rewrite L by assumption. reflexivity.
  - cbn [map fst]. rewrite L by assumption. reflexivity.
  - destruct (numbers (RBehind n l)); [reflexivity|discriminate].
  - destruct (numbers (RAtomic l)); [reflexivity|discriminate].
Qed.

Theorem compiled_well_numbered : forall props input r, compile props input = CRegex r -> well_numbered r.
Proof.
  intros props input r H. destruct (compiled_numbers props input r H) as (k & _ & E & _).
  assert (N : NoDup (numbers r)) by (rewrite E; apply seq_NoDup). split.
  - apply (numbers_ok r false); [exact N|]. intros i [<-|[]] I. change (ord false r) with (numbers r) in I. rewrite E in I.
    apply in_seq in I. lia.
  - apply (NoDup_count_occ Nat.eq_dec). intros x. pose proof (captures_counted r x).
    pose proof (proj1 (NoDup_count_occ Nat.eq_dec (numbers r)) N x). lia.
Qed.

Lemma call_entries : forall m opt n s f r c, entry_point m -> well_numbered r -> m opt n s f r = Ok c -> map fst (cl c) = find_captures r.
Proof.
  assert (F : forall r, map fst (cl (fresh r)) = find_captures r) by (intros r; cbn [fresh cl]; rewrite map_map; apply map_id).
  intros m opt n s f r c [-> | [-> | ->]] Hw H.
  - destruct (returned_cases _ _ _ H) as [E|[_ ->]]; [|apply F].
    change (whole opt n s f r 0 = Ok c) in E. apply whole_ok in E; auto with arith. tauto.
  - destruct (returned_cases _ _ _ H) as [E|[_ ->]]; [|apply F].
    change (attempt opt n s f r 0 = Ok c) in E. apply attempt_ok in E; auto with arith. tauto.
  - apply search_cases in H; auto with arith. destruct H as [(q & Q & E & _)|(q & -> & _)]; [|apply F].
    apply attempt_ok in E; [tauto|assumption|lia].
Qed.
Lemma find_id_iff : forall id l, (exists sl, find_id id l = Some sl) <-> In id (map fst (map fst l)).
Proof.
  intros id l. induction l as [|[[i nm] sl] l IH]; cbn [find_id map fst]; [split; [intros (x & H); discriminate|intros []]|].
  destruct (Nat.eqb_spec i id) as [->|N].
  - split; intros; [left; reflexivity|eauto].
  - rewrite IH. split; [right; assumption|intros [E|I]; [contradiction|assumption]].
Qed.
(** A result offers the numbers of the capturing groups of the pattern text, and 0. *)
Theorem offered : forall props input r m opt n s f c id, compile props input = CRegex r -> several_letters input = false ->
  hides r = false -> entry_point m -> m opt n s f r = Ok c -> ((exists sl, get_id id c = Some sl) <-> id <= groups input).
Proof.
  intros props input r m opt n s f c id H S Hh Hm Hc. unfold get_id.
  destruct (Nat.eqb_spec id 0) as [->|N]; [split; intros; [lia|eauto]|].
  rewrite find_id_iff. rewrite (call_entries m opt n s f r c Hm (compiled_well_numbered _ _ _ H) Hc), captures_all by assumption.
  rewrite (all_numbers _ _ _ H S), in_seq. lia.
Qed.
(** A group found by its name is the group with a number. *)
Lemma name_is_number : forall nm l, NoDup (map fst (map fst l)) -> forall sl : slot, get_name nm l = Some sl ->
  exists id, In (id, Some nm) (map fst l) /\ find_id id l = Some sl.
Proof.
  intros nm l. induction l as [|[[i n0] s0] l IH]; cbn [get_name map fst]; intros N sl H; [discriminate|].
  inversion N as [|a b N1 N2]; subst.
  assert (K : get_name nm l = Some sl -> exists id, In (id, Some nm) ((i, n0) :: map fst l) /\ find_id id (((i, n0), s0) :: l) = Some sl).
  { intros E. destruct (IH N2 sl E) as (id & I1 & I2). exists id. split; [right; assumption|]. cbn [find_id].
    destruct (Nat.eqb_spec i id) as [->|]; [|assumption]. exfalso. apply N1. apply in_map_iff. exists (id, Some nm). auto. }
  destruct n0 as [n0|]; [|apply K; assumption]. unfold name_eqb in H. destruct (list_eq_dec Z.eq_dec nm n0) as [<-|]; [|apply K; assumption].
  injection H as <-. exists i. split; [left; reflexivity|]. cbn [find_id]. rewrite Nat.eqb_refl. reflexivity.
Qed.
Lemma name_found : forall nm (l : list entry) id, In (id, Some nm) (map fst l) -> exists sl, get_name nm l = Some sl.
Proof.
  intros nm l id. induction l as [|[[i n0] s0] l IH]; cbn [get_name map fst]; intros I; [destruct I|].
  destruct I as [E|I].
  - injection E as -> ->. unfold name_eqb. destruct (list_eq_dec Z.eq_dec nm nm); [eauto|contradiction].
  - destruct n0 as [n0|]; [destruct (name_eqb nm n0); [eauto|]|]; apply IH; assumption.
Qed.
