(** A mode switch of several letters at the beginning of the pattern (C38). *)
From Coq Require Import List ZArith NArith Bool Arith Lia String.
From Verif Require Import Chars Syntax Grammar Actions Parser ParserProofs Literals Pattern PatternLink.
Import ListNotations.
Local Open Scope nat_scope.

Section Switches.
Variable props : list Z -> option (list Z) -> option (list (Z * Z)).

(** * Switches at the bottom of the stack *)
Definition switches (l : list mode) : list item := map (fun m => IRe (RMode m)) l.
Definition below (bot : list item) (c : ctx) : ctx := mkCtx (stk c ++ bot) (counter c).
Lemma frame_act : forall l a v c c', apply props a (Some v) c = Done c' -> apply props a (Some v) (below (switches l) c) = Done (below (switches l) c').
Proof.
  intros l a v [s n] c' H.
  assert (G : forall m, apply_mode m (mkCtx s n) = Done c' -> apply_mode m (below (switches l) (mkCtx s n)) = Done (below (switches l) c')).
  { intros m E. unfold apply_mode, below in *. cbn [stk counter] in *. destruct s as [|i s]; [injection E as <-; destruct l; reflexivity|].
    cbn [app]. destruct i; injection E as <-; reflexivity. }
  destruct a; cbn [apply] in *; try (apply G; assumption); clear G; unfold push, push_cls in *; cbn [stk counter below] in *;
    try (injection H as <-; reflexivity).
  all: try (destruct s as [|i s]; [try discriminate H|]).
  all: try (injection H as <-; destruct l; reflexivity).
  all: cbn [app] in *.
  all: repeat match type of H with context [match ?x with _ => _ end] => is_var x; destruct x; try discriminate H end; cbn [app] in *.
  all: repeat match type of H with context [if ?x then _ else _] => destruct x; try discriminate H end.
  all: repeat match type of H with context [match ?g ?x ?y with _ => _ end] => is_var g; destruct (g x y); try discriminate H end.
  all: try (injection H as <-; reflexivity).
  all: try (destruct (behind_content r); [|discriminate H]; injection H as <-; reflexivity).
Qed.
Lemma frame_run : forall l n v i st c c', run props n (Some v) i st c = PAccept c' ->
  run props n (Some v) i st (below (switches l) c) = PAccept (below (switches l) c').
Proof.
  intros l. induction n as [|n IH]; intros v i st c c' H; [discriminate|]. cbn [run] in *.
  destruct st as [|[x|a|d| |t] st].
  - destruct i; [|discriminate]. injection H as <-. reflexivity.
  - destruct (rule x (hd_error i)); [auto|discriminate].
  - destruct (apply props a (Some v) c) eqn:E; try discriminate. rewrite (frame_act _ _ _ _ _ E). auto.
  - destruct i as [|ch i]; [discriminate|]. destruct (term_matches (TTerm d) ch); [auto|discriminate].
  - destruct i as [|ch i]; [discriminate|]. destruct (term_matches TAny ch); [auto|discriminate].
  - destruct i as [|ch i]; [discriminate|]. destruct (term_matches (TSet t) ch); [auto|discriminate].
Qed.

(** * Reading the letters *)
Definition letter_of (c : Z) (m : mode) : Prop := In (c, m) mode_letters.
Definition after_block : list sym := [NT N_repeat; NT N_string2; NT N_content2].
Lemma letters_run : forall cs ms, Forall2 letter_of cs ms -> forall q v m ts k S, exists n, forall fuel,
  run props (n + fuel) (Some q) (cs ++ 41%Z :: v) (NT N_mode_switch2 :: S) (mkCtx (IRe (RMode m) :: ts) k) =
  run props fuel (Some 41%Z) v S (mkCtx (switches (rev ms) ++ IRe (RMode m) :: ts) k).
Proof.
  intros cs ms H. induction H as [|c x cs ms Hc H IH]; intros q v m ts k S.
  - exists 2. intros fuel. reflexivity.
  - destruct (IH c v x (IRe (RMode m) :: ts) k S) as (n & K). exists (3 + n). intros fuel.
    unfold switches in *. cbn [rev]. rewrite map_app, <- app_assoc. cbn [map app]. rewrite <- K. cbn [Nat.add].
    unfold letter_of in Hc. cbn [mode_letters In] in Hc. destruct Hc as [E|[E|[E|[E|[]]]]]; injection E as <- <-; reflexivity.
Qed.
Lemma switch_run : forall c x cs ms v, letter_of c x -> Forall2 letter_of cs ms -> exists n, forall fuel,
  run props (n + fuel) None (codes "(?" ++ c :: cs ++ 41%Z :: v) [NT N_s] (mkCtx [] 0) =
  run props fuel (Some 41%Z) v after_block (mkCtx (switches (rev (x :: ms))) 0).
Proof.
  intros c x cs ms v Hc H. destruct (letters_run cs ms H c v x [] 0 after_block) as (n & K). exists (8 + n). intros fuel.
  unfold switches in *. cbn [rev]. rewrite map_app. cbn [map]. rewrite <- K. cbn [Nat.add].
  unfold letter_of in Hc. cbn [mode_letters In] in Hc. destruct Hc as [E|[E|[E|[E|[]]]]]; injection E as <- <-; reflexivity.
Qed.
(** Only the last letter counts, whatever follows. *)
Theorem last_letter : forall cs c v r, Forall (fun d => exists m, letter_of d m) (cs ++ [c]) ->
  compile props (codes "(?" ++ [c] ++ codes ")" ++ v) = CRegex r -> compile props (codes "(?" ++ (cs ++ [c]) ++ codes ")" ++ v) = CRegex r.
Proof.
  intros cs c v r HF H. apply Forall_app in HF as [HF Hc]. inversion Hc as [|? ? [x Hx] _]. subst.
  assert (E : exists ms, Forall2 letter_of cs ms).
  { clear H. induction HF as [|d l [m Hd] _ [ms K]]; [exists []; constructor|]. exists (m :: ms). constructor; assumption. }
  destruct E as [ms E].
  destruct (switch_run c x [] [] v Hx ltac:(constructor)) as (n1 & K1). cbn [app rev switches map] in K1.
  unfold compile in H. destruct (parse_ctx props (codes "(?" ++ [c] ++ codes ")" ++ v)) as [c1| | |] eqn:P; try discriminate.
  assert (R : exists n, run props n (Some 41%Z) v after_block (mkCtx [IRe (RMode x)] 0) = PAccept c1).
  { unfold parse_ctx in P. exists (parse_fuel (codes "(?" ++ [c] ++ codes ")" ++ v)). rewrite <- K1.
    apply (run_mono props (parse_fuel (codes "(?" ++ [c] ++ codes ")" ++ v))); [lia|exact P|discriminate]. }
  destruct R as (n & R). pose proof (frame_run (rev ms) _ _ _ _ _ _ R) as R'.
  assert (Q : exists k, forall fuel, run props (k + fuel) None (codes "(?" ++ (cs ++ [c]) ++ codes ")" ++ v) [NT N_s] (mkCtx [] 0) =
    run props fuel (Some 41%Z) v after_block (below (switches (rev ms)) (mkCtx [IRe (RMode x)] 0))).
  { destruct E as [|d m cs' ms' Hd E].
    - exists n1. intros fuel. exact (K1 fuel).
    - destruct (switch_run d m (cs' ++ [c]) (ms' ++ [x]) v Hd) as (n2 & K2).
      { apply Forall2_app; [assumption|]. constructor; [assumption|constructor]. }
      exists n2. intros fuel. unfold below. cbn [stk counter]. specialize (K2 fuel). cbn [rev] in K2 |- *. rewrite rev_app_distr in K2. exact K2. }
  destruct Q as (k & Q). specialize (Q n). rewrite R' in Q. apply parse_any in Q. unfold compile. rewrite Q. cbn [below stk].
  destruct (stk c1) as [|[] ts]; try discriminate. exact H.
Qed.
End Switches.
