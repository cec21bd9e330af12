(** The parser as it is written: a fold that reads one character at a time, with the moves that pop a terminal at once.
    Source: /repo/include/ctll/parser.hpp lines 15-188, /repo/include/ctll/grammars.hpp lines 37-46, 91-112,
    /repo/include/ctll/list.hpp lines 26-48, /repo/include/ctll/actions.hpp, /repo/include/ctre/literals.hpp lines 60-138.

    [run] (Parser.v) and [run_at] (ErrorPos.v) are one loop over the rest of the text; this file relates them to the
    functions of the source, with the subject and the semantic actions as parameters. *)
From Coq Require Import List ZArith NArith Bool Lia Arith.
From Verif Require Import Chars Syntax Grammar GramFile Actions Parser ParserProofs Numbering Pattern PatternRead PatternParse PatternLink ErrorPos Gram.
Import ListNotations.
Local Open Scope nat_scope.

(** What [Actions::apply] returns (parser.hpp lines 154-159): a subject, [ctll::reject], or no viable overload. *)
Inductive applied (T : Type) := Applied (s : T) | Refused | NoOverload.
Arguments Applied {T}. Arguments Refused {T}. Arguments NoOverload {T}.

(** parser.hpp lines 15-19 *)
Inductive decision := d_reject | d_accept | d_undecided.

(** What [grammar::rule] returns (grammars.hpp lines 11-46, 91-108). *)
Inductive command := c_accept | c_reject | c_pop_input | c_epsilon | c_push (l : list sym).

(** grammars.hpp lines 91-112, [augment_grammar]: the top of the stack, [None] for [empty_stack_symbol], and the
    current character, [None] for [epsilon]. Actions never get here. *)
Definition augmented (top : option sym) (cur : option Z) : command :=
  match top, cur with
  | None, None => c_accept
  | None, Some _ => c_reject
  | Some (NT x), _ => match rule x cur with Push [] => c_epsilon | Push l => c_push l | Rej => c_reject end
  | Some t, Some c => if term_matches t c then c_pop_input else c_reject
  | Some _, None => c_reject
  end.

(** parser.hpp lines 131-137: a pushed string that starts with the current character, without it. The overload for
    [push<anything, ...>] (lines 138-144) has a parameter [auto V] that no argument gives, so it is never chosen. *)
Definition quick (l : list sym) (cur : option Z) : option (list sym) :=
  match l, cur with
  | TTerm d :: l', Some c => if (d =? c)%Z then Some l' else None
  | _, _ => None
  end.

Section Machine.
Variable T : Type.
Variable app_act : action -> option Z -> T -> applied T.
Variable input : list Z.

(** parser.hpp lines 45-75 *)
Record results := mkResults { r_pos : nat; r_stack : list sym; r_subject : T; r_decision : decision }.
(** A result, no program, or the bound of the model on the symbols popped by one call. *)
Inductive outcome := Result (r : results) | HardError | Exhausted.

(** parser.hpp lines 77-90 *)
Definition current_term (pos : nat) : option Z := nth_error input pos.
(** parser.hpp lines 91-106 *)
Definition previous_term (pos : nat) : option Z := match pos with O => None | S p => nth_error input p end.

(** parser.hpp lines 107-168, [move] and [decide]. *)
Fixpoint decide (n : nat) (pos : nat) (stack : list sym) (s : T) : outcome :=
  match n with
  | O => Exhausted
  | S n =>
      match hd_error stack with
      | Some (Act a) =>
          match app_act a (previous_term pos) s with
          | Applied s' => decide n pos (tl stack) s'
          | Refused => Result (mkResults pos stack s d_reject)
          | NoOverload => HardError
          end
      | top =>
          match augmented top (current_term pos) with
          | c_accept => Result (mkResults pos (tl stack) s d_accept)
          | c_reject => Result (mkResults pos (tl stack) s d_reject)
          | c_pop_input => Result (mkResults (S pos) (tl stack) s d_undecided)
          | c_epsilon => decide n pos (tl stack) s
          | c_push l =>
              match quick l (current_term pos) with
              | Some l' => Result (mkResults (S pos) (l' ++ tl stack) s d_undecided)
              | None => decide n pos (l ++ tl stack) s
              end
          end
      end
  end.

Variable bound : nat.
(** parser.hpp lines 66-74, [results + placeholder]. *)
Definition next (o : outcome) : outcome :=
  match o with
  | Result (mkResults pos stack s d_undecided) => decide bound pos stack s
  | _ => o
  end.
(** parser.hpp lines 170-176: [(x + ... + placeholder)] with [k] placeholders. *)
Fixpoint folded (k : nat) (o : outcome) : outcome := match k with O => o | S k => folded k (next o) end.
Definition trampoline_with (k : nat) (s : T) : outcome := folded k (decide bound 0 [NT N_s] s).
(** parser.hpp lines 178-181: as many as characters. *)
Definition trampoline (s : T) : outcome := trampoline_with (length input) s.
(** parser.hpp lines 47-51, 183-184, [is_correct] and [correct_with]. *)
Definition is_correct (o : outcome) : bool :=
  match o with Result r => match r_decision r with d_accept => true | _ => false end | _ => false end.

(** The loop that does not stop at characters. *)
Inductive final := FAccept (pos : nat) (s : T) | FReject (pos : nat) | FIll | FFuel.
Fixpoint loop (fuel pos : nat) (prev : option Z) (rest : list Z) (stack : list sym) (s : T) : final :=
  match fuel with
  | O => FFuel
  | S n =>
      match stack with
      | [] => match rest with [] => FAccept pos s | _ => FReject pos end
      | Act a :: st =>
          match app_act a prev s with
          | Applied s' => loop n pos prev rest st s'
          | Refused => FReject pos
          | NoOverload => FIll
          end
      | NT x :: st =>
          match rule x (hd_error rest) with
          | Push l => loop n pos prev rest (l ++ st) s
          | Rej => FReject pos
          end
      | t :: st =>
          match rest with
          | ch :: rest => if term_matches t ch then loop n (S pos) (Some ch) rest st s else FReject pos
          | [] => FReject pos
          end
      end
  end.
Definition settled (o : outcome) (x : final) : Prop :=
  match x with
  | FAccept p s => o = Result (mkResults p [] s d_accept)
  | FReject p => exists st s, o = Result (mkResults p st s d_reject)
  | FIll => o = HardError
  | FFuel => False
  end.

Lemma folded_settled : forall k o x, settled o x -> folded k o = o.
Proof.
  induction k as [|k IH]; intros o x H; [reflexivity|]. cbn [folded].
  assert (E : next o = o).
  { destruct x as [p s|p| |]; cbn in H; [rewrite H; reflexivity|destruct H as (st & s & ->); reflexivity|rewrite H; reflexivity|contradiction]. }
  rewrite E. eapply IH, H.
Qed.

Lemma skipn_hd : forall (pos : nat) (l : list Z), hd_error (skipn pos l) = nth_error l pos.
Proof. induction pos as [|p IH]; intros [|x l]; try reflexivity. cbn. apply IH. Qed.
Lemma skipn_step : forall (pos : nat) (l : list Z) c t, skipn pos l = c :: t -> skipn (S pos) l = t.
Proof.
  induction pos as [|p IH]; intros [|x l] c t E; try discriminate.
  - cbn in *. congruence.
  - cbn [skipn] in E. change (skipn (S (S p)) (x :: l)) with (skipn (S p) l). eapply IH, E.
Qed.
Lemma skipn_len : forall (pos : nat) (l : list Z) c t, skipn pos l = c :: t -> length l = S (pos + length t).
Proof.
  intros pos l c t E. assert (L : length (skipn pos l) = S (length t)) by (rewrite E; reflexivity).
  rewrite skipn_length in L. lia.
Qed.

(** The fold does what the loop does, whatever the bound, if it lets the loop finish. *)
Lemma fold_loop : forall n m pos st s k, n <= m -> n <= bound -> length input <= pos + k ->
  loop n pos (previous_term pos) (skipn pos input) st s <> FFuel ->
  settled (folded k (decide m pos st s)) (loop n pos (previous_term pos) (skipn pos input) st s).
Proof.
  induction n as [|n IH]; intros m pos st s k L B K F; [cbn in F; congruence|].
  destruct m as [|m]; [lia|]. cbn [decide loop] in *. unfold current_term in *. rewrite <- skipn_hd in *.
  assert (R : forall x o, settled o x -> settled (folded k o) x) by (intros x o H; rewrite (folded_settled k o x H); exact H).
  (* A consumed character. *)
  assert (C : forall st' ch rest, skipn pos input = ch :: rest -> loop n (S pos) (Some ch) rest st' s <> FFuel ->
    settled (folded k (Result (mkResults (S pos) st' s d_undecided))) (loop n (S pos) (Some ch) rest st' s)).
  { intros st' ch rest E F'. pose proof (skipn_len _ _ _ _ E) as Len. destruct k as [|k]; [lia|]. cbn [folded next].
    assert (P : previous_term (S pos) = Some ch) by (cbn [previous_term]; rewrite <- skipn_hd, E; reflexivity).
    pose proof (skipn_step _ _ _ _ E) as St. rewrite <- St, <- P in *. apply IH; lia || assumption. }
  destruct st as [|[x|a|d| |l] st]; cbn [hd_error tl augmented] in *.
  - destruct (skipn pos input) as [|ch rest]; apply R; cbn; eauto.
  - destruct (rule x (hd_error (skipn pos input))) as [l|] eqn:Ru; [|apply R; cbn; eauto].
    destruct l as [|y l]; [apply IH; lia || assumption|].
    destruct (quick (y :: l) (hd_error (skipn pos input))) as [l'|] eqn:Q; [|apply IH; lia || assumption].
    destruct (skipn pos input) as [|ch rest] eqn:E; [destruct y; discriminate|]. cbn [hd_error] in *.
    destruct y as [|  |d| |]; try discriminate. cbn [quick] in Q. destruct (d =? ch)%Z eqn:D; [|discriminate]. injection Q as <-.
    apply Z.eqb_eq in D as ->.
    assert (X : forall n0, loop (S n0) pos (previous_term pos) (ch :: rest) ((TTerm ch :: l) ++ st) s = loop n0 (S pos) (Some ch) rest (l ++ st) s).
    { intros n0. cbn [loop app term_matches]. rewrite Z.eqb_refl. reflexivity. }
    (* the loop pops the terminal in a step of its own *)
    destruct n as [|n]; [cbn in F; congruence|]. rewrite X in *.
    pose proof (skipn_len _ _ _ _ E) as Len. destruct k as [|k]; [lia|]. cbn [folded next].
    assert (P : previous_term (S pos) = Some ch) by (cbn [previous_term]; rewrite <- skipn_hd, E; reflexivity).
    pose proof (skipn_step _ _ _ _ E) as St.
    assert (G : settled (folded k (decide bound (S pos) (l ++ st) s)) (loop (S n) (S pos) (previous_term (S pos)) (skipn (S pos) input) (l ++ st) s) \/
      loop (S n) (S pos) (previous_term (S pos)) (skipn (S pos) input) (l ++ st) s = FFuel).
    { destruct (loop (S n) (S pos) (previous_term (S pos)) (skipn (S pos) input) (l ++ st) s) eqn:W; [left|left|left|right; reflexivity];
        rewrite <- W; apply IH; try lia; rewrite W; discriminate. }
    rewrite P, St in G.
    assert (M : loop (S n) (S pos) (Some ch) rest (l ++ st) s = loop n (S pos) (Some ch) rest (l ++ st) s).
    { clear - F. revert F. generalize (S pos) (Some ch) rest (l ++ st) s. clear. induction n as [|n IH]; intros p v r st s F; [cbn in F; congruence|].
      remember (S n) as n1. cbn [loop]. subst n1. cbn [loop] in F.
      destruct st as [|[y|a|d| |q] st]; [reflexivity|..]; cbn [loop].
      - destruct (rule y _); [apply IH; exact F|reflexivity].
      - destruct (app_act a v s); [apply IH; exact F|reflexivity|reflexivity].
      - destruct r; [reflexivity|]. destruct (term_matches _ _); [apply IH; exact F|reflexivity].
      - destruct r; [reflexivity|]. destruct (term_matches _ _); [apply IH; exact F|reflexivity].
      - destruct r; [reflexivity|]. destruct (term_matches _ _); [apply IH; exact F|reflexivity]. }
    rewrite M in G. destruct G as [G|G]; [exact G|congruence].
  - destruct (app_act a (previous_term pos) s) as [s'| |]; [apply IH; lia || assumption|apply R; cbn; eauto|apply R; reflexivity].
  - destruct (skipn pos input) as [|ch rest] eqn:E; cbn [hd_error] in *; [apply R; cbn; eauto|].
    destruct (term_matches (TTerm d) ch); [apply C; auto|apply R; cbn; eauto].
  - destruct (skipn pos input) as [|ch rest] eqn:E; cbn [hd_error] in *; [apply R; cbn; eauto|].
    destruct (term_matches TAny ch); [apply C; auto|apply R; cbn; eauto].
  - destruct (skipn pos input) as [|ch rest] eqn:E; cbn [hd_error] in *; [apply R; cbn; eauto|].
    destruct (term_matches (TSet l) ch); [apply C; auto|apply R; cbn; eauto].
Qed.

(** The loop finishes. *)
Lemma loop_total : forall fuel pos prev rest st s, left (length rest) st <= fuel -> loop fuel pos prev rest st s <> FFuel.
Proof.
  clear input bound.
  induction fuel as [|fuel IH]; intros pos prev rest st s H; [unfold left in H; lia|].
  cbn [loop]. destruct st as [|y st]; [destruct rest; discriminate|].
  assert (G : forall t, weight t = 1 -> reads (t :: st) = true -> left (length rest) (t :: st) <= S fuel ->
    match rest with ch :: rest => if term_matches t ch then loop fuel (S pos) (Some ch) rest st s else FReject pos | [] => FReject pos end <> FFuel).
  { intros t Wt Rt Ht. destruct rest as [|ch rest]; [discriminate|]. destruct (term_matches t ch); [|discriminate].
    apply IH. unfold left in *. rewrite Rt in Ht. unfold weights in *. cbn [map list_sum fold_right length pred] in Ht.
    change (fold_right Nat.add 0 (map weight st)) with (list_sum (map weight st)) in Ht. rewrite Wt in Ht.
    destruct (reads st); lia. }
  destruct y as [n|a|d| |l]; try (apply G; try reflexivity; assumption).
  - destruct (rule n (hd_error rest)) as [l|] eqn:E; [|discriminate]. apply IH. pose proof (left_nt _ _ st _ E). lia.
  - destruct (app_act a prev s) as [c'| |]; try discriminate. apply IH.
    unfold left in *. cbn [reads] in H. unfold weights in *. cbn [map list_sum fold_right weight] in H.
    change (fold_right Nat.add 0 (map weight st)) with (list_sum (map weight st)) in H. lia.
Qed.
Lemma loop_end : forall fuel pos prev rest st s p s', loop fuel pos prev rest st s = FAccept p s' -> p = pos + length rest.
Proof.
  clear input bound.
  induction fuel as [|fuel IH]; intros pos prev rest st s p s' H; [discriminate|]. cbn [loop] in H.
  destruct st as [|[n|a|d| |l] st].
  - destruct rest; [injection H as <- <-; cbn; lia|discriminate].
  - destruct (rule n _); [eauto|discriminate].
  - destruct (app_act a prev s); [eauto|discriminate|discriminate].
  - destruct rest as [|ch rest]; [discriminate|]. destruct (term_matches _ ch); [|discriminate]. apply IH in H. cbn [length]. lia.
  - destruct rest as [|ch rest]; [discriminate|]. destruct (term_matches _ ch); [|discriminate]. apply IH in H. cbn [length]. lia.
  - destruct rest as [|ch rest]; [discriminate|]. destruct (term_matches _ ch); [|discriminate]. apply IH in H. cbn [length]. lia.
Qed.
End Machine.
Arguments Result {T}. Arguments HardError {T}. Arguments Exhausted {T}. Arguments mkResults {T}.
Arguments FAccept {T}. Arguments FReject {T}. Arguments FIll {T}. Arguments FFuel {T}.
Arguments r_pos {T}. Arguments r_stack {T}. Arguments r_subject {T}. Arguments r_decision {T}. Arguments is_correct {T}.
Arguments decide {T}. Arguments next {T}. Arguments folded {T}. Arguments trampoline_with {T}. Arguments trampoline {T}. Arguments loop {T}. Arguments settled {T}.

Section Fold.
Variable T : Type.
Variable f : action -> option Z -> T -> applied T.

Lemma left_start : forall u : list Z, left (length u) [NT N_s] <= 8 * length u + 3.
Proof. intros u. unfold left. cbn. lia. Qed.
Theorem fold_start : forall u b k s, 8 * length u + 3 <= b -> length u <= k ->
  settled (trampoline_with f u b k s) (loop f b 0 None u [NT N_s] s).
Proof.
  intros u b k s B K. apply (fold_loop T f u b b b 0 [NT N_s] s k); try lia.
  apply loop_total. cbn [skipn]. pose proof (left_start u). lia.
Qed.

(** More placeholders than characters change nothing. *)
Theorem fold_enough : forall u b k s, 8 * length u + 3 <= b -> length u <= k -> trampoline_with f u b k s = trampoline f u b s.
Proof.
  intros u b k s B K. unfold trampoline. replace k with (length u + (k - length u)) by lia.
  pose proof (fold_start u b (length u) s B (le_n _)) as S. unfold trampoline_with in *.
  assert (A : forall i j o, folded f u b (i + j) o = folded f u b j (folded f u b i o)).
  { induction i as [|i IH]; intros j o; [reflexivity|]. cbn [plus folded]. apply IH. }
  rewrite A. eapply folded_settled, S.
Qed.
(** With as many the fold has decided. *)
Theorem fold_decided : forall u b s, 8 * length u + 3 <= b ->
  trampoline f u b s = HardError \/ exists r, trampoline f u b s = Result r /\ r_decision r <> d_undecided /\ r_pos r <= length u /\
    (r_decision r = d_accept -> r_pos r = length u /\ r_stack r = []).
Proof.
  intros u b s B. pose proof (fold_start u b (length u) s B (le_n _)) as S. fold (trampoline f u b s) in S.
  assert (P : forall n pos prev rest st t p, loop f n pos prev rest st t = FReject p -> p <= pos + length rest).
  { induction n as [|n IH]; intros pos prev rest st t p H; [discriminate|]. cbn [loop] in H.
    assert (C : forall y st', match rest with ch :: rest => if term_matches y ch then loop f n (Datatypes.S pos) (Some ch) rest st' t else FReject pos | [] => FReject pos end = FReject p -> p <= pos + length rest).
    { intros y st' E. destruct rest as [|ch rest]; [injection E as <-; cbn; lia|]. destruct (term_matches y ch); [|injection E as <-; cbn; lia].
      apply IH in E. cbn [length]. lia. }
    destruct st as [|[x|a|d| |l] st]; [| | |exact (C (TTerm d) _ H)|exact (C TAny _ H)|exact (C (TSet l) _ H)].
    - destruct rest; [discriminate|injection H as <-; lia].
    - destruct (rule x _); [eapply IH, H|injection H as <-; lia].
    - destruct (f a prev t); [eapply IH, H|injection H as <-; lia|discriminate]. }
  destruct (loop f b 0 None u [NT N_s] s) as [p t|p| |] eqn:E; cbn [settled] in S.
  - right. eexists. split; [exact S|]. cbn. apply loop_end in E. cbn [plus] in E. split; [discriminate|]. split; [lia|]. intros _. split; [exact E|reflexivity].
  - right. destruct S as (st & t & S). eexists. split; [exact S|]. cbn. apply P in E. split; [discriminate|]. split; [exact E|discriminate].
  - left. exact S.
  - contradiction.
Qed.

(** Every undecided result has read one more character. *)
Lemma decide_pos : forall u n pos st s r, decide f u n pos st s = Result r ->
  match r_decision r with d_undecided => r_pos r = S pos | _ => r_pos r = pos end.
Proof.
  induction n as [|n IH]; intros pos st s r H; [discriminate|]. cbn [decide] in H.
  assert (C : forall top, match augmented top (current_term u pos) with
    | c_accept => Result (mkResults pos (tl st) s d_accept)
    | c_reject => Result (mkResults pos (tl st) s d_reject)
    | c_pop_input => Result (mkResults (S pos) (tl st) s d_undecided)
    | c_epsilon => decide f u n pos (tl st) s
    | c_push l => match quick l (current_term u pos) with Some l' => Result (mkResults (S pos) (l' ++ tl st) s d_undecided) | None => decide f u n pos (l ++ tl st) s end
    end = Result r -> match r_decision r with d_undecided => r_pos r = S pos | _ => r_pos r = pos end).
  { intros top E. destruct (augmented top _) as [| | | |l]; try (injection E as <-; reflexivity); [exact (IH _ _ _ _ E)|].
    destruct (quick l _); [injection E as <-; reflexivity|exact (IH _ _ _ _ E)]. }
  destruct (hd_error st) as [[x|a|d| |l]|]; [exact (C (Some (NT x)) H)| |exact (C (Some (TTerm d)) H)|exact (C (Some TAny) H)|exact (C (Some (TSet l)) H)|exact (C None H)].
  destruct (f a _ s); [exact (IH _ _ _ _ H)|injection H as <-; reflexivity|discriminate].
Qed.
Lemma fold_pos : forall u b k pos st s r, folded f u b k (decide f u b pos st s) = Result r ->
  match r_decision r with d_undecided => r_pos r = S (pos + k) | _ => r_pos r <= pos + k end.
Proof.
  intros u b k pos st s r. assert (G : forall k o i r, (forall r', o = Result r' -> match r_decision r' with d_undecided => r_pos r' = S i | _ => r_pos r' <= i end) ->
    folded f u b k o = Result r -> match r_decision r with d_undecided => r_pos r = S (i + k) | _ => r_pos r <= i + k end).
  { clear. induction k as [|k IH]; intros o i r Ho H; [rewrite Nat.add_0_r; apply Ho; exact H|]. cbn [folded] in H.
    replace (i + S k) with (S i + k) by lia. eapply IH; [|exact H]. intros r' E.
    destruct o as [[p st s d]| |]; [|discriminate|discriminate]. specialize (Ho _ eq_refl). cbn in Ho. destruct d; cbn [next] in E.
    - injection E as <-. cbn. lia.
    - injection E as <-. cbn. lia.
    - subst p. apply decide_pos in E. destruct (r_decision r'); lia. }
  intros H. eapply G; [|exact H]. intros r' E. apply decide_pos in E. destruct (r_decision r'); lia.
Qed.
(** An accepted text needs them all. *)
Theorem fold_needed : forall u b s k, 8 * length u + 3 <= b -> is_correct (trampoline f u b s) = true -> k < length u ->
  exists r, trampoline_with f u b k s = Result r /\ r_decision r = d_undecided /\ r_pos r = S k.
Proof.
  intros u b s k B C K. destruct (fold_decided u b s B) as [E|(r & E & N & P & A)]; [rewrite E in C; discriminate|].
  rewrite E in C. cbn in C. assert (D : r_decision r = d_accept) by (destruct (r_decision r); congruence). destruct (A D) as [Pos _].
  assert (F : forall i j o, folded f u b (i + j) o = folded f u b j (folded f u b i o)).
  { induction i as [|i IH]; intros j o; [reflexivity|]. cbn [plus folded]. apply IH. }
  assert (X : forall k o, (match o with Result r => r_decision r <> d_undecided | _ => True end) -> folded f u b k o = o).
  { clear. induction k as [|k IH]; intros o Ho; [reflexivity|]. cbn [folded].
    assert (E : next f u b o = o) by (destruct o as [[p st s []]| |]; cbn in *; congruence). rewrite E. apply IH. exact Ho. }
  unfold trampoline, trampoline_with in *. replace (length u) with (k + (length u - k)) in E by lia. rewrite F in E.
  destruct (folded f u b k (decide f u b 0 [NT N_s] s)) as [r'| |] eqn:W.
  - exists r'. split; [reflexivity|]. pose proof (fold_pos _ _ _ _ _ _ _ W) as Q. cbn [plus] in Q.
    destruct (r_decision r') eqn:D'; [| |auto].
    + rewrite X in E by (rewrite D'; discriminate). injection E as ->. lia.
    + rewrite X in E by (rewrite D'; discriminate). injection E as ->. lia.
  - rewrite X in E by exact I. discriminate.
  - rewrite X in E by exact I. discriminate.
Qed.

(** One character ahead: [k] placeholders see [k + 1] characters. *)
Lemma nth_firstn : forall (u v : list Z) k i, firstn k u = firstn k v -> i < k -> nth_error u i = nth_error v i.
Proof.
  induction u as [|x u IH]; intros v k i E L; destruct k as [|k]; try lia.
  - cbn [firstn] in E. destruct v; [reflexivity|discriminate].
  - destruct v as [|y v]; [discriminate|]. cbn [firstn] in E. injection E as -> E. destruct i; [reflexivity|]. cbn. apply (IH v k); [exact E|lia].
Qed.
Lemma decide_ahead : forall u v n pos st s, firstn (S pos) u = firstn (S pos) v -> decide f u n pos st s = decide f v n pos st s.
Proof.
  induction n as [|n IH]; intros pos st s E; [reflexivity|]. cbn [decide].
  assert (C : current_term u pos = current_term v pos) by (apply (nth_firstn _ _ (S pos)); auto).
  assert (P : previous_term u pos = previous_term v pos) by (destruct pos as [|p]; [reflexivity|apply (nth_firstn _ _ (S (S p))); auto]).
  rewrite C, P. destruct (hd_error st) as [[x|a|d| |l]|]; try (destruct (f a _ s); auto); destruct (augmented _ _); auto; destruct (quick _ _); auto.
Qed.
Theorem fold_ahead : forall u v b k s, firstn (S k) u = firstn (S k) v -> trampoline_with f u b k s = trampoline_with f v b k s.
Proof.
  intros u v b k s E. unfold trampoline_with.
  assert (G : forall j o i, (forall r, o = Result r -> r_decision r = d_undecided -> r_pos r = S i) -> i + j <= k -> folded f u b j o = folded f v b j o).
  { induction j as [|j IH]; intros o i Ho L; [reflexivity|]. cbn [folded].
    assert (Q : next f u b o = next f v b o).
    { destruct o as [[p st t d]| |]; try reflexivity. destruct d; try reflexivity. cbn [next]. apply decide_ahead.
      rewrite (Ho _ eq_refl eq_refl : p = S i). rewrite <- (Nat.min_l (S (S i)) (S k)) by lia. rewrite <- !firstn_firstn, E. reflexivity. }
    rewrite Q. apply (IH _ (S i)); [|lia]. intros r H D. rewrite <- Q in H.
    destruct o as [[p st t d]| |]; [|discriminate|discriminate]. destruct d; cbn [next] in H.
    - injection H as <-. discriminate.
    - injection H as <-. discriminate.
    - apply decide_pos in H. rewrite D in H. pose proof (Ho _ eq_refl eq_refl) as H0. cbn in H0. subst. exact H. }
  rewrite (decide_ahead u v); [|rewrite <- (Nat.min_l 1 (S k)) by lia; rewrite <- !firstn_firstn, E; reflexivity].
  apply (G k _ 0); [|lia]. intros r H D. apply decide_pos in H. rewrite D in H. exact H.
Qed.
End Fold.

(** * With the actions of the library *)
Section Library.
Variable props : list Z -> option (list Z) -> option (list (Z * Z)).
(** pcre_actions (Actions.v); [identity] (actions.hpp lines 14-19) adds overloads for [empty_subject] only. *)
Definition pcre_apply (a : action) (prev : option Z) (c : ctx) : applied ctx :=
  match apply props a prev c with Done c' => Applied c' | Reject => Refused | IllAct => NoOverload end.
(** [ctll::parser<pcre, input, pcre_actions>::output<pcre_context<>>] *)
Definition ctre_parse (u : list Z) : outcome ctx := trampoline pcre_apply u (parse_fuel u) (mkCtx [] 0).

Lemma loop_run_at : forall n pos prev rest st c,
  match loop pcre_apply n pos prev rest st c, run_at props n pos prev rest st c with
  | FAccept p c1, LAccept c2 => c1 = c2
  | FReject p, LReject q _ => p = q
  | FIll, LIll | FFuel, LFuel => True
  | _, _ => False
  end.
Proof.
  induction n as [|n IH]; intros pos prev rest st c; [exact I|]. cbn [loop run_at].
  destruct st as [|[x|a|d| |l] st].
  - destruct rest; reflexivity.
  - destruct (rule x _); [apply IH|reflexivity].
  - unfold pcre_apply at 1. destruct (apply props a prev c); [apply IH|reflexivity|exact I].
  - destruct rest as [|ch rest]; [reflexivity|]. destruct (term_matches _ ch); [apply IH|reflexivity].
  - destruct rest as [|ch rest]; [reflexivity|]. destruct (term_matches _ ch); [apply IH|reflexivity].
  - destruct rest as [|ch rest]; [reflexivity|]. destruct (term_matches _ ch); [apply IH|reflexivity].
Qed.
Theorem parse_same : forall u, match placed_parse props u with
  | LAccept c => ctre_parse u = Result (mkResults (length u) [] c d_accept)
  | LReject p _ => exists st c, ctre_parse u = Result (mkResults p st c d_reject)
  | LIll => ctre_parse u = HardError
  | LFuel => False
  end.
Proof.
  intros u. assert (B : 8 * length u + 3 <= parse_fuel u) by (unfold parse_fuel; lia).
  pose proof (fold_start _ pcre_apply u _ (length u) (mkCtx [] 0) B (le_n _)) as S. fold (ctre_parse u) in S.
  pose proof (loop_run_at (parse_fuel u) 0 None u [NT N_s] (mkCtx [] 0)) as R. fold (placed_parse props u) in R.
  destruct (loop pcre_apply (parse_fuel u) 0 None u [NT N_s] (mkCtx [] 0)) as [p c1|p| |] eqn:E; destruct (placed_parse props u) as [c2|q k| |]; try contradiction; cbn [settled] in S.
  - apply loop_end in E. cbn [plus] in E. subst. exact S.
  - subst. exact S.
  - exact S.
Qed.

(** literals.hpp lines 60-75: no program if [static_assert] fails. *)
Definition ctre_literal (u : list Z) : option re :=
  match ctre_parse u with
  | Result r => match r_decision r with d_accept => match stk (r_subject r) with IRe x :: _ => Some x | _ => None end | _ => None end
  | _ => None
  end.
(** literals.hpp lines 107-117 *)
Definition ctre_gen (u : list Z) : option (list item) :=
  match ctre_parse u with
  | Result r => match r_decision r with d_accept => Some (stk (r_subject r)) | _ => None end
  | _ => None
  end.
(** literals.hpp lines 120-128; [None] is no program. *)
Definition ctre_syntax (u : list Z) : option bool :=
  match ctre_parse u with Result r => Some (is_correct (Result r)) | _ => None end.
End Library.

(** * Without actions *)
(** [identity<empty_actions>::apply] on [empty_subject] (actions.hpp lines 4-19) *)
Definition empty_apply (a : action) (prev : option Z) (s : unit) : applied unit := Applied s.
(** literals.hpp lines 96-105, [correct_with<>] *)
Definition ctre_test (u : list Z) : bool := is_correct (trampoline empty_apply u (parse_fuel u) tt).

Lemma loop_traced : forall n pos prev rest st p s, loop empty_apply n pos prev rest st s = FAccept p s <-> (exists t, trace n rest st = Some t) /\ p = pos + length rest.
Proof.
  assert (M : forall n rest st y, (exists t, option_map (cons y) (trace n rest st) = Some t) <-> exists t, trace n rest st = Some t).
  { intros n rest st y. split; intros [t H]; destruct (trace n rest st); try discriminate; cbn; eauto. }
  induction n as [|n IH]; intros pos prev rest st p s; [cbn; split; [discriminate|intros [[t H] _]; discriminate]|].
  cbn [loop trace].
  assert (C : forall y st', match rest with ch :: rest => if term_matches y ch then loop empty_apply n (S pos) (Some ch) rest st' s else FReject pos | [] => FReject pos end = FAccept p s <->
    (exists t, match rest with c :: w => if term_matches y c then option_map (cons (EChar c)) (trace n w st') else None | [] => None end = Some t) /\ p = pos + length rest).
  { intros y st'. destruct rest as [|ch rest]; [split; [discriminate|intros [[t H] _]; discriminate]|].
    destruct (term_matches y ch); [|split; [discriminate|intros [[t H] _]; discriminate]].
    rewrite IH, M. cbn [length]. split; intros [H E]; split; auto; lia. }
  destruct st as [|[x|a|d| |l] st]; try apply C.
  - destruct rest; [|split; [discriminate|intros [[t H] _]; discriminate]]. cbn [length]. split.
    + intros H. injection H as <-. split; [eauto|lia].
    + intros [_ E]. f_equal. lia.
  - destruct (rule x _); [apply IH|split; [discriminate|intros [[t H] _]; discriminate]].
  - cbn [empty_apply]. rewrite IH, M. reflexivity.
Qed.
Theorem test_sentence : forall u, ctre_test u = true <-> exists t, sentence t /\ chars t = u.
Proof.
  intros u. assert (B : 8 * length u + 3 <= parse_fuel u) by (unfold parse_fuel; lia).
  pose proof (fold_start _ empty_apply u _ (length u) tt B (le_n _)) as S.
  assert (E : ctre_test u = true <-> loop empty_apply (parse_fuel u) 0 None u [NT N_s] tt = FAccept (length u) tt).
  { unfold ctre_test, trampoline. destruct (loop empty_apply (parse_fuel u) 0 None u [NT N_s] tt) as [p []|p| |] eqn:E; cbn [settled] in S.
    - rewrite S. apply loop_end in E. cbn [plus] in E. subst. cbn. split; reflexivity.
    - destruct S as (st & [] & S). rewrite S. cbn. split; discriminate.
    - rewrite S. cbn. split; discriminate.
    - contradiction. }
  rewrite E, loop_traced. split.
  - intros [[t H] _]. apply trace_sound in H as [H H']. exists t. split; [apply traced_sentence; exact H|exact H'].
  - intros (t & H & <-). split; [|reflexivity]. exists t. apply trace_complete; [|apply traced_sentence; exact H]. pose proof (left_start (chars t)). lia.
Qed.

Section Both.
Variable props : list Z -> option (list Z) -> option (list (Z * Z)).
Theorem syntax_parse : forall u b, ctre_syntax props u = Some b <->
  if b then exists c, parse_ctx props u = PAccept c else parse_ctx props u = PReject.
Proof.
  intros u b. pose proof (parse_same props u) as S. unfold ctre_syntax.
  assert (R : parse_ctx props u = erase (placed_parse props u)) by (symmetry; apply run_at_run). rewrite R.
  destruct (placed_parse props u) as [c|p k| |]; cbn [erase].
  - rewrite S. cbn. destruct b; split; try congruence; eauto.
  - destruct S as (st & c & S). rewrite S. cbn. destruct b; split; try congruence; intros [c' E]; discriminate.
  - rewrite S. destruct b; split; try discriminate; intros [c' E]; discriminate.
  - contradiction.
Qed.
Theorem syntax_test : forall u, ctre_syntax props u = Some true -> ctre_test u = true.
Proof.
  intros u H. apply syntax_parse in H as [c H]. apply parse_accepts in H as (t & A & B & _). apply test_sentence. eauto.
Qed.
Theorem literal_compile : forall u r, ctre_literal props u = Some r <-> compile props u = CRegex r.
Proof.
  intros u r. pose proof (parse_same props u) as S. unfold ctre_literal, compile.
  assert (R : parse_ctx props u = erase (placed_parse props u)) by (symmetry; apply run_at_run). rewrite R.
  destruct (placed_parse props u) as [c|p k| |]; cbn [erase].
  - rewrite S. cbn. destruct (stk c) as [|[] ?]; split; congruence.
  - destruct S as (st & c & S). rewrite S. cbn. split; discriminate.
  - rewrite S. split; discriminate.
  - contradiction.
Qed.
(** What is left on the stack: the regex alone. *)
Theorem gen_stack : forall u l, several_letters u = false -> ctre_gen props u = Some l -> exists r, l = [IRe r] /\ compile props u = CRegex r.
Proof.
  intros u l S H. pose proof (parse_same props u) as P. unfold ctre_gen in H.
  assert (R : parse_ctx props u = erase (placed_parse props u)) by (symmetry; apply run_at_run).
  destruct (placed_parse props u) as [c|p k| |]; cbn [erase] in R; [|destruct P as (st & c & P)| |contradiction]; rewrite P in H; try discriminate.
  cbn in H. injection H as <-.
  assert (E : exists c', mrun props library_builders (parse_fuel u) None u [NT N_s] (mkCtx [] 0) = PAccept c').
  { exists c. eapply run_strict; [left; reflexivity| | |exact S|exact R].
    - unfold conc. instantiate (1 := plain_state). cbn. repeat split; auto. discriminate.
    - reflexivity. }
  destruct E as (c' & E). destruct (pattern_read_back _ _ _ _ _ E) as (r & k & -> & T). apply mrun_run in E.
  unfold parse_ctx in R. rewrite E in R. injection R as <-. exists r. split; [reflexivity|]. apply text_compiles. exact T.
Qed.
End Both.
