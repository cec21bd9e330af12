(** Captures a pattern does not mention change nothing in its evaluation, and alternatives that fail leave nothing behind
    (C40). *)
From Coq Require Import List ZArith NArith Bool Lia Arith.
From Verif Require Import Chars Syntax First View Eval Api Views EvalInv ApiProofs Actions Parser Numbering.
Import ListNotations.

(** * What a pattern mentions *)
(** The groups it sets or refers to, by number and by name. *)
Fixpoint touches (r : re) : list nat :=
  match r with
  | RSelect l | RSeq l | RRep _ _ _ l | RAhead _ l | RBehind _ l | RAtomic l => flat_map touches l
  | RCap id l | RNCap id _ l => id :: flat_map touches l
  | RBack id => [id]
  | _ => []
  end.
Fixpoint calls (r : re) : list (list Z) :=
  match r with
  | RSelect l | RSeq l | RRep _ _ _ l | RAhead _ l | RBehind _ l | RAtomic l | RCap _ l | RNCap _ _ l => flat_map calls l
  | RNBack nm => [nm]
  | _ => []
  end.
Definition touches_atom (a : atom) : list nat := match a with AR r => touches r | ANum id => [id] | _ => [] end.
Definition calls_atom (a : atom) : list (list Z) := match a with AR r => calls r | _ => [] end.

(** * More captures *)
Section Frame.
Variables pre post : list entry.
Definition around_caps (c : caps) : caps := mkCaps (c0 c) (pre ++ cl c ++ post).
Definition fres (x : res caps) : res caps := match x with Ok c => Ok (around_caps c) | No => No | Fuel => Fuel | UB => UB | Ill => Ill end.
Definition fres2 (x : res (nat * caps)) : res (nat * caps) := match x with Ok (p, c) => Ok (p, around_caps c) | No => No | Fuel => Fuel | UB => UB | Ill => Ill end.
Definition foreign_id (id : nat) : Prop := id = 0 \/ (~ In id (map (fun e => fst (fst e)) pre) /\ ~ In id (map (fun e => fst (fst e)) post)).
Definition foreign_name (nm : list Z) : Prop := forall e, In e pre \/ In e post -> snd (fst e) <> Some nm.
Definition apart_stk (k : list atom) : Prop :=
  (forall id, In id (flat_map touches_atom k) -> foreign_id id) /\ (forall nm, In nm (flat_map calls_atom k) -> foreign_name nm).

Lemma find_none : forall id l, ~ In id (map (fun e : entry => fst (fst e)) l) -> find_id id l = None.
Proof.
  intros id. induction l as [|[[i nm] s] l IH]; intros H; [reflexivity|]. cbn [find_id]. destruct (Nat.eqb_spec i id) as [->|D]; [exfalso; apply H; left; reflexivity|].
  apply IH. intros J. apply H. right. exact J.
Qed.
Lemma find_app : forall id l m, find_id id (l ++ m) = match find_id id l with Some s => Some s | None => find_id id m end.
Proof. intros id. induction l as [|[[i nm] s] l IH]; intros m; [reflexivity|]. cbn [app find_id]. destruct (Nat.eqb i id); [reflexivity|apply IH]. Qed.
Lemma upd_none : forall id g l, ~ In id (map (fun e : entry => fst (fst e)) l) -> upd_id id g l = None.
Proof.
  intros id g. induction l as [|[[i nm] s] l IH]; intros H; [reflexivity|]. cbn [upd_id]. destruct (Nat.eqb_spec i id) as [->|D]; [exfalso; apply H; left; reflexivity|].
  rewrite IH; [reflexivity|]. intros J. apply H. right. exact J.
Qed.
Lemma upd_app_l : forall id g l m, ~ In id (map (fun e : entry => fst (fst e)) l) -> upd_id id g (l ++ m) = option_map (app l) (upd_id id g m).
Proof.
  intros id g. induction l as [|[[i nm] s] l IH]; intros m H; [cbn; destruct (upd_id id g m); reflexivity|]. cbn [app upd_id].
  destruct (Nat.eqb_spec i id) as [->|D]; [exfalso; apply H; left; reflexivity|]. rewrite IH; [destruct (upd_id id g m); reflexivity|]. intros J. apply H. right. exact J.
Qed.
Lemma upd_app_r : forall id g l m, ~ In id (map (fun e : entry => fst (fst e)) m) -> upd_id id g (l ++ m) = option_map (fun x => x ++ m) (upd_id id g l).
Proof.
  intros id g. induction l as [|[[i nm] s] l IH]; intros m H; [cbn; rewrite upd_none by exact H; reflexivity|]. cbn [app upd_id].
  destruct (Nat.eqb i id); [reflexivity|]. rewrite IH by exact H. destruct (upd_id id g l); reflexivity.
Qed.
Lemma upd_frame : forall id g c, foreign_id id -> upd_caps id g (around_caps c) = option_map around_caps (upd_caps id g c).
Proof.
  intros id g c H. unfold upd_caps, around_caps. cbn [c0 cl]. destruct (Nat.eqb_spec id 0) as [->|D]; [reflexivity|].
  destruct H as [H|[H1 H2]]; [congruence|]. rewrite upd_app_l, upd_app_r by assumption. destruct (upd_id id g (cl c)); reflexivity.
Qed.
Lemma get_frame : forall id c, foreign_id id -> get_id id (around_caps c) = get_id id c.
Proof.
  intros id c H. unfold get_id, around_caps. cbn [c0 cl]. destruct (Nat.eqb_spec id 0) as [->|D]; [reflexivity|].
  destruct H as [H|[H1 H2]]; [congruence|]. rewrite !find_app, (find_none id pre), (find_none id post) by assumption. destruct (find_id id (cl c)); reflexivity.
Qed.
Lemma name_app : forall nm l m, get_name nm (l ++ m) = match get_name nm l with Some s => Some s | None => get_name nm m end.
Proof. intros nm. induction l as [|[[i [x|]] s] l IH]; intros m; [reflexivity|..]; cbn [app get_name]; [destruct (name_eqb nm x); [reflexivity|]|]; apply IH. Qed.
Lemma name_none : forall nm l, (forall e, In e l -> snd (fst e) <> Some nm) -> get_name nm l = None.
Proof.
  intros nm. induction l as [|[[i [x|]] s] l IH]; intros H; [reflexivity|..]; cbn [get_name].
  - unfold name_eqb. destruct (list_eq_dec Z.eq_dec nm x) as [->|D]; [exfalso; apply (H _ (or_introl eq_refl)); reflexivity|]. apply IH. intros e J. apply H. right. exact J.
  - apply IH. intros e J. apply H. right. exact J.
Qed.
Lemma name_frame : forall nm c, foreign_name nm -> get_name nm (cl (around_caps c)) = get_name nm (cl c).
Proof.
  intros nm c H. unfold around_caps. cbn [cl]. rewrite !name_app, (name_none nm pre), (name_none nm post); [destruct (get_name nm (cl c)); reflexivity| |]; intros e J; apply H; auto.
Qed.

(** * The evaluation *)
Lemma apart_tail : forall a k, apart_stk (a :: k) -> apart_stk k.
Proof. intros a k [H1 H2]. split; intros x I; [apply H1|apply H2]; cbn [flat_map]; apply in_or_app; right; exact I. Qed.
Lemma apart_swap : forall a k m, (forall id, In id (flat_map touches_atom m) -> In id (touches_atom a)) -> (forall nm, In nm (flat_map calls_atom m) -> In nm (calls_atom a)) ->
  apart_stk (a :: k) -> apart_stk (m ++ k).
Proof.
  intros a k m T C [H1 H2]. split; intros x I; rewrite flat_map_app in I; apply in_app_or in I as [I|I].
  - apply H1. cbn [flat_map]. apply in_or_app. left. apply T, I.
  - apply H1. cbn [flat_map]. apply in_or_app. right. exact I.
  - apply H2. cbn [flat_map]. apply in_or_app. left. apply C, I.
  - apply H2. cbn [flat_map]. apply in_or_app. right. exact I.
Qed.
Lemma apart_only : forall a k m, (forall id, In id (flat_map touches_atom m) -> In id (touches_atom a)) -> (forall nm, In nm (flat_map calls_atom m) -> In nm (calls_atom a)) ->
  apart_stk (a :: k) -> apart_stk m.
Proof.
  intros a k m T C [H1 H2]. split; intros x I.
  - apply H1. cbn [flat_map]. apply in_or_app. left. apply T, I.
  - apply H2. cbn [flat_map]. apply in_or_app. left. apply C, I.
Qed.
Lemma touches_cycle : forall l, flat_map touches_atom (cycle l) = flat_map touches l.
Proof. intros l. unfold cycle. rewrite flat_map_app. cbn. rewrite app_nil_r. induction l as [|x l IH]; [reflexivity|]. cbn. rewrite IH. reflexivity. Qed.
Lemma calls_cycle : forall l, flat_map calls_atom (cycle l) = flat_map calls l.
Proof. intros l. unfold cycle. rewrite flat_map_app. cbn. rewrite app_nil_r. induction l as [|x l IH]; [reflexivity|]. cbn. rewrite IH. reflexivity. Qed.
Definition cycle_ok (l : list re) : Prop := apart_stk (cycle l).
Lemma rep_cycle : forall k a b l tl, apart_stk (AR (RRep k a b l) :: tl) -> cycle_ok l.
Proof. intros k a b l tl H. apply (apart_only _ _ (cycle l)) in H; [exact H|rewrite touches_cycle; auto|rewrite calls_cycle; auto]. Qed.

Variable opt : bool.
Definition frame_ok (n : nat) : Prop :=
  (forall v w p f c k, apart_stk k -> eval opt n v w p f (around_caps c) k = fres (eval opt n v w p f c k)) /\
  (forall v w p f c a i l, cycle_ok l -> req_loop opt n v w p f (around_caps c) a i l = fres2 (req_loop opt n v w p f c a i l)) /\
  (forall v w p f c b i l tl, cycle_ok l -> apart_stk tl -> lazy_loop opt n v w p f (around_caps c) b i l tl = fres (lazy_loop opt n v w p f c b i l tl)) /\
  (forall v w st p f c a b i l tl, cycle_ok l -> apart_stk tl -> poss_loop opt n v w st p f (around_caps c) a b i l tl = fres (poss_loop opt n v w st p f c a b i l tl)) /\
  (forall v w p f c b i l tl, cycle_ok l -> apart_stk tl -> rec_loop opt n v w p f (around_caps c) b i l tl = fres (rec_loop opt n v w p f c b i l tl)).
Lemma frame_eval : forall n, frame_ok n.
Proof.
  induction n as [|n (E & Q & L & P & R)]; [repeat split; reflexivity|]. split; [|split; [|split; [|split]]].
  - intros v w p f c k H. destruct k as [|a tl]; [reflexivity|]. pose proof (apart_tail _ _ H) as Ht.
    assert (Et : forall v w p f c, eval opt n v w p f (around_caps c) tl = fres (eval opt n v w p f c tl)) by (intros; apply E, Ht).
    destruct a as [r| | | | | | |id]; cbn [eval].
    + destruct r as [x| |str|l|l| | |kd a b l|id l|id nm l|id|nm|neg l|neg l|l|x|x|x|m]; cbn [eval].
      * unfold or_ub. destruct (vend v p) as [[]|]; try reflexivity. destruct (vget v p); [|reflexivity]. destruct (match_cls (f_ci f) x z); [|reflexivity]. destruct (vnext v p); [apply Et|reflexivity].
      * unfold or_ub. destruct (vend v p) as [[]|]; try reflexivity. destruct (if f_ml f then _ else _) as [[]|]; try reflexivity. destruct (vnext v p); [apply Et|reflexivity].
      * destruct (match_string v (f_ci f) str p); try reflexivity. apply Et.
      * destruct l as [|x l]; [reflexivity|].
        rewrite (E v w p f c (AR x :: tl)), (E v w p f c (AR (RSelect l) :: tl)).
        -- destruct (eval opt n v w p f c (AR x :: tl)); reflexivity.
        -- apply (apart_swap _ _ [AR (RSelect l)]) in H; [exact H|..]; cbn; intros z I; rewrite app_nil_r in I; apply in_or_app; right; exact I.
        -- apply (apart_swap _ _ [AR x]) in H; [exact H|..]; cbn; intros z I; rewrite app_nil_r in I; apply in_or_app; left; exact I.
      * destruct l as [|x [|y l]]; [reflexivity|..].
        -- apply E. apply (apart_swap _ _ [AR x]) in H; [exact H|..]; cbn; auto.
        -- apply E. apply (apart_swap _ _ [AR x; AR (RSeq (y :: l))]) in H; [exact H|..]; intros z I; cbn in *; rewrite app_nil_r in I; exact I.
      * apply Et.
      * reflexivity.
      * pose proof (rep_cycle _ _ _ _ _ H) as Hc. destruct (negb (N.eqb b 0) && N.ltb b a); [reflexivity|]. destruct kd.
        -- destruct (becomes_possessive opt l tl) as [[]|]; [|..|reflexivity].
           ++ apply E. apply (apart_swap _ _ [AR (RRep Possessive a b l)]) in H; [exact H|..]; cbn; intros z I; rewrite app_nil_r in I; exact I.
           ++ destruct (negb (vconv v)); [reflexivity|]. rewrite (Q v w p f c a 0%N l Hc). destruct (req_loop opt n v w p f c a 0 l) as [[p' c']| | | |]; try reflexivity. apply R; assumption.
        -- destruct (negb (vconv v)); [reflexivity|]. rewrite (Q v w p f c a 0%N l Hc). destruct (req_loop opt n v w p f c a 0 l) as [[p' c']| | | |]; try reflexivity. cbn [fres2].
           rewrite Et. destruct (eval opt n v w p' (consumed_something f (negb (p =? p')%nat)) c' tl); try reflexivity. apply L; assumption.
        -- destruct (negb (vconv v)); [reflexivity|]. apply P; assumption.
      * destruct (vconv v); [|reflexivity]. unfold start_capture. rewrite upd_frame by (apply (proj1 H); left; reflexivity). destruct (upd_caps id _ c) as [c'|]; [|reflexivity]. cbn [option_map or_ill].
        apply E. apply (apart_swap _ _ [AR (RSeq l); ANum id]) in H; [exact H|..]; cbn; intros z I; apply in_app_or in I as [I|I]; auto; try (destruct I as [<-|[]]; auto). destruct I.
      * destruct (vconv v); [|reflexivity]. unfold start_capture. rewrite upd_frame by (apply (proj1 H); left; reflexivity). destruct (upd_caps id _ c) as [c'|]; [|reflexivity]. cbn [option_map or_ill].
        apply E. apply (apart_swap _ _ [AR (RSeq l); ANum id]) in H; [exact H|..]; cbn; intros z I; apply in_app_or in I as [I|I]; auto; try (destruct I as [<-|[]]; auto). destruct I.
      * destruct (negb (vsame v)); [reflexivity|]. rewrite get_frame by (apply (proj1 H); left; reflexivity). destruct (get_id id c) as [s|]; [|reflexivity]. cbn [or_ill].
        destruct (s_m s); [|reflexivity]. unfold or_ub. destruct (s_beg s); [|reflexivity]. destruct (s_end s); [|reflexivity].
        destruct (match_range_loop n v p n0 n1) as [[q []]| | | |]; try reflexivity. apply Et.
      * destruct (negb (vsame v)); [reflexivity|]. rewrite name_frame by (apply (proj2 H); left; reflexivity). destruct (get_name nm (cl c)) as [s|]; [|reflexivity]. cbn [or_ill].
        destruct (s_m s); [|reflexivity]. unfold or_ub. destruct (s_beg s); [|reflexivity]. destruct (s_end s); [|reflexivity].
        destruct (match_range_loop n v p n0 n1) as [[q []]| | | |]; try reflexivity. apply Et.
      * rewrite (E v w p f c [AR (RSeq l); AEndAhead]).
        2:{ apply (apart_only _ _ [AR (RSeq l); AEndAhead]) in H; [exact H|..]; cbn; intros z I; rewrite app_nil_r in I; exact I. }
        destruct neg, (eval opt n v w p f c [AR (RSeq l); AEndAhead]) as [c'| | | |]; try reflexivity; [apply Et|]. exact (Et v w p f (unmatch c')).
      * rewrite (E (rev_view v) w p f c [AR (RSeq l); AEndBehind]).
        2:{ apply (apart_only _ _ [AR (RSeq l); AEndBehind]) in H; [exact H|..]; cbn; intros z I; rewrite app_nil_r in I; exact I. }
        destruct neg, (eval opt n (rev_view v) w p f c [AR (RSeq l); AEndBehind]) as [c'| | | |]; try reflexivity; [apply Et|]. exact (Et v w p f (unmatch c')).
      * apply E. apply (apart_swap _ _ [AR (RRep Possessive 1 1 l)]) in H; [exact H|..]; cbn; intros z I; rewrite app_nil_r in I; exact I.
      * destruct (around v (f_ci f) x p) as [[b e]| | | |]; try reflexivity. destruct (Bool.eqb b e); [reflexivity|apply Et].
      * destruct (around v (f_ci f) x p) as [[b e]| | | |]; try reflexivity. destruct (Bool.eqb b e); [apply Et|reflexivity].
      * destruct (eval_assert v (f_ml f) x p) as [[]| | | |]; try reflexivity. apply Et.
      * apply Et.
    + destruct tl; reflexivity.
    + destruct (vconv v); [exact (Et v w p f (set_start_mark p c))|reflexivity].
    + destruct (vconv v); [exact (Et v w p f (set_end_mark p c))|reflexivity].
    + destruct tl; [|reflexivity]. destruct (negb (vconv v)); [reflexivity|]. destruct (f_block f); reflexivity.
    + destruct tl; reflexivity.
    + destruct tl; reflexivity.
    + destruct (vconv v); [|reflexivity]. unfold end_capture. rewrite upd_frame by (apply (proj1 H); left; reflexivity). destruct (upd_caps id _ c); [apply Et|reflexivity].
  - intros v w p f c a i l H. cbn [req_loop]. destruct (less_than a i); [|reflexivity]. rewrite (E v w p (not_empty_match f) c _ H).
    destruct (eval opt n v w p (not_empty_match f) c (cycle l)) as [c'| | | |]; try reflexivity. cbn [fres]. change (s_end (c0 (around_caps c'))) with (s_end (c0 c')). unfold or_ub. destruct (s_end (c0 c')); [|reflexivity].
    exact (Q v w n0 f (unmatch c') a (N.succ i) l H).
  - intros v w p f c b i l tl H Ht. cbn [lazy_loop]. destruct (less_than_or_infinite b i); [|apply E, Ht]. rewrite (E v w p (not_empty_match f) c _ H).
    destruct (eval opt n v w p (not_empty_match f) c (cycle l)) as [c'| | | |]; try reflexivity. cbn [fres]. change (s_end (c0 (around_caps c'))) with (s_end (c0 c')). unfold or_ub. destruct (s_end (c0 c')); [|reflexivity].
    change (unmatch (around_caps c')) with (around_caps (unmatch c')). rewrite (E w w n0 (consumed_something f true) (unmatch c') tl Ht).
    destruct (eval opt n w w n0 (consumed_something f true) (unmatch c') tl); try reflexivity. exact (L v w n0 f (unmatch c') b (N.succ i) l tl H Ht).
  - intros v w st p f c a b i l tl H Ht. cbn [poss_loop]. destruct (less_than_or_infinite b i); [|apply E, Ht]. rewrite (E v w p (not_empty_match f) c _ H).
    destruct (eval opt n v w p (not_empty_match f) c (cycle l)) as [c'| | | |]; try reflexivity.
    + cbn [fres]. change (s_end (c0 (around_caps c'))) with (s_end (c0 c')). unfold or_ub. destruct (s_end (c0 c')); [|reflexivity]. exact (P v w st n0 f (unmatch c') a b (N.succ i) l tl H Ht).
    + cbn [fres]. destruct (less_than a i); [reflexivity|apply E, Ht].
  - intros v w p f c b i l tl H Ht. cbn [rec_loop]. destruct (less_than_or_infinite b i); [|apply E, Ht]. rewrite (E v w p (not_empty_match f) c _ H).
    destruct (eval opt n v w p (not_empty_match f) c (cycle l)) as [c'| | | |]; try reflexivity.
    + cbn [fres]. change (s_end (c0 (around_caps c'))) with (s_end (c0 c')). unfold or_ub. destruct (s_end (c0 c')); [|reflexivity]. change (unmatch (around_caps c')) with (around_caps (unmatch c')).
      rewrite (R v w n0 f (unmatch c') b (N.succ i) l tl H Ht). destruct (rec_loop opt n v w n0 f (unmatch c') b (N.succ i) l tl); try reflexivity. apply E, Ht.
    + apply E, Ht.
Qed.
End Frame.

(** * Alternatives *)
(** [x] neither sets nor refers to a group of [y]. *)
Definition ignores (x y : re) : Prop :=
  (forall id, In id (touches x) -> id = 0 \/ ~ In id (map fst (find_captures y))) /\
  (forall nm, In nm (calls x) -> ~ In (Some nm) (map snd (find_captures y))).
(** The captures of [r] in a result in which it took no part. *)
Definition blank (r : re) : list entry := map (fun g => (g, empty_slot)) (find_captures r).

Lemma blank_ids : forall r, map (fun e : entry => fst (fst e)) (blank r) = map fst (find_captures r).
Proof. intros r. unfold blank. rewrite map_map. reflexivity. Qed.
Lemma fc_select : forall a l, find_captures (RSelect (a :: l)) = find_captures a ++ find_captures (RSelect l).
Proof. reflexivity. Qed.
Lemma fresh_first : forall a l, fresh (RSelect (a :: l)) = around_caps [] (blank (RSelect l)) (fresh a).
Proof. intros a l. unfold fresh, around_caps, blank. cbn [c0 cl app]. rewrite fc_select, map_app. reflexivity. Qed.
Lemma fresh_rest : forall a l, fresh (RSelect (a :: l)) = around_caps (blank a) [] (fresh (RSelect l)).
Proof. intros a l. unfold fresh, around_caps, blank. cbn [c0 cl]. rewrite fc_select, map_app, app_nil_r. reflexivity. Qed.
Lemma ignores_foreign_l : forall x y, ignores x y -> forall k, flat_map touches_atom k = [] -> flat_map calls_atom k = [] -> apart_stk (blank y) [] (AR x :: k).
Proof.
  intros x y [H1 H2] k K1 K2. split; intros z I; cbn [flat_map touches_atom calls_atom] in I; rewrite ?K1, ?K2, app_nil_r in I.
  - destruct (H1 z I) as [->|J]; [left; reflexivity|]. right. rewrite blank_ids. split; [exact J|intros []].
  - intros e [J|[]] K. unfold blank in J. apply in_map_iff in J as (g & <- & J). apply (H2 z I). apply in_map_iff. exists g. split; assumption.
Qed.
Lemma ignores_foreign_r : forall x y, ignores x y -> forall k, flat_map touches_atom k = [] -> flat_map calls_atom k = [] -> apart_stk [] (blank y) (AR x :: k).
Proof.
  intros x y [H1 H2] k K1 K2. split; intros z I; cbn [flat_map touches_atom calls_atom] in I; rewrite ?K1, ?K2, app_nil_r in I.
  - destruct (H1 z I) as [->|J]; [left; reflexivity|]. right. rewrite blank_ids. split; [intros []|exact J].
  - intros e [[]|J] K. unfold blank in J. apply in_map_iff in J as (g & <- & J). apply (H2 z I). apply in_map_iff. exists g. split; assumption.
Qed.
Definition or_else (x y : res caps) : res caps := match x with No => y | _ => x end.
Lemma select_eval : forall opt a l, ignores a (RSelect l) -> ignores (RSelect l) a -> forall k, flat_map touches_atom k = [] -> flat_map calls_atom k = [] ->
  forall n v w p f, vconv v = true ->
  eval opt (S n) v w p f (fresh (RSelect (a :: l))) (AStart :: AR (RSelect (a :: l)) :: k) =
  or_else (fres [] (blank (RSelect l)) (eval opt n v w p f (fresh a) (AStart :: AR a :: k)))
          (fres (blank a) [] (eval opt n v w p f (fresh (RSelect l)) (AStart :: AR (RSelect l) :: k))).
Proof.
  intros opt a l Ha Hl k K1 K2 n v w p f Hv. destruct n as [|n]; [cbn [eval]; rewrite Hv; reflexivity|].
  transitivity (or_else (eval opt n v w p f (set_start_mark p (fresh (RSelect (a :: l)))) (AR a :: k))
                        (eval opt n v w p f (set_start_mark p (fresh (RSelect (a :: l)))) (AR (RSelect l) :: k))).
  { cbn [eval]. rewrite Hv. destruct (eval opt n v w p f _ (AR a :: k)); reflexivity. }
  rewrite fresh_first at 1. rewrite fresh_rest.
  change (set_start_mark p (around_caps ?x ?y ?c)) with (around_caps x y (set_start_mark p c)).
  rewrite (proj1 (frame_eval [] (blank (RSelect l)) opt n)) by (apply ignores_foreign_r; assumption).
  rewrite (proj1 (frame_eval (blank a) [] opt n)) by (apply ignores_foreign_l; assumption).
  cbn [eval]. rewrite Hv. reflexivity.
Qed.

(** The outcome of a call: the first alternative that matches, with the captures of the others empty. *)
Definition first_of (pre post : list entry) (x y : res caps) : res caps :=
  match x with Ok c => if matched c then Ok (around_caps [] post c) else fres pre [] y | _ => x end.
Lemma first_returned : forall a l x y, (forall c, x = Ok c -> matched c = true) ->
  returned (RSelect (a :: l)) (or_else (fres [] (blank (RSelect l)) x) (fres (blank a) [] y)) =
  first_of (blank a) (blank (RSelect l)) (returned a x) (returned (RSelect l) y).
Proof.
  intros a l x y Hx. destruct x as [c| | | |]; try reflexivity.
  - cbn [or_else fres returned first_of]. rewrite (Hx c eq_refl). reflexivity.
  - cbn [or_else fres returned]. unfold first_of. rewrite fresh_unmatched. destruct y; try reflexivity. cbn [fres returned]. f_equal. apply fresh_rest.
Qed.
Lemma match_first : forall opt n s f a l, ignores a (RSelect l) -> ignores (RSelect l) a ->
  ctre_match opt (S n) s f (RSelect (a :: l)) = first_of (blank a) (blank (RSelect l)) (ctre_match opt n s f a) (ctre_match opt n s f (RSelect l)).
Proof.
  intros opt n s f a l Ha Hl. unfold ctre_match, exec_match. rewrite select_eval by (try assumption; reflexivity). apply first_returned.
  intros c H. exact (proj1 (ok_matched n) _ _ _ _ _ _ _ _ H).
Qed.
Lemma starts_first : forall opt n s f a l, ignores a (RSelect l) -> ignores (RSelect l) a ->
  ctre_starts_with opt (S n) s f (RSelect (a :: l)) = first_of (blank a) (blank (RSelect l)) (ctre_starts_with opt n s f a) (ctre_starts_with opt n s f (RSelect l)).
Proof.
  intros opt n s f a l Ha Hl. unfold ctre_starts_with, exec_starts_with. rewrite select_eval by (try assumption; reflexivity). apply first_returned.
  intros c H. exact (proj1 (ok_matched n) _ _ _ _ _ _ _ _ H).
Qed.

(** Searching: an alternative in front that matches nowhere. A pattern that must begin at the beginning is tried there only,
    and its failing search ends there (wrapper.hpp lines 86-100): the two must agree in that. *)
Lemma search_skips : forall opt n s f a l, ignores a (RSelect l) -> ignores (RSelect l) a ->
  starts_with_anchor f (RSelect (a :: l)) = starts_with_anchor f (RSelect l) ->
  (forall p, p <= length s -> attempt opt n s f a p = No) ->
  forall x, ctre_search opt n s f (RSelect l) = x -> x <> Fuel -> ctre_search opt (S n) s f (RSelect (a :: l)) = fres (blank a) [] x.
Proof.
  intros opt n s f a l Ha Hl An Hno. unfold ctre_search, exec_search.
  assert (Hat : forall p, p <= length s -> eval opt (S n) (arr_view s) (arr_view s) p f (fresh (RSelect (a :: l))) [AStart; AR (RSelect (a :: l)); AEnd; AAccept] =
    fres (blank a) [] (eval opt n (arr_view s) (arr_view s) p f (fresh (RSelect l)) [AStart; AR (RSelect l); AEnd; AAccept])).
  { intros p Hp. rewrite select_eval by (try assumption; reflexivity). specialize (Hno p Hp). unfold attempt in Hno. rewrite Hno. reflexivity. }
  assert (G : forall m p x, p <= length s -> search_loop opt n (arr_view s) (arr_view s) f (RSelect l) m p = x -> x <> Fuel ->
    forall m', m <= m' -> search_loop opt (S n) (arr_view s) (arr_view s) f (RSelect (a :: l)) m' p = fres (blank a) [] x).
  { induction m as [|m IH]; intros p x Hp H Hx m' Hm; [cbn in H; congruence|]. destruct m' as [|m']; [lia|]. cbn [search_loop] in *.
    cbn [vend vnext arr_view or_ub] in *. unfold search_last in *. rewrite Hat by exact Hp. rewrite An. destruct (Nat.ltb_spec p (length s)) as [Hlt|Hge].
    - cbn [negb andb or_ub] in *. destruct (Nat.eqb_spec p (length s)) as [D|D]; [lia|]. cbn [negb andb] in *. destruct (negb (starts_with_anchor f (RSelect l))).
      + destruct (eval opt n _ _ p f (fresh (RSelect l)) _) as [c| | | |]; try (subst x; reflexivity). cbn [fres]. apply IH; [lia|exact H|exact Hx|lia].
      + destruct (eval opt n _ _ p f (fresh (RSelect l)) _) as [c| | | |]; subst x; try reflexivity. cbn [fres]. rewrite fresh_rest. reflexivity.
    - destruct (Nat.eqb_spec p (length s)) as [D|D]; [|lia]. cbn [negb andb or_ub] in *.
      destruct (eval opt n _ _ p f (fresh (RSelect l)) _) as [c| | | |]; subst x; try reflexivity. cbn [fres]. rewrite fresh_rest. reflexivity. }
  intros x H Hx. apply (G n 0 x); [lia|exact H|exact Hx|lia].
Qed.

(** * Pattern texts *)
(** The groups of a compiled pattern are numbered once each: alternatives without backreferences ignore each other. *)
Fixpoint refless (r : re) : bool :=
  match r with
  | RSelect l | RSeq l | RRep _ _ _ l | RAhead _ l | RBehind _ l | RAtomic l | RCap _ l | RNCap _ _ l => forallb refless l
  | RBack _ | RNBack _ => false
  | _ => true
  end.
Lemma in_pick : forall rv (l : list (list nat)) id, In id (pick rv l) <-> exists x, In x l /\ In id x.
Proof.
  intros rv l id. unfold pick. rewrite in_concat. split; intros (x & H & J); exists x; split; try exact J; destruct rv; try exact H; [apply in_rev, H|apply in_rev in H; exact H].
Qed.
Lemma touches_numbers : forall r, refless r = true -> forall id, In id (touches r) -> forall rv, In id (ord rv r).
Proof.
  fix IH 1. intros r.
  assert (L : forall l, (forall x, In x l -> refless x = true -> forall id, In id (touches x) -> forall rv, In id (ord rv x)) ->
    forallb refless l = true -> forall id, In id (flat_map touches l) -> forall rv rv', In id (pick rv (map (ord rv') l))).
  { intros l Hl Hf id Hi rv rv'. apply in_flat_map in Hi as (x & X1 & X2). apply in_pick. exists (ord rv' x). split; [apply in_map, X1|].
    apply Hl; try assumption. rewrite forallb_forall in Hf. apply Hf, X1. }
  destruct r as [x| |str|l|l| | |kd a b l|id l|id nm l|id|nm|neg l|neg l|l|x|x|x|m]; intros Hr z Hz rv; try discriminate Hr; try contradiction Hz.
  all: assert (Hl : forall x, In x l -> refless x = true -> forall id, In id (touches x) -> forall rv, In id (ord rv x))
    by (clear - IH; induction l as [|y l Hl]; intros x J; [destruct J|destruct J as [J|J]; [rewrite <- J; apply IH|exact (Hl x J)]]).
  all: cbn [refless] in Hr; cbn [touches] in Hz; specialize (L l Hl Hr z).
  - exact (L Hz false rv).
  - exact (L Hz rv rv).
  - exact (L Hz rv rv).
  - destruct Hz as [->|Hz]; [left; reflexivity|right]. exact (L Hz rv rv).
  - destruct Hz as [->|Hz]; [left; reflexivity|right]. exact (L Hz rv rv).
  - exact (L Hz false false).
  - exact (L Hz true true).
  - exact (L Hz rv rv).
Qed.
Lemma captures_touched : forall r id, In id (map fst (find_captures r)) -> In id (touches r).
Proof.
  fix IH 1. intros r.
  assert (L : forall l, (forall x, In x l -> forall id, In id (map fst (find_captures x)) -> In id (touches x)) ->
    forall id, In id (map fst ((fix fc (l : list re) : list (nat * option (list Z)) := match l with [] => [] | x :: xs => find_captures x ++ fc xs end) l)) -> In id (flat_map touches l)).
  { induction l as [|x l Hl]; intros H id J; [destruct J|]. rewrite map_app in J. cbn [flat_map]. apply in_or_app. apply in_app_or in J as [J|J].
    - left. apply H; [left; reflexivity|exact J].
    - right. apply Hl; [intros y Y; apply H; right; exact Y|exact J]. }
  destruct r as [x| |str|l|l| | |kd a b l|id l|id nm l|id|nm|neg l|neg l|l|x|x|x|m]; intros z Hz; try contradiction Hz.
  all: assert (Hl : forall x, In x l -> forall id, In id (map fst (find_captures x)) -> In id (touches x))
    by (clear - IH; induction l as [|y l Hl]; intros x J; [destruct J|destruct J as [J|J]; [rewrite <- J; apply IH|exact (Hl x J)]]).
  all: specialize (L l Hl z).
  - exact (L Hz).
  - exact (L Hz).
  - exact (L Hz).
  - destruct Hz as [E|Hz]; [left; exact E|right; exact (L Hz)].
  - destruct Hz as [E|Hz]; [left; exact E|right; exact (L Hz)].
  - exact (L Hz).
Qed.
Lemma refless_calls : forall r, refless r = true -> calls r = [].
Proof.
  fix IH 1. intros r.
  assert (L : forall l, (forall x, In x l -> refless x = true -> calls x = []) -> forallb refless l = true -> flat_map calls l = []).
  { induction l as [|x l Hl]; intros H J; [reflexivity|]. cbn [forallb] in J. apply andb_true_iff in J as [J1 J2]. cbn [flat_map]. rewrite (H x (or_introl eq_refl) J1).
    apply Hl; [intros y Y; apply H; right; exact Y|exact J2]. }
  destruct r as [x| |str|l|l| | |kd a b l|id l|id nm l|id|nm|neg l|neg l|l|x|x|x|m]; intros Hr; try reflexivity; try discriminate Hr.
  all: assert (Hl : forall x, In x l -> refless x = true -> calls x = [])
    by (clear - IH; induction l as [|y l Hl]; intros x J; [destruct J|destruct J as [J|J]; [rewrite <- J; apply IH|exact (Hl x J)]]).
  all: exact (L l Hl Hr).
Qed.
Lemma compiled_ignores : forall props u a l, compile props u = CRegex (RSelect (a :: l)) -> refless (RSelect (a :: l)) = true ->
  ignores a (RSelect l) /\ ignores (RSelect l) a.
Proof.
  intros props u a l H Hr. cbn [refless forallb] in Hr. apply andb_true_iff in Hr as [Ha Hl]. change (forallb refless l) with (refless (RSelect l)) in Hl.
  destruct (compiled_numbers props u _ H) as (k & _ & E & _).
  assert (D : NoDup (ord false a ++ ord false (RSelect l))) by (change (NoDup (numbers (RSelect (a :: l)))); rewrite E; apply seq_NoDup).
  assert (X : forall id, In id (ord false a) -> In id (ord false (RSelect l)) -> False).
  { intros id I1 I2. clear - D I1 I2. induction (ord false a) as [|y t IH]; [destruct I1|]. cbn [app] in D. inversion D; subst. destruct I1 as [->|I1]; [|auto].
    match goal with K : ~ In _ _ |- _ => apply K end. apply in_or_app. right. exact I2. }
  split; split.
  - intros id J. right. intros K. apply captures_touched in K. exact (X id (touches_numbers a Ha id J false) (touches_numbers _ Hl id K false)).
  - rewrite (refless_calls a Ha). intros nm [].
  - intros id J. right. intros K. apply captures_touched in K. exact (X id (touches_numbers a Ha id K false) (touches_numbers _ Hl id J false)).
  - rewrite (refless_calls _ Hl). intros nm [].
Qed.
(** * What the caller sees *)
Lemma group_other : forall pre post c id, foreign_id pre post id -> group (around_caps pre post c) id = group c id.
Proof. intros pre post c id H. unfold group. rewrite get_frame by exact H. reflexivity. Qed.
Lemma blank_none : forall r id, match find_id id (blank r) with Some sl => sl = empty_slot | None => True end.
Proof. intros r id. unfold blank. induction (find_captures r) as [|g l IH]; [exact I|]. destruct g as [i nm]. cbn [map find_id]. destruct (Nat.eqb i id); [reflexivity|exact IH]. Qed.
Lemma group_blank_r : forall r c id, id <> 0 -> ~ In id (map (fun e : entry => fst (fst e)) (cl c)) -> group (around_caps [] (blank r) c) id = None.
Proof.
  intros r c id H0 H. unfold group, get_id, around_caps. apply Nat.eqb_neq in H0. rewrite H0. cbn [cl app]. rewrite find_app, find_none by exact H.
  pose proof (blank_none r id) as B. destruct (find_id id (blank r)) as [sl|]; [subst sl|]; reflexivity.
Qed.
Lemma group_blank_l : forall r c id, id <> 0 -> ~ In id (map (fun e : entry => fst (fst e)) (cl c)) -> group (around_caps (blank r) [] c) id = None.
Proof.
  intros r c id H0 H. unfold group, get_id, around_caps. apply Nat.eqb_neq in H0. rewrite H0. cbn [cl]. rewrite find_app, app_nil_r.
  pose proof (blank_none r id) as B. destruct (find_id id (blank r)) as [sl|]; [subst sl; reflexivity|]. rewrite find_none by exact H. reflexivity.
Qed.
Lemma well_parts : forall a l, well_numbered (RSelect (a :: l)) -> well_numbered a /\ well_numbered (RSelect l).
Proof.
  intros a l [H1 H2]. cbn [ids_ok forallb] in H1. apply andb_true_iff in H1 as [H1 H1']. rewrite fc_select, map_app in H2.
  split; split; [exact H1| |exact H1'|revert H2; generalize (map fst (find_captures a)); intros x D; induction x as [|y x IH]; [exact D|inversion D; auto]]. revert H2. generalize (map fst (find_captures a)). intros x D.
  induction x as [|y x IH]; [constructor|]. cbn [app] in D. inversion D; subst. constructor; [intros K; match goal with K' : ~ In _ _ |- _ => apply K' end; apply in_or_app; left; exact K|auto].
Qed.
Lemma entries_ids : forall (c : caps) r, map fst (cl c) = find_captures r -> map (fun e : entry => fst (fst e)) (cl c) = map fst (find_captures r).
Proof. intros c r <-. rewrite map_map. reflexivity. Qed.
Definition anchored_call (m : call) : Prop := m = ctre_match \/ m = ctre_starts_with.
Lemma alternatives_seen : forall props u a l, compile props u = CRegex (RSelect (a :: l)) -> refless (RSelect (a :: l)) = true ->
  forall m opt n s f d, anchored_call m -> m opt (S n) s f (RSelect (a :: l)) = Ok d ->
  exists x c, (x = a \/ x = RSelect l) /\ m opt n s f x = Ok c /\ matched c = matched d /\
    (forall id, id = 0 \/ In id (map fst (find_captures x)) -> group d id = group c id) /\
    (forall id, id <> 0 -> ~ In id (map fst (find_captures x)) -> group d id = None) /\
    (x <> a -> exists c', m opt n s f a = Ok c' /\ matched c' = false).
Proof.
  intros props u a l H Hr m opt n s f d Hm Hd. destruct (compiled_ignores props u a l H Hr) as [Ia Il].
  destruct (well_parts a l (compiled_well_numbered _ _ _ H)) as [Wa Wl].
  assert (He : entry_point m) by (destruct Hm as [->| ->]; [left|right; left]; reflexivity).
  assert (E : m opt (S n) s f (RSelect (a :: l)) = first_of (blank a) (blank (RSelect l)) (m opt n s f a) (m opt n s f (RSelect l)))
    by (destruct Hm as [->| ->]; [apply match_first|apply starts_first]; assumption).
  rewrite E in Hd. clear E. unfold first_of in Hd.
  assert (Ra : refless a = true /\ refless (RSelect l) = true) by (cbn [refless forallb] in Hr; apply andb_true_iff in Hr; exact Hr). destruct Ra as [Ra Rl].
  destruct (m opt n s f a) as [c| | | |] eqn:Ea; try discriminate Hd. destruct (matched c) eqn:Mc.
  - injection Hd as <-. exists a, c. pose proof (entries_ids _ _ (call_entries m opt n s f a c He Wa Ea)) as Ei.
    split; [left; reflexivity|]. split; [exact Ea|]. split; [reflexivity|]. split; [|split].
    + intros id J. apply group_other. destruct J as [J|J]; [left; exact J|]. right. split; [intros []|]. rewrite blank_ids. intros K.
      destruct (proj1 Il id (captures_touched _ _ K)) as [->|X]; [|exact (X J)]. destruct (proj1 Ia 0 (captures_touched _ _ J)) as [_|X]; [|exact (X K)].
      pose proof (compiled_numbers _ _ _ H) as (k & _ & En & _). pose proof (touches_numbers a Ra 0 (captures_touched _ _ J) false) as T.
      assert (T' : In 0 (numbers (RSelect (a :: l)))) by (apply in_or_app; left; exact T). rewrite En in T'. apply in_seq in T'. lia.
    + intros id J K. apply group_blank_r; [exact J|]. rewrite Ei. exact K.
    + congruence.
  - unfold fres in Hd. destruct (m opt n s f (RSelect l)) as [e| | | |] eqn:El; try discriminate Hd. injection Hd as <-. exists (RSelect l), e.
    pose proof (entries_ids _ _ (call_entries m opt n s f _ e He Wl El)) as Ei. split; [right; reflexivity|]. split; [exact El|]. split; [reflexivity|]. split; [|split].
    + intros id J. apply group_other. destruct J as [J|J]; [left; exact J|]. right. split; [|intros []]. rewrite blank_ids. intros K.
      destruct (proj1 Ia id (captures_touched _ _ K)) as [->|X]; [|exact (X J)].
      pose proof (compiled_numbers _ _ _ H) as (k & _ & En & _). pose proof (touches_numbers a Ra 0 (captures_touched _ _ K) false) as T.
      assert (T' : In 0 (numbers (RSelect (a :: l)))) by (apply in_or_app; left; exact T). rewrite En in T'. apply in_seq in T'. lia.
    + intros id J K. apply group_blank_l; [exact J|]. rewrite Ei. exact K.
    + intros _. exists c. split; [reflexivity|exact Mc].
Qed.
