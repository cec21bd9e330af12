(** The outer shape of the texts that are patterns: a scanner with a few states and a depth, and the proof that every text that the
    grammar reads passes it. The scanner is specification; the rest compares it with the table of the parser. *)
From Coq Require Import List ZArith Bool Lia Arith String.
From Verif Require Import Chars Syntax Grammar Actions Parser ParserProofs ErrorPos.
Import ListNotations.
Local Open Scope Z_scope.

(** * The scanner *)
(** States; [inside]: within brackets. *)
Inductive lex :=
| Plain                              (* between items *)
| Opened                             (* after an opening parenthesis *)
| Query                              (* after "(?" *)
| Angle                              (* after "(?<" *)
| Name                               (* in the name of a group *)
| Switch                             (* in the letters of a mode switch *)
| Count (started : bool)             (* after an opening brace *)
| Bracket                            (* after an opening bracket *)
| Set_                               (* within brackets *)
| Posix (k : nat)                    (* within "[:name:]": after the bracket, in the name, after the second colon *)
| Slash (inside : bool)              (* after a backslash *)
| Wants (inside : bool)              (* after "\g", "\p": a brace has to follow *)
| Braces (inside : bool)             (* in the braces of "\g{...}", "\p{...}", "\x{...}" *)
| Hex (inside started : bool) (k : nat). (* [k] hexadecimal digits have to follow, or braces when nothing is read yet *)

Definition one_of (c : Z) (t : string) : bool := mem c (codes t).
Definition digits : string := "0123456789".
Definition name_starts : string := "ABCDEFGHIJKLMNOPQRSTUVWXYZabcdefghijklmnopqrstuvwxyz_".
Definition home (inside : bool) : lex := if inside then Set_ else Plain.

(** What may follow a backslash: characters with a meaning of their own stand for themselves, and so do [- / < >] and the quote;
    letters for control characters, classes and assertions; digits for references. *)
Definition escaped_self : list Z := codes "$()*+-./<>?[]\^{|}" ++ [34].
Definition escaped_letters : string := "aefnrt0dDhHsSvVwWN".
Definition escaped_outside : string := "bBAzZ123456789".

Definition plain_step (c : Z) : option (lex * Z) :=
  if one_of c "\" then Some (Slash false, 0)
  else if one_of c "[" then Some (Bracket, 0)
  else if one_of c "(" then Some (Opened, 1)
  else if one_of c ")" then Some (Plain, -1)
  else if one_of c "{" then Some (Count false, 0)
  else if one_of c "}" then None
  else Some (Plain, 0).
Definition set_step (c : Z) : option (lex * Z) :=
  if one_of c "\" then Some (Slash true, 0)
  else if one_of c "[" then Some (Posix 0, 0)
  else if one_of c "]" then Some (Plain, 0)
  else Some (Set_, 0).
(** The next state and the change of the depth; [None]: no pattern has this. *)
Definition lexstep (q : lex) (c : Z) : option (lex * Z) :=
  match q with
  | Plain => plain_step c
  | Opened => if one_of c "?" then Some (Query, 0) else if one_of c "*+{" then None else plain_step c
  | Query => if one_of c ":>!=" then Some (Plain, 0) else if one_of c "<" then Some (Angle, 0)
             else if one_of c "icms" then Some (Switch, 0) else None
  | Angle => if one_of c "!=" then Some (Plain, 0) else if one_of c name_starts then Some (Name, 0) else None
  | Name => if one_of c ">" then Some (Plain, 0) else if one_of c name_starts || one_of c digits then Some (Name, 0) else None
  | Switch => if one_of c ")" then Some (Plain, -1) else if one_of c "icms" then Some (Switch, 0) else None
  | Count b => if one_of c digits then Some (Count true, 0)
               else if b && one_of c "}" then Some (Plain, 0) else if b && one_of c "," then Some (Count true, 0) else None
  | Bracket => if one_of c "^" then Some (Set_, 0) else if one_of c "]-" then None else set_step c
  | Set_ => set_step c
  | Posix 0 => if one_of c ":" then Some (Posix 1, 0) else None
  | Posix 1 => if one_of c ":" then Some (Posix 2, 0) else if one_of c "^" || one_of c name_starts then Some (Posix 1, 0) else None
  | Posix _ => if one_of c "]" then Some (Set_, 0) else None
  | Slash b =>
      if mem c escaped_self || one_of c escaped_letters || negb b && one_of c escaped_outside then Some (home b, 0)
      else if one_of c "pP" || negb b && one_of c "g" then Some (Wants b, 0)
      else if one_of c "x" then Some (Hex b false 2, 0)
      else if one_of c "u" then Some (Hex b false 4, 0)
      else None
  | Wants b => if one_of c "{" then Some (Braces b, 0) else None
  | Braces b => if one_of c "}" then Some (home b, 0)
                else if one_of c name_starts || one_of c digits || one_of c ".=-" then Some (Braces b, 0) else None
  | Hex b s k => if negb s && one_of c "{" then Some (Braces b, 0)
                 else if one_of c "0123456789ABCDEFabcdef" then Some (if Nat.leb k 1 then (home b, 0) else (Hex b true (pred k), 0))
                 else None
  end.
(** The depth must not become negative. *)
Fixpoint scan (q : lex) (d : Z) (u : list Z) : option (lex * Z) :=
  match u with
  | [] => Some (q, d)
  | c :: u => match lexstep q c with
              | Some (q', x) => if d + x <? 0 then None else scan q' (d + x) u
              | None => None
              end
  end.

(** * The scanner against the table of the parser *)
Lemma lex_eq_dec : forall a b : lex, {a = b} + {a <> b}.
Proof. decide equality; solve [apply bool_dec | apply Nat.eq_dec]. Defined.
Definition lex_eqb (a b : lex) : bool := if lex_eq_dec a b then true else false.
Lemma nt_eq_dec : forall a b : nt, {a = b} + {a <> b}.
Proof. decide equality. Defined.
Definition nt_eqb (a b : nt) : bool := if nt_eq_dec a b then true else false.

(** How a nonterminal is read from a state: the depth it needs and the states and changes of depth it may end with. *)
Definition entry : Type := nt * lex * Z * list (lex * Z).
Definition table := list entry.
Fixpoint lookup_entry (t : table) (x : nt) (q : lex) : option (Z * list (lex * Z)) :=
  match t with
  | [] => None
  | (y, p, need, outs) :: t => if nt_eqb x y && lex_eqb q p then Some (need, outs) else lookup_entry t x q
  end.
(** The characters that a rule may be chosen for; 128 stands for all that are not named in the grammar. *)
Definition firsts (m : tmatch) : list Z :=
  match m with MTerm c => [c] | MSet l => l | MOthers => [128] | MEps => [] end.
Fixpoint all_some {A} (l : list (option (list A))) : option (list A) :=
  match l with
  | [] => Some []
  | Some x :: l => match all_some l with Some y => Some (x ++ y) | None => None end
  | None :: _ => None
  end.
Definition shift (x : Z) (l : list (lex * Z)) : list (lex * Z) := map (fun y => (fst y, x + snd y)) l.

(** The states after one of the characters, each once. *)
Definition listed (y : lex * Z) (l : list (lex * Z)) : bool := existsb (fun z => lex_eqb (fst y) (fst z) && Z.eqb (snd y) (snd z)) l.
Fixpoint step_all (q : lex) (cs : list Z) : option (list (lex * Z)) :=
  match cs with
  | [] => Some []
  | c :: cs => match lexstep q c, step_all q cs with
               | Some y, Some l => Some (if listed y l then l else y :: l)
               | _, _ => None
               end
  end.

Section Check.
Variable t : table.
(** The outcomes of a string of symbols from [q]; [d]: the depth that is left above the one that is needed; [la]: the look-ahead. *)
Fixpoint after (la : option tmatch) (l : list sym) (q : lex) (d : Z) : option (list (lex * Z)) :=
  let go := fun l (cs : list Z) =>
    match step_all q cs with
    | Some ys => all_some (map (fun y => if d + snd y <? 0 then None else option_map (shift (snd y)) (after None l (fst y) (d + snd y))) ys)
    | None => None
    end in
  match l with
  | [] => Some [(q, 0)]
  | Act _ :: l => after la l q d
  | NT x :: l =>
      match lookup_entry t x q with
      | Some (need, outs) =>
          if d <? need then None else
          all_some (map (fun y => option_map (shift (snd y)) (after None l (fst y) (d + snd y))) outs)
      | None => None
      end
  | TTerm c :: l => go l [c]
  | TSet s :: l => go l s
  | TAny :: l => match la with Some m => go l (firsts m) | None => None end
  end.
Definition within (a b : list (lex * Z)) : bool :=
  forallb (fun y => listed y b) a.
Definition entry_ok (e : entry) : bool :=
  let '(x, q, need, outs) := e in
  forallb (fun r => match r with
                    | (m, Push l) => match after (Some m) l q need with Some outs' => within outs' outs | None => false end
                    | (_, Rej) => true
                    end) (rules x).
Definition table_ok : bool := forallb entry_ok t.
End Check.

(** ** Characters that the grammar does not name *)
Lemma others_one_of : forall c l, mem c not_others = false -> forallb (fun d => mem d not_others) l = true -> mem c l = mem 128 l.
Proof.
  intros c l Hc Hl. rewrite forallb_forall in Hl.
  assert (A : forall x, mem x not_others = false -> mem x l = false).
  { intros x Hx. destruct (mem x l) eqn:E; [|reflexivity]. apply mem_in in E. rewrite (Hl x E) in Hx. discriminate. }
  rewrite (A c Hc). symmetry. apply A. reflexivity.
Qed.
Lemma others_step : forall q c, mem c not_others = false -> lexstep q c = lexstep q 128.
Proof.
  intros q c Hc.
  assert (O : forall s, forallb (fun d => mem d not_others) (codes s) = true -> one_of c s = one_of 128 s) by (intros s; apply others_one_of; exact Hc).
  assert (P : plain_step c = plain_step 128) by (unfold plain_step; rewrite !O by reflexivity; reflexivity).
  assert (S : set_step c = set_step 128) by (unfold set_step; rewrite !O by reflexivity; reflexivity).
  destruct q as [| | | | | |b| | |[|[|k]]|b|b|b|b s k]; cbn [lexstep]; rewrite ?P, ?S, ?O by reflexivity; try reflexivity.
  rewrite (others_one_of c escaped_self Hc) by reflexivity. reflexivity.
Qed.

(** ** Soundness *)
Section Sound.
Variable t : table.
Hypothesis T : table_ok t = true.
(** The final states and depths. *)
Variable final : lex -> Z -> Prop.
(** Whatever is read for [st] from [q] at depth [d] passes. *)
Fixpoint tracks (la : option tmatch) (st : list sym) (q : lex) (d : Z) : Prop :=
  let go := fun st (P : Z -> Prop) =>
    forall c, P c -> exists q' x, lexstep q c = Some (q', x) /\ 0 <= d + x /\ tracks None st q' (d + x) in
  match st with
  | [] => final q d
  | Act _ :: st => tracks la st q d
  | NT x :: st => exists need outs, lookup_entry t x q = Some (need, outs) /\ need <= d /\
                    forall q' y, In (q', y) outs -> tracks None st q' (d + y)
  | TTerm c :: st => go st (eq c)
  | TSet s :: st => go st (fun c => In c s)
  | TAny :: st => exists m, la = Some m /\ go st (fun c => viable (Some c) (m, Rej))
  end.
Lemma tracks_weaken : forall la st q d, tracks None st q d -> tracks la st q d.
Proof.
  induction st as [|[x|a|c| |l] st IH]; intros q d H; cbn [tracks] in *; auto.
  destruct H as (m & H & _). discriminate.
Qed.
Lemma viable_any : forall cur m r r', viable cur (m, r) -> viable cur (m, r').
Proof. intros cur m r r' H. exact H. Qed.
Lemma all_some_in : forall A B (f : B -> option (list A)) cs l c, all_some (map f cs) = Some l -> In c cs -> exists l', f c = Some l' /\ incl l' l.
Proof.
  intros A B f. induction cs as [|a cs IH]; intros l c H Hc; [destruct Hc|]. cbn in H. destruct (f a) as [x|] eqn:Ea; [|discriminate].
  destruct (all_some (map f cs)) as [y|] eqn:Ey; [|discriminate]. injection H as <-. destruct Hc as [->|Hc].
  - exists x. split; [exact Ea|]. apply incl_appl, incl_refl.
  - destruct (IH y c eq_refl Hc) as (l' & H1 & H2). exists l'. split; [exact H1|]. apply incl_appr, H2.
Qed.
Lemma listed_in : forall y l, listed y l = true -> In y l.
Proof.
  intros [q y] l H. apply existsb_exists in H as ([q' z] & H1 & H2).
  cbn [fst snd] in H2. apply andb_true_iff in H2 as [H2 H3]. apply Z.eqb_eq in H3. unfold lex_eqb in H2.
  destruct (lex_eq_dec q q') as [->|]; [|discriminate]. subst. exact H1.
Qed.
Lemma step_all_in : forall q cs ys c, step_all q cs = Some ys -> In c cs -> exists y, lexstep q c = Some y /\ In y ys.
Proof.
  intros q. induction cs as [|a cs IH]; intros ys c H Hc; [destruct Hc|]. cbn in H. destruct (lexstep q a) as [y|] eqn:Ea; [|discriminate].
  destruct (step_all q cs) as [l|] eqn:El; [|discriminate]. injection H as <-. destruct Hc as [->|Hc].
  - exists y. split; [exact Ea|]. destruct (listed y l) eqn:E; [apply listed_in, E|left; reflexivity].
  - destruct (IH l c eq_refl Hc) as (z & H1 & H2). exists z. split; [exact H1|]. destruct (listed y l); [exact H2|right; exact H2].
Qed.
(** [d] at least what the check had at hand. *)
Lemma after_tracks : forall l la q e d outs st, after t la l q e = Some outs -> e <= d ->
  (forall q' y, In (q', y) outs -> tracks None st q' (d + y)) -> tracks la (l ++ st) q d.
Proof.
  induction l as [|s l IH]; intros la q e d outs st H He Ho.
  - cbn in H. injection H as <-. cbn [app]. apply tracks_weaken. specialize (Ho q 0 (or_introl eq_refl)). rewrite Z.add_0_r in Ho. exact Ho.
  - assert (G : forall cs (P : Z -> Prop), (forall c, P c -> exists c', In c' cs /\ lexstep q c = lexstep q c') ->
      match step_all q cs with
      | Some ys => all_some (map (fun y => if e + snd y <? 0 then None else option_map (shift (snd y)) (after t None l (fst y) (e + snd y))) ys)
      | None => None
      end = Some outs ->
      forall c, P c -> exists q' x, lexstep q c = Some (q', x) /\ 0 <= d + x /\ tracks None (l ++ st) q' (d + x)).
    { intros cs P HP HA c Hc. destruct (HP c Hc) as (c' & Hin & ->). destruct (step_all q cs) as [ys|] eqn:Es; [|discriminate].
      destruct (step_all_in _ _ _ _ Es Hin) as ([q' x] & Hq & Hy). destruct (all_some_in _ _ _ _ _ _ HA Hy) as (l' & H1 & H2). cbn [fst snd] in H1.
      destruct (Z.ltb_spec (e + x) 0); [discriminate|].
      destruct (after t None l q' (e + x)) as [o|] eqn:Eo; [|discriminate]. injection H1 as <-. exists q', x. split; [exact Hq|]. split; [lia|].
      apply (IH None q' (e + x) (d + x) o st Eo); [lia|]. intros q2 y Hy'. rewrite <- Z.add_assoc. apply Ho. apply H2.
      apply in_map_iff. exists (q2, y). auto. }
    destruct s as [x|a|c| |s]; cbn [after app tracks] in *.
    + destruct (lookup_entry t x q) as [[need o]|] eqn:El; [|discriminate]. destruct (Z.ltb_spec e need); [discriminate|].
      exists need, o. split; [reflexivity|]. split; [lia|]. intros q' y Hy. destruct (all_some_in _ _ _ _ _ _ H Hy) as (l' & H1 & H2). cbn [fst snd] in H1.
      destruct (after t None l q' (e + y)) as [o'|] eqn:Eo; [|discriminate]. injection H1 as <-.
      apply (IH None q' (e + y) (d + y) o' st Eo); [lia|]. intros q2 z Hz. rewrite <- Z.add_assoc. apply Ho. apply H2.
      apply in_map_iff. exists (q2, z). auto.
    + exact (IH la q e d outs st H He Ho).
    + apply (G [c]); [|exact H]. intros c' <-. exists c. split; [left; reflexivity|reflexivity].
    + destruct la as [m|]; [|discriminate]. exists m. split; [reflexivity|]. apply (G (firsts m)); [|exact H].
      intros c Hc. unfold viable in Hc. cbn [fst] in Hc. destruct m as [d'|s| |]; cbn [firsts].
      * subst. exists d'. split; [left; reflexivity|reflexivity].
      * exists c. split; [exact Hc|reflexivity].
      * exists 128. split; [left; reflexivity|]. apply others_step. destruct (mem c not_others) eqn:E; [|reflexivity].
        apply mem_in in E. contradiction.
      * contradiction.
    + apply (G s); [|exact H]. intros c Hc. exists c. auto.
Qed.
Lemma lookup_entry_in : forall t' x q need outs, lookup_entry t' x q = Some (need, outs) -> In (x, q, need, outs) t'.
Proof.
  induction t' as [|[[[y p] n] o] t' IH]; intros x q need outs H; [discriminate|]. cbn in H.
  unfold nt_eqb, lex_eqb in H. destruct (nt_eq_dec x y) as [->|]; [destruct (lex_eq_dec q p) as [->|]|]; cbn in H.
  - injection H as -> ->. left. reflexivity.
  - right. apply IH, H.
  - right. apply IH, H.
Qed.
Lemma within_in : forall a b q y, within a b = true -> In (q, y) a -> In (q, y) b.
Proof. intros a b q y H Hin. unfold within in H. rewrite forallb_forall in H. apply listed_in, (H _ Hin). Qed.
Theorem shaped_scans : forall st w, shaped st w -> forall la q d,
  (forall m, la = Some m -> viable (hd_error w) (m, Rej)) -> 0 <= d -> tracks la st q d -> exists q' d', scan q d w = Some (q', d') /\ final q' d'.
Proof.
  intros st w H. induction H as [|a st w H IH|x l st w Hr H IH|c st c' w Hc H IH|st c w H IH|s st c w Hc H IH];
    intros la q d Hla Hd Ht; cbn [tracks] in Ht.
  - exists q, d. auto.
  - exact (IH la q d Hla Hd Ht).
  - destruct Ht as (need & outs & El & Hn & Ho). apply lookup_entry_in in El.
    destruct (proj1 (rule_spec _ _ _) Hr) as (m & Hin & Hv).
    unfold table_ok in T. rewrite forallb_forall in T. pose proof (T _ El) as E. cbn [entry_ok] in E. rewrite forallb_forall in E.
    specialize (E _ Hin). cbn in E. destruct (after t (Some m) l q need) as [outs'|] eqn:Ea; [|discriminate].
    apply (IH (Some m) q d); [intros m' [= <-]; exact Hv|exact Hd|].
    apply (after_tracks _ _ _ _ _ _ _ Ea Hn). intros q' y Hy. apply Ho. apply (within_in _ _ _ _ E Hy).
  - cbn [term_matches] in Hc. apply Z.eqb_eq in Hc. subst c'. destruct (Ht c eq_refl) as (q' & x & E & H1 & H2). cbn [scan]. rewrite E.
    destruct (Z.ltb_spec (d + x) 0); [lia|]. apply (IH None q' (d + x)); [discriminate|exact H1|exact H2].
  - destruct Ht as (m & -> & Ht). specialize (Hla m eq_refl). cbn [hd_error] in Hla. destruct (Ht c Hla) as (q' & x & E & H1 & H2).
    cbn [scan]. rewrite E. destruct (Z.ltb_spec (d + x) 0); [lia|]. apply (IH None q' (d + x)); [discriminate|exact H1|exact H2].
  - cbn [term_matches] in Hc. apply mem_in in Hc. destruct (Ht c Hc) as (q' & x & E & H1 & H2). cbn [scan]. rewrite E.
    destruct (Z.ltb_spec (d + x) 0); [lia|]. apply (IH None q' (d + x)); [discriminate|exact H1|exact H2].
Qed.
End Sound.

(** The table, found by iteration. *)
Definition scanning : table :=
  [(N_s, Plain, 0, [(Plain, 0)]); (N_opt_content, Plain, 0, [(Plain, 0)]); (N_repeat, Plain, 0, [(Plain, 0)]);
   (N_block, Opened, 1, [(Plain, -1)]); (N_c, Bracket, 0, [(Plain, 0)]); (N_backslash, Slash false, 0, [(Plain, 0)]);
   (N_l, Hex false false 2, 0, [(Plain, 0)]); (N_k, Hex false false 4, 0, [(Plain, 0)]);
   (N_property_name, Braces false, 0, [(Braces false, 0)]); (N_m, Braces false, 0, [(Plain, 0)]);
   (N_set2a, Set_, 0, [(Set_, 0)]); (N_range, Set_, 0, [(Set_, 0)]); (N_e, Slash true, 0, [(Set_, 0)]);
   (N_i, Posix 1, 0, [(Set_, 0)]); (N_content_or_empty, Plain, 0, [(Plain, 0)]); (N_d, Query, 1, [(Plain, -1)]);
   (N_mod, Plain, 0, [(Plain, 0)]); (N_number, Count false, 0, [(Count true, 0)]); (N_number2, Count true, 0, [(Count true, 0)]);
   (N_content_in_capture, Plain, 0, [(Plain, 0)]); (N_o, Angle, 1, [(Plain, -1)]); (N_mode_switch2, Switch, 1, [(Plain, -1)]);
   (N_string2, Plain, 0, [(Plain, 0)]); (N_h, Posix 1, 0, [(Posix 1, 0)]); (N_g, Posix 1, 0, [(Posix 1, 0)]);
   (N_class_named_name, Posix 1, 0, [(Posix 1, 0)]); (N_l, Hex true false 2, 0, [(Set_, 0)]); (N_k, Hex true false 4, 0, [(Set_, 0)]);
   (N_property_name, Braces true, 0, [(Braces true, 0)]); (N_j, Set_, 0, [(Set_, 0)]); (N_f, Slash true, 0, [(Set_, 0)]);
   (N_block_name2, Braces false, 0, [(Braces false, 0)]); (N_number2, Braces false, 0, [(Braces false, 0)]);
   (N_property_name2, Braces false, 0, [(Braces false, 0)]); (N_hexdec_repeat, Braces false, 0, [(Braces false, 0)]);
   (N_property_value, Braces false, 0, [(Braces false, 0)]); (N_backslash_range, Slash true, 0, [(Set_, 0)]);
   (N_property_name2, Braces true, 0, [(Braces true, 0)]); (N_hexdec_repeat, Braces true, 0, [(Braces true, 0)]);
   (N_p, Posix 1, 0, [(Posix 1, 0)]); (N_block_name, Angle, 0, [(Name, 0)]); (N_set2b, Set_, 0, [(Set_, 0)]);
   (N_block_name2, Name, 0, [(Name, 0)]); (N_property_value, Braces true, 0, [(Braces true, 0)]);
   (N_property_value2, Braces false, 0, [(Braces false, 0)]); (N_content2, Plain, 0, [(Plain, 0)]); (N_a, Plain, 0, [(Plain, 0)]);
   (N_property_value2, Braces true, 0, [(Braces true, 0)]); (N_b, Count true, 0, [(Plain, 0)]); (N_n, Count true, 0, [(Plain, 0)]);
   (N_number, Count true, 0, [(Count true, 0)]); (N_number, Braces false, 0, [(Braces false, 0)])].
Lemma scanning_ok : table_ok scanning = true.
Proof. vm_compute. reflexivity. Qed.

(** Every text of the grammar passes and ends between items at depth 0. *)
Theorem shaped_lexical : forall u, well_shaped u -> scan Plain 0 u = Some (Plain, 0).
Proof.
  intros u H. destruct (shaped_scans scanning scanning_ok (fun q d => q = Plain /\ d = 0) _ _ H None Plain 0) as (q & d & E & -> & ->);
    [discriminate|lia| |exact E].
  cbn. exists 0, [(Plain, 0)]. split; [reflexivity|]. split; [lia|]. intros q y [[= <- <-]|[]]. auto.
Qed.

(** * What passing the scanner says *)
Lemma scan_app : forall a q d b, scan q d (a ++ b) = match scan q d a with Some (q', d') => scan q' d' b | None => None end.
Proof.
  induction a as [|c a IH]; intros q d b; cbn [app scan]; [reflexivity|].
  destruct (lexstep q c) as [[q' x]|]; [|reflexivity]. destruct (d + x <? 0); [reflexivity|apply IH].
Qed.
Definition is_slash (q : lex) : bool := match q with Slash _ => true | _ => false end.
(** The next character is escaped: it follows an odd number of backslashes. *)
Definition escaping (b : bool) (c : Z) : bool := if c =? 92 then negb b else false.
Definition escapes_next (a : list Z) : bool := fold_left escaping a false.

Lemma one_single : forall c k, mem c [k] = (c =? k).
Proof. intros c k. cbn. rewrite Z.eqb_sym. apply orb_false_r. Qed.
Lemma one_backslash : forall c, one_of c "\" = (c =? 92).
Proof. intros c. unfold one_of. change (codes "\") with [92]. apply one_single. Qed.
Ltac in_step H := repeat match type of H with context [if ?b then _ else _] => destruct b eqn:?; cbn [andb negb] in H end; try discriminate H.
Lemma lexstep_slash : forall q c q' x, lexstep q c = Some (q', x) -> is_slash q' = escaping (is_slash q) c.
Proof.
  intros q c q' x H. unfold escaping. destruct (c =? 92) eqn:E.
  - apply Z.eqb_eq in E. subst c. destruct q as [| | | | | |[|]| | |[|[|k]]|[|]|[|]|[|]|[|] [|] k]; vm_compute in H; try discriminate H; injection H as <- <-; reflexivity.
  - assert (P : forall c0 y, c0 = c -> plain_step c0 = Some y -> is_slash (fst y) = false).
    { intros c0 y -> G. unfold plain_step in G. rewrite one_backslash, E in G. in_step G; injection G as <-; reflexivity. }
    assert (Q : forall c0 y, c0 = c -> set_step c0 = Some y -> is_slash (fst y) = false).
    { intros c0 y -> G. unfold set_step in G. rewrite one_backslash, E in G. in_step G; injection G as <-; reflexivity. }
    destruct q as [| | | | | |st| | |[|[|k]]|b|b|b|b st k]; cbn [lexstep] in H;
      try (apply (P c (q', x) eq_refl H)); try (apply (Q c (q', x) eq_refl H)); in_step H;
      try (apply (P c (q', x) eq_refl H)); try (apply (Q c (q', x) eq_refl H)); try (injection H as <- <-; try destruct b; reflexivity).
Qed.
Lemma scan_slash : forall a q d q' d', scan q d a = Some (q', d') -> is_slash q' = fold_left escaping a (is_slash q).
Proof.
  induction a as [|c a IH]; intros q d q' d' H; cbn [scan fold_left] in *; [injection H as <- <-; reflexivity|].
  destruct (lexstep q c) as [[q1 x]|] eqn:E; [|discriminate]. destruct (d + x <? 0); [discriminate|].
  rewrite <- (lexstep_slash _ _ _ _ E). apply (IH _ _ _ _ H).
Qed.
(** What may follow a backslash that is not escaped. *)
Definition may_be_escaped (c : Z) : bool := mem c escaped_self || one_of c escaped_letters || one_of c escaped_outside || one_of c "pPgxu".
Theorem escapes_known : forall a w, scan Plain 0 (a ++ 92 :: w) = Some (Plain, 0) -> escapes_next a = false ->
  exists c w', w = c :: w' /\ may_be_escaped c = true.
Proof.
  intros a w H E. rewrite scan_app in H. destruct (scan Plain 0 a) as [[q d]|] eqn:Ha; [|discriminate].
  assert (S0 : is_slash q = false) by (rewrite (scan_slash _ _ _ _ _ Ha); exact E). clear Ha. cbn [scan] in H.
  destruct (lexstep q 92) as [[q1 x]|] eqn:E1; [|discriminate]. destruct (d + x <? 0); [discriminate|].
  apply lexstep_slash in E1. rewrite S0 in E1. unfold escaping in E1. cbn in E1. destruct q1 as [| | | | | |st| | |k|b|b|b|b st k]; try discriminate E1.
  destruct w as [|c w]; cbn [scan] in H; [discriminate|]. exists c, w. split; [reflexivity|].
  destruct (lexstep (Slash b) c) as [[q2 y]|] eqn:E2; [|discriminate]. cbn [lexstep] in E2. unfold may_be_escaped.
  assert (M : one_of c "pPgxu" = one_of c "pP" || one_of c "g" || one_of c "x" || one_of c "u").
  { unfold one_of. cbn. rewrite !orb_false_r, !orb_assoc. reflexivity. }
  rewrite M. clear M. destruct (mem c escaped_self), (one_of c escaped_letters), (one_of c escaped_outside), (one_of c "pP"), (one_of c "g"), (one_of c "x"), (one_of c "u"), b;
    first [reflexivity | discriminate E2].
Qed.

(** Texts without brackets and backslashes. *)
Definition bare (u : list Z) : Prop := ~ In 91 u /\ ~ In 92 u.
Definition outer (q : lex) : bool := match q with Plain | Opened | Query | Angle | Name | Switch | Count _ => true | _ => false end.
Definition paren (c : Z) : Z := if c =? 40 then 1 else if c =? 41 then -1 else 0.
Definition depth (u : list Z) : Z := fold_right (fun c d => paren c + d) 0 u.
Lemma depth_app : forall a b, depth (a ++ b) = depth a + depth b.
Proof. induction a as [|c a IH]; intros b; cbn [app depth fold_right]; [reflexivity|]. fold (depth (a ++ b)). fold (depth a). rewrite IH. lia. Qed.
Lemma lexstep_outer : forall q c q' x, outer q = true -> c <> 91 -> c <> 92 -> lexstep q c = Some (q', x) -> outer q' = true /\ x = paren c.
Proof.
  intros q c q' x O H1 H2 H. unfold paren. destruct (c =? 40) eqn:E1; [|destruct (c =? 41) eqn:E2].
  - apply Z.eqb_eq in E1. subst c. destruct q as [| | | | | |[|]| | |k|b|b|b|b st k]; try discriminate O; vm_compute in H; try discriminate H; injection H as <- <-; auto.
  - apply Z.eqb_eq in E2. subst c. destruct q as [| | | | | |[|]| | |k|b|b|b|b st k]; try discriminate O; vm_compute in H; try discriminate H; injection H as <- <-; auto.
  - assert (A : one_of c "\" = false) by (rewrite one_backslash; apply Z.eqb_neq; exact H2).
    assert (B : one_of c "[" = false) by (unfold one_of; change (codes "[") with [91]; rewrite one_single; apply Z.eqb_neq; exact H1).
    assert (C : one_of c "(" = false) by (unfold one_of; change (codes "(") with [40]; rewrite one_single; exact E1).
    assert (D : one_of c ")" = false) by (unfold one_of; change (codes ")") with [41]; rewrite one_single; exact E2).
    assert (P : plain_step c = Some (q', x) -> outer q' = true /\ x = 0).
    { unfold plain_step. rewrite A, B, C, D. intros G. in_step G; injection G as <- <-; auto. }
    destruct q as [| | | | | |st| | |k|b|b|b|b st k]; try discriminate O; cbn [lexstep] in H; rewrite ?D in H; try (apply P; exact H);
      in_step H; try (apply P; exact H); injection H as <- <-; auto.
Qed.
Lemma scan_outer : forall a q d q' d', outer q = true -> bare a -> scan q d a = Some (q', d') -> outer q' = true /\ d' = d + depth a.
Proof.
  induction a as [|c a IH]; intros q d q' d' O [B1 B2] H; cbn [scan depth fold_right] in *.
  - injection H as <- <-. split; [exact O|lia].
  - destruct (lexstep q c) as [[q1 x]|] eqn:E; [|discriminate]. destruct (d + x <? 0); [discriminate|].
    apply lexstep_outer in E as [O1 ->]; [|exact O| |]; try (intros ->; (apply B1 + apply B2); left; reflexivity).
    destruct (IH _ _ _ _ O1 (conj (fun H => B1 (or_intror H)) (fun H => B2 (or_intror H))) H) as [O2 ->]. split; [exact O2|]. fold (depth a). lia.
Qed.
Lemma scan_depth : forall a q d q' d', scan q d a = Some (q', d') -> 0 <= d -> 0 <= d'.
Proof.
  induction a as [|c a IH]; intros q d q' d' H L; cbn [scan] in H; [injection H as <- <-; exact L|].
  destruct (lexstep q c) as [[q1 x]|]; [|discriminate]. destruct (d + x <? 0) eqn:E; [discriminate|]. apply Z.ltb_ge in E. apply (IH _ _ _ _ H E).
Qed.
Theorem balanced : forall u, bare u -> scan Plain 0 u = Some (Plain, 0) -> depth u = 0 /\ forall a b, u = a ++ b -> 0 <= depth a.
Proof.
  intros u B H. split.
  - apply (scan_outer u Plain 0 _ _ eq_refl B) in H as [_ H]. lia.
  - intros a b ->. rewrite scan_app in H. destruct (scan Plain 0 a) as [[q d]|] eqn:Ha; [|discriminate].
    assert (Ba : bare a) by (destruct B as [B1 B2]; split; intros I; [apply B1|apply B2]; apply in_or_app; auto).
    pose proof (scan_depth _ _ _ _ _ Ha (Z.le_refl 0)) as L. apply (scan_outer a Plain 0 _ _ eq_refl Ba) in Ha as [_ ->]. exact L.
Qed.
(** After a character that opens something. *)
Lemma at_open : forall a k w, bare a -> scan Plain 0 (a ++ k :: w) = Some (Plain, 0) ->
  exists q d q' x, outer q = true /\ lexstep q k = Some (q', x) /\ scan q' (d + x) w = Some (Plain, 0).
Proof.
  intros a k w B H. rewrite scan_app in H. destruct (scan Plain 0 a) as [[q d]|] eqn:Ha; [|discriminate].
  apply (scan_outer a Plain 0 _ _ eq_refl B) in Ha as [O _]. cbn [scan] in H. destruct (lexstep q k) as [[q' x]|] eqn:E; [|discriminate].
  destruct (d + x <? 0); [discriminate|]. exists q, d, q', x. auto.
Qed.
Theorem groups_known : forall a w, bare a -> scan Plain 0 (a ++ 40 :: 63 :: w) = Some (Plain, 0) ->
  exists c w', w = c :: w' /\ (one_of c ":>!=icms" = true \/ c = 60 /\ exists c' w'', w' = c' :: w'' /\ (one_of c' "!=" = true \/ one_of c' name_starts = true)).
Proof.
  intros a w B H. apply at_open in H as (q & d & q' & x & O & E & H); [|exact B].
  assert (E' : q' = Opened) by (destruct q as [| | | | | |[|]| | |k|b|b|b|b st k]; try discriminate O; vm_compute in E; try discriminate E; injection E as <- <-; reflexivity).
  subst q'. cbn [scan] in H. change (lexstep Opened 63) with (Some (Query, 0)) in H. cbv beta iota in H. destruct (d + x + 0 <? 0); [discriminate|].
  destruct w as [|c w]; [discriminate|]. cbn [scan] in H. exists c, w. split; [reflexivity|]. cbn [lexstep] in H.
  assert (M : one_of c ":>!=icms" = one_of c ":>!=" || one_of c "icms") by (unfold one_of; cbn; rewrite !orb_false_r, !orb_assoc; reflexivity).
  rewrite M. destruct (one_of c ":>!="); [left; reflexivity|]. destruct (one_of c "<") eqn:E2.
  - right. unfold one_of in E2. change (codes "<") with [60] in E2. rewrite one_single in E2. apply Z.eqb_eq in E2. split; [exact E2|].
    match type of H with (if ?b then _ else _) = _ => destruct b; [discriminate|] end.
    destruct w as [|c' w]; [discriminate|]. exists c', w. split; [reflexivity|]. cbn [scan lexstep] in H.
    destruct (one_of c' "!="); [auto|]. destruct (one_of c' name_starts); [auto|discriminate].
  - destruct (one_of c "icms"); [left; reflexivity|discriminate].
Qed.
Theorem counts_known : forall a w, bare a -> scan Plain 0 (a ++ 123 :: w) = Some (Plain, 0) -> exists c w', w = c :: w' /\ one_of c digits = true.
Proof.
  intros a w B H. apply at_open in H as (q & d & q' & x & O & E & H); [|exact B].
  assert (E' : q' = Count false) by (destruct q as [| | | | | |[|]| | |k|b|b|b|b st k]; try discriminate O; vm_compute in E; try discriminate E; injection E as <- <-; reflexivity).
  subst q'. destruct w as [|c w]; [discriminate|]. exists c, w. split; [reflexivity|]. cbn [scan lexstep andb] in H.
  destruct (one_of c digits); [reflexivity|discriminate].
Qed.
