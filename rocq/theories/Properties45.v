(** Hard errors: C74.

    [hazards]: five words of sets of characters; [occurs w u]: the word stands somewhere in the text. A text without any of them, and without a lookbehind
    or without a switch, either gives a regex or is rejected with the library's own message; it never runs into an action without overload. *)
From Coq Require Import List ZArith NArith Bool Lia Arith String.
From Verif Require Import Chars Syntax Grammar Actions Parser ParserProofs HardError Properties2.
Import ListNotations.
Local Open Scope string_scope.
Local Open Scope list_scope.

(** The decision whether a word stands in a text. *)
Fixpoint begins (w : word) (u : list Z) : bool :=
  match w, u with [], _ => true | s :: w', c :: u' => memb c s && begins w' u' | _ :: _, [] => false end.
Fixpoint stands (w : word) (u : list Z) : bool := begins w u || match u with _ :: u' => stands w u' | [] => false end.
Lemma in_memb : forall c s, In c s -> memb c s = true.
Proof. intros c s H. apply existsb_exists. exists c. split; [exact H|apply Z.eqb_refl]. Qed.
Lemma begins_spec : forall w u, begins w u = true <-> exists mid post, u = mid ++ post /\ Forall2 (fun c s => In c s) mid w.
Proof.
  induction w as [|s w IH]; intros u.
  - split; [intros _; exists [], u; split; [reflexivity|constructor]|reflexivity].
  - destruct u as [|c u]; cbn [begins].
    + split; [discriminate|]. intros (mid & post & E & F). inversion F; subst. discriminate E.
    + rewrite andb_true_iff, IH. split.
      * intros [A (mid & post & -> & F)]. exists (c :: mid), post. split; [reflexivity|]. constructor; [apply memb_in, A|exact F].
      * intros (mid & post & E & F). inversion F as [|c' s' mid' w' A B]; subst. cbn [app] in E. injection E as -> ->. split; [apply in_memb, A|eauto].
Qed.
Lemma stands_spec : forall w u, stands w u = true <-> occurs w u.
Proof.
  intros w u. induction u as [|c u IH]; cbn [stands]; rewrite orb_true_iff, begins_spec.
  - split; [intros [(mid & post & E & F)|H]; [exists [], mid, post; auto|discriminate H]|]. intros (pre & mid & post & E & F). left. destruct pre; [exists mid, post; auto|discriminate E].
  - rewrite IH. split.
    + intros [(mid & post & E & F)|(pre & mid & post & -> & F)]; [exists [], mid, post; auto|exists (c :: pre), mid, post; auto].
    + intros ([|d pre] & mid & post & E & F); [left; exists mid, post; auto|right]. injection E as _ ->. exists pre, mid, post. auto.
Qed.

(** A text without the five words, and not with both a lookbehind and a switch, is a regex or is rejected. *)
Theorem C74_clean : forall props u, ~ occurs lookbehind u \/ ~ occurs switch u -> (forall w, In w hazards -> ~ occurs w u) ->
  (exists r, compile props u = CRegex r) \/ compile props u = CReject.
Proof.
  intros props u [H|H] Hw; [destruct (no_hard_error props false false false false u) as [(r & E & _)|E]|destruct (no_hard_error props true false false false u) as [(r & E & _)|E]]; eauto;
    intros w [<-|J]; auto.
Qed.
Print Assumptions C74_clean.

(** The same, as a check of the text. *)
Definition clean (u : list Z) : bool := negb (stands lookbehind u && stands switch u) && forallb (fun w => negb (stands w u)) hazards.
Theorem C74_check : forall props u, clean u = true -> compile props u <> CIll.
Proof.
  intros props u H. apply andb_true_iff in H as [H1 H2]. rewrite forallb_forall in H2. apply negb_true_iff, andb_false_iff in H1.
  destruct (C74_clean props u) as [[r ->]| ->]; try discriminate.
  - destruct H1 as [H1|H1]; [left|right]; intros O; apply stands_spec in O; congruence.
  - intros w J O. specialize (H2 w J). apply stands_spec in O. rewrite O in H2. discriminate H2.
Qed.
Print Assumptions C74_check.

(** None of the conditions can be left out: each has a text that breaks this one only and is a hard error. *)
Definition alone (w : word) (u : list Z) : Prop :=
  occurs w u /\ (~ occurs lookbehind u \/ ~ occurs switch u) /\ (forall w', In w' hazards -> occurs w' u -> w' = w) /\ compile no_props u = CIll.
Definition witnesses : list string := ["((?im)a)"; "\x{100000000}"; "(?<b>\g{a})"; "(?:a??)?+"; "[[:alpha:]-z]"].
Theorem C74_needed : (forall w, In w hazards -> exists u, alone w u) /\
  (exists u, (forall w, In w hazards -> ~ occurs w u) /\ compile no_props u = CIll).
Proof.
  split.
  - assert (G : forall i, i < 5 -> alone (nth i hazards []) (codes (nth i witnesses ""))).
    { intros i Hi. assert (T : forallb (fun i => let u := codes (nth i witnesses "") in
          forallb (fun j => Bool.eqb (stands (nth j hazards []) u) (Nat.eqb j i)) (seq 0 5) && match compile no_props u with CIll => true | _ => false end &&
          negb (stands lookbehind u)) (seq 0 5) = true) by (vm_compute; reflexivity).
      rewrite forallb_forall in T. specialize (T i). cbv zeta in T. rewrite in_seq in T. specialize (T (conj (Nat.le_0_l _) Hi)).
      apply andb_true_iff in T as [T T4]. apply andb_true_iff in T as [T1 T2]. rewrite forallb_forall in T1.
      assert (T3 : forall j, j < 5 -> stands (nth j hazards []) (codes (nth i witnesses "")) = Nat.eqb j i).
      { intros j Hj. apply eqb_prop, T1, in_seq. lia. }
      split; [apply stands_spec; rewrite (T3 i Hi); apply Nat.eqb_refl|]. split; [|split].
      - left. intros O. apply stands_spec in O. rewrite O in T4. discriminate T4.
      - intros w' J O. apply stands_spec in O. destruct (In_nth _ _ [] J) as (j & Hj & <-). change (List.length hazards) with 5 in Hj.
        assert (Q : Nat.eqb j i = true) by (rewrite <- (T3 j Hj); exact O). apply Nat.eqb_eq in Q as ->. reflexivity.
      - destruct (compile no_props _) eqn:E in T2; try discriminate T2. exact E. }
    intros w J. destruct (In_nth _ _ [] J) as (i & Hi & <-). change (List.length hazards) with 5 in Hi. eexists. exact (G i Hi).
  - exists (codes "(?<=(?i)a)"). split; [|vm_compute; reflexivity]. intros w J O. apply stands_spec in O.
    assert (T : forallb (fun w => negb (stands w (codes "(?<=(?i)a)"))) hazards = true) by (vm_compute; reflexivity).
    rewrite forallb_forall in T. specialize (T w J). rewrite O in T. discriminate T.
Qed.
Print Assumptions C74_needed.

(** Not vacuous: texts with most constructs of the grammar that pass the check, two of them regexes, some rejected. *)
Definition length_of (c : compiled) : nat := match c with CRegex (RSeq l) => List.length l | _ => 0 end.
Example C74_ex_regex : map (fun t => (clean (codes t), length_of (compile (fun _ _ => Some []) (codes t))))
    ["^(?<y>[0-9]{4})-(?i)(?:x\x41|\u00e9)*?(?=[^a-c\d[:alpha:]]+)(?>b?+)\1\p{L}\b.$"; "(?<![a-z]{2})\x{10ffff}(?<=a|(b+))\u{00000061}?+(c??)"] = [(true, 12); (true, 5)].
Proof. vm_compute. reflexivity. Qed.
Example C74_ex_rejected : map (fun t => (clean (codes t), match compile no_props (codes t) with CReject => true | _ => false end))
    ["(a"; "[a"; "a{2"; "*"; "\3"; "\p{nope}"; "(?<=a"; "\x{}"] = repeat (true, true) 8.
Proof. vm_compute. reflexivity. Qed.
(** The words are no errors by themselves. *)
Example C74_ex_harmless : map (fun t => (clean (codes t), match compile no_props (codes t) with CRegex _ => true | _ => false end))
    ["(?i)(?<=ab|c)"; "(?im)a"; "\x{000000041}"; "(?<a>x)\g{a}"; "(?:ab)?+"; "[:]-a]"] = repeat (false, true) 6.
Proof. vm_compute. reflexivity. Qed.
(** Near misses of the words are allowed. *)
Example C74_ex_near : forallb (fun t => clean (codes t) && match compile no_props (codes t) with CRegex _ => true | _ => false end)
    ["[a]-b"; "(?i)m"; "(a)?b+"; "(a)*+"; "a?+"; "\x{ffffffff}"; "x{2}u{3}"; "(a)\g{1}"; "(?<b>(a)\g{-1})"; "[:x]-y"; "(?<n>=)"; "(?:<=)(?i)a"] = true.
Proof. vm_compute. reflexivity. Qed.
