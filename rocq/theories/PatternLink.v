(** The pattern syntax against the library's parser: C43. *)
From Coq Require Import List ZArith NArith Bool Arith Lia String.
From Coq Require Import ZifyBool ZifyNat ZifyN.
From Verif Require Import Chars Syntax View Eval Api Grammar Actions Parser ParserProofs Literals Spec EvalInv EvalTop ApiProofs CharProofs Match Numbering Fusion FusionRuns
  Pattern PatternRead PatternParse.
Import ListNotations.
Local Open Scope nat_scope.

Definition is_switch (a : action) : bool :=
  match a with A_mode_case_insensitive | A_mode_case_sensitive | A_mode_multiline | A_mode_singleline => true | _ => false end.
Definition cap_top (c : ctx) : Prop := exists i ts, stk c = ICap i :: ts.

Section Link.
Variable props : list Z -> option (list Z) -> option (list (Z * Z)).

(** * The actions *)
Lemma switch_top : forall B a p c c', act props B a p c = Done c' -> is_switch a = true -> cap_top c.
Proof.
  intros B a [v|] [s n] c' H E; destruct a; try discriminate E; cbn [act apply stk] in H; try discriminate H;
    (destruct s as [|[] s]; try discriminate H; do 2 eexists; reflexivity).
Qed.
Lemma strict_library : forall a p c c', act props library_builders a p c = Done c' -> apply props a p c = Done c'.
Proof.
  intros a [v|] [s n] c' H; [|exact H].
  destruct a; try exact H; cbn [act apply stk counter apply_mode library_builders b_seq b_alt b_opt b_rep b_lazy b_poss b_cap b_ncap b_ahead b_behind b_atomic] in *;
    repeat match type of H with context [match ?x with _ => _ end] => is_var x; destruct x; try discriminate H end; try exact H.
  destruct (behind_content r); exact H.
Qed.
Lemma library_strict : forall a p c c', apply props a p c = Done c' -> (is_switch a = true -> cap_top c) -> act props library_builders a p c = Done c'.
Proof.
  intros a [v|] [s n] c' H K; [|exact H].
  destruct a; try exact H; cbn [act apply stk counter library_builders b_seq b_alt b_opt b_rep b_lazy b_poss b_cap b_ncap b_ahead b_behind b_atomic] in *;
    try (destruct (K eq_refl) as (i & ts & E); cbn [stk] in E; subst s; exact H);
    repeat match type of H with context [match ?x with _ => _ end] => is_var x; destruct x; try discriminate H end; try exact H.
  destruct (behind_content r); exact H.
Qed.
Lemma strict_plain : forall a p c c', act props plain_builders a p c = Done c' -> plain_apply props a p c = Done c'.
Proof.
  intros a [v|] [s n] c' H; [|exact H].
  destruct a; try exact H; cbn [act plain_apply apply stk counter apply_mode plain_builders b_seq b_alt b_opt b_rep b_lazy b_poss b_cap b_ncap b_ahead b_behind b_atomic] in *;
    repeat match type of H with context [match ?x with _ => _ end] => is_var x; destruct x; try discriminate H end; try exact H.
  destruct (rotate r); exact H.
Qed.
Lemma plain_strict : forall a p c c', plain_apply props a p c = Done c' -> (is_switch a = true -> cap_top c) -> act props plain_builders a p c = Done c'.
Proof.
  intros a [v|] [s n] c' H K; [|exact H].
  destruct a; try exact H; cbn [act plain_apply apply stk counter plain_builders b_seq b_alt b_opt b_rep b_lazy b_poss b_cap b_ncap b_ahead b_behind b_atomic] in *;
    try (destruct (K eq_refl) as (i & ts & E); cbn [stk] in E; subst s; exact H);
    repeat match type of H with context [match ?x with _ => _ end] => is_var x; destruct x; try discriminate H end; try exact H.
  destruct (rotate r); exact H.
Qed.

(** * The runs *)
Lemma mrun_stable : forall B n m p i st c x, n <= m -> mrun props B n p i st c = x -> x <> PFuel -> mrun props B m p i st c = x.
Proof.
  induction n as [|n IH]; intros m p i st c x L H N; [cbn in H; congruence|]. destruct m as [|m]; [lia|]. cbn [mrun] in *.
  assert (L' : n <= m) by lia. destruct st as [|[y|a|d| |t] st]; [assumption| | | | |].
  - destruct (rule y (hd_error i)); [|assumption]. exact (IH _ _ _ _ _ _ L' H N).
  - destruct (act props B a p c); try assumption. exact (IH _ _ _ _ _ _ L' H N).
  - destruct i as [|ch i]; [assumption|]. destruct (term_matches (TTerm d) ch); [|assumption]. exact (IH _ _ _ _ _ _ L' H N).
  - destruct i as [|ch i]; [assumption|]. destruct (term_matches TAny ch); [|assumption]. exact (IH _ _ _ _ _ _ L' H N).
  - destruct i as [|ch i]; [assumption|]. destruct (term_matches (TSet t) ch); [|assumption]. exact (IH _ _ _ _ _ _ L' H N).
Qed.
Lemma mrun_mono : forall B n m p i st c c', n <= m -> mrun props B n p i st c = PAccept c' -> mrun props B m p i st c = PAccept c'.
Proof. intros. apply (mrun_stable B n); [assumption|assumption|discriminate]. Qed.
Lemma mrun_run : forall n p i st c c', mrun props library_builders n p i st c = PAccept c' -> run props n p i st c = PAccept c'.
Proof.
  induction n as [|n IH]; intros p i st c c' H; [discriminate|]. cbn [mrun run] in *.
  destruct st as [|[x|a|d| |t] st]; [assumption| | | | |].
  - destruct (rule x (hd_error i)); [auto|discriminate].
  - destruct (act props library_builders a p c) eqn:E; try discriminate. rewrite (strict_library _ _ _ _ E). auto.
  - destruct i as [|ch i]; [discriminate|]. destruct (term_matches (TTerm d) ch); [auto|discriminate].
  - destruct i as [|ch i]; [discriminate|]. destruct (term_matches TAny ch); [auto|discriminate].
  - destruct i as [|ch i]; [discriminate|]. destruct (term_matches (TSet t) ch); [auto|discriminate].
Qed.
Lemma mrun_plain : forall n p i st c c', mrun props plain_builders n p i st c = PAccept c' -> plain_run props n p i st c = PAccept c'.
Proof.
  induction n as [|n IH]; intros p i st c c' H; [discriminate|]. cbn [mrun plain_run] in *.
  destruct st as [|[x|a|d| |t] st]; [assumption| | | | |].
  - destruct (rule x (hd_error i)); [auto|discriminate].
  - destruct (act props plain_builders a p c) eqn:E; try discriminate. rewrite (strict_plain _ _ _ _ E). auto.
  - destruct i as [|ch i]; [discriminate|]. destruct (term_matches (TTerm d) ch); [auto|discriminate].
  - destruct i as [|ch i]; [discriminate|]. destruct (term_matches TAny ch); [auto|discriminate].
  - destruct i as [|ch i]; [discriminate|]. destruct (term_matches (TSet t) ch); [auto|discriminate].
Qed.
Lemma plain_mono : forall n m p i st c c', n <= m -> plain_run props n p i st c = PAccept c' -> plain_run props m p i st c = PAccept c'.
Proof.
  induction n as [|n IH]; intros m p i st c c' L H; [discriminate|]. destruct m as [|m]; [lia|]. cbn [plain_run] in *.
  assert (L' : n <= m) by lia. destruct st as [|[x|a|d| |t] st]; [assumption| | | | |].
  - destruct (rule x (hd_error i)); [|discriminate]. exact (IH _ _ _ _ _ _ L' H).
  - destruct (plain_apply props a p c); try discriminate. exact (IH _ _ _ _ _ _ L' H).
  - destruct i as [|ch i]; [discriminate|]. destruct (term_matches (TTerm d) ch); [|discriminate]. exact (IH _ _ _ _ _ _ L' H).
  - destruct i as [|ch i]; [discriminate|]. destruct (term_matches TAny ch); [|discriminate]. exact (IH _ _ _ _ _ _ L' H).
  - destruct i as [|ch i]; [discriminate|]. destruct (term_matches (TSet t) ch); [|discriminate]. exact (IH _ _ _ _ _ _ L' H).
Qed.

(** Without a switch of several letters the strict machine does the same. *)
Lemma several_end : forall l x, s_several (fold_left scan1 l x) = false -> s_several x = false.
Proof. induction l as [|ch l IH]; intros x H; [exact H|]. cbn [fold_left] in H. apply (several_mono x ch). auto. Qed.
Lemma run_strict : forall fuel p input st c c' x s look t,
  look = None \/ look = hd_error input -> conc s x c -> aexec look st s = Some t -> s_several (fold_left scan1 input x) = false ->
  run props fuel p input st c = PAccept c' -> mrun props library_builders fuel p input st c = PAccept c'.
Proof.
  induction fuel as [|fuel IH]; intros p input st c c' x s look t HL HC HE HS HR; [discriminate|].
  cbn [run mrun] in *. destruct st as [|y st]; [assumption|].
  assert (HT : forall ch rest s', input = ch :: rest -> astep s ch = Some s' -> aexec None st s' = Some t ->
    run props fuel (Some ch) rest st c = PAccept c' -> mrun props library_builders fuel (Some ch) rest st c = PAccept c').
  { intros ch rest s' -> H1 H2 H3. eapply IH; [left; reflexivity|eapply conc_step; eassumption|exact H2|exact HS|exact H3]. }
  destruct y as [n|a|d| |ds]; cbn [aexec] in HE.
  - destruct (rule n (hd_error input)) as [l|] eqn:ER; [|discriminate].
    apply rule_in in ER as (m & HI & HV).
    destruct (spec n (a_place s) (a_debt s)) as [[u post]|] eqn:ES; [|discriminate].
    destruct (top_fits (a_top s) u) eqn:ET; [|discriminate].
    pose proof (all_checked n) as CK. unfold checked in CK. rewrite forallb_forall in CK.
    specialize (CK (a_place s)). assert (IP : In (a_place s) all_places) by (destruct (a_place s); cbn; auto 12).
    specialize (CK IP). rewrite forallb_forall in CK. specialize (CK (a_debt s)).
    assert (ID : In (a_debt s) [false; true]) by (destruct (a_debt s); cbn; auto). specialize (CK ID). rewrite ES in CK.
    rewrite forallb_forall in CK. specialize (CK _ HI). cbn beta iota in CK. rewrite forallb_forall in CK.
    set (s0 := mkA (a_place s) (a_debt s) u) in *.
    assert (F0 : fits s s0 = true).
    { unfold fits, s0. cbn [a_place a_debt a_top]. rewrite ET. destruct (a_place s), (a_debt s); reflexivity. }
    assert (A1 : exists s1, aexec (hd_error input) l s0 = Some s1 /\ fits s1 post = true).
    { assert (K : exists k, In k (looks m) /\ aexec (hd_error input) l s0 = aexec k l s0).
      { unfold viable in HV. cbn [fst] in HV. destruct m as [d|ds| |], (hd_error input) as [ch|]; try contradiction.
        - subst. exists (Some d). split; [left; reflexivity|reflexivity].
        - exists (Some ch). split; [apply in_map; assumption|reflexivity].
        - exists (Some 0%Z). split; [left; reflexivity|]. apply other_exec. assumption.
        - exists None. split; [left; reflexivity|reflexivity]. }
      destruct K as (k & Ik & ->). specialize (CK k Ik). destruct (aexec k l s0) as [s1|]; [|discriminate]. eauto. }
    destruct A1 as (s1 & A1 & F1).
    destruct (exec_fits _ _ _ _ _ F0 A1) as (s1' & A1' & F1').
    assert (F2 : fits s1' post = true) by (eapply fits_trans; eassumption).
    destruct (exec_fits _ _ _ _ _ F2 HE) as (t' & A2 & F3).
    destruct (exec_app _ _ st _ _ A1') as (look' & HL' & A3).
    assert (A4 : aexec look' st s1' = Some t').
    { destruct HL' as [-> | ->]; [assumption|]. destruct (hd_error input) as [ch|]; [apply look_some; assumption|assumption]. }
    rewrite A4 in A3. eapply IH; [right; reflexivity|exact HC|exact A3|exact HS|exact HR].
  - destruct (apply props a p c) as [c1| |] eqn:EA; try discriminate.
    destruct (aact a s) as [s1|] eqn:E1; [|discriminate].
    rewrite (library_strict _ _ _ _ EA).
    + eapply IH; [exact HL|eapply conc_act; eassumption|exact HE|exact HS|exact HR].
    + intros Sw. pose proof (several_end _ _ HS) as Q. destruct HC as (C1 & C2 & C3 & C4). destruct s as [pl de u]. cbn [a_place a_debt a_top] in *.
      assert (E2 : match u, de, pl with
        | CapTop, true, _ => Some (mkA pl false ModeTop)
        | ModeTop, false, Switches => Some (mkA Switches false ModeTop)
        | _, _, _ => None
        end = Some s1) by (destruct a; try discriminate Sw; exact E1).
      destruct u; [discriminate| |].
      * destruct C3 as (i & ts & C3). do 2 eexists. exact C3.
      * destruct de; [discriminate|]. destruct pl; try discriminate. rewrite (C4 C1) in Q. discriminate.
  - destruct input as [|ch rest]; [discriminate|]. cbn [term_matches] in *. destruct (Z.eqb_spec ch d); [|discriminate]. subst.
    destruct (astep s d) as [s1|] eqn:E1; [|discriminate]. eapply HT; eauto.
  - destruct input as [|ch rest]; [discriminate|]. cbn [term_matches] in *. destruct look as [ch'|]; [|discriminate].
    destruct HL as [HL|HL]; [discriminate|]. injection HL as ->. destruct (astep s ch) as [s1|] eqn:E1; [|discriminate]. eapply HT; eauto.
  - destruct input as [|ch rest]; [discriminate|]. cbn [term_matches] in *. destruct (mem ch ds) eqn:EM; [|discriminate].
    apply mem_in in EM. destruct ds as [|d ds]; [discriminate|]. destruct (astep s d) as [s1|] eqn:E1; [|discriminate].
    destruct (forallb (fun d' => agrees (astep s d') s1) (d :: ds)) eqn:E2; [|discriminate]. rewrite forallb_forall in E2.
    specialize (E2 ch EM). unfold agrees in E2. destruct (astep s ch) as [s2|] eqn:E3; [|discriminate].
    apply andb_true_iff in E2 as [F1 F2]. destruct (exec_fits _ _ _ _ _ F1 HE) as (t' & A & F).
    eapply IH; [left; reflexivity|eapply conc_step; eassumption|exact A|exact HS|exact HR].
Qed.

(** * Both syntaxes *)
Lemma text_run : forall B u r, pattern_text props B u r -> exists n k, mrun props B n None u [NT N_s] (mkCtx [] 0) = PAccept (mkCtx [IRe r] k).
Proof. intros B u r H. destruct (pattern_read props B u r H) as (k & n & K). exists (n + 1), k. rewrite K. reflexivity. Qed.
Theorem text_unique : forall B u r r', pattern_text props B u r -> pattern_text props B u r' -> r = r'.
Proof.
  intros B u r r' H H'. destruct (text_run B u r H) as (n & k & K). destruct (text_run B u r' H') as (n' & k' & K').
  apply (mrun_mono B n (n + n')) in K; [|lia]. apply (mrun_mono B n' (n + n')) in K'; [|lia]. congruence.
Qed.
Lemma no_text : forall B n u x, mrun props B n None u [NT N_s] (mkCtx [] 0) = x -> x <> PFuel -> (forall c, x <> PAccept c) ->
  forall r, ~ pattern_text props B u r.
Proof.
  intros B n u x H N A r T. destruct (text_run B u r T) as (n' & k & K). apply (mrun_mono B n' (n + n')) in K; [|lia].
  rewrite (mrun_stable B n (n + n') _ _ _ _ x ltac:(lia) H N) in K. exact (A _ K).
Qed.
Lemma parse_any : forall n u c, run props n None u [NT N_s] (mkCtx [] 0) = PAccept c -> parse_ctx props u = PAccept c.
Proof.
  intros n u c H. destruct (parse_total props u (8 * List.length u + 3 + n) ltac:(lia)) as (x & _ & E & ->).
  rewrite (run_mono props n (8 * List.length u + 3 + n) _ _ _ _ (PAccept c) ltac:(lia) H ltac:(discriminate)) in E. congruence.
Qed.
Theorem text_compiles : forall u r, pattern_text props library_builders u r -> compile props u = CRegex r.
Proof.
  intros u r H. destruct (text_run _ u r H) as (n & k & K). apply mrun_run in K. unfold compile. rewrite (parse_any _ _ _ K). reflexivity.
Qed.
Lemma compiled_strict : forall u r, compile props u = CRegex r -> several_letters u = false ->
  exists c, mrun props library_builders (parse_fuel u) None u [NT N_s] (mkCtx [] 0) = PAccept c.
Proof.
  intros u r H S. unfold compile, parse_ctx in H. destruct (run props (parse_fuel u) None u [NT N_s] (mkCtx [] 0)) as [c| | |] eqn:E; try discriminate.
  exists c. eapply run_strict; [left; reflexivity| | |exact S|exact E].
  - unfold conc. instantiate (1 := plain_state). cbn. repeat split; auto. discriminate.
  - reflexivity.
Qed.
Theorem compiled_text : forall u r, several_letters u = false -> compile props u = CRegex r -> pattern_text props library_builders u r.
Proof.
  intros u r S H. destruct (compiled_strict u r H S) as (c & E). destruct (pattern_read_back _ _ _ _ _ E) as (r' & k & -> & T).
  rewrite (text_compiles _ _ T) in H. injection H as <-. exact T.
Qed.

(** * The unrewritten AST *)
Lemma top_crel : forall c0 c, crel c0 c -> cap_top c -> cap_top c0.
Proof.
  intros [s0 n0] [s n] [H _] (i & ts & E). cbn [stk] in *. subst s. inversion H as [|i0 j t0 t I T Q]. subst.
  apply irel_same in I; [|reflexivity]. subst. do 2 eexists. reflexivity.
Qed.
Lemma strict_simulates : forall fuel p input st c0 c c' b, mrun props library_builders fuel p input st c = PAccept c' -> crel c0 c -> in_order c ->
  fok st b = true -> (b = true -> fresh_rep c0) -> exists c0', mrun props plain_builders fuel p input st c0 = PAccept c0' /\ crel c0' c'.
Proof.
  induction fuel as [|fuel IH]; intros p input st c0 c c' b H C O K F; [discriminate|]. cbn [mrun] in *.
  destruct st as [|[n|a|d| |t] st].
  - destruct input; [|discriminate]. injection H as <-. eauto.
  - destruct (rule n (hd_error input)) as [l|] eqn:E; [|discriminate]. destruct (rule_in _ _ _ E) as (m & I & _).
    cbn [fok] in K. apply andb_true_iff in K as [K1 K2]. apply (IH _ _ _ _ _ _ b H C O); [|assumption]. apply fok_app; [|assumption].
    pose proof (rules_fok _ _ _ I) as R. destruct (is_mod n); [subst b; assumption|]. apply fok_any. assumption.
  - destruct (act props library_builders a p c) as [c1| |] eqn:E; try discriminate. cbn [fok] in K.
    pose proof (switch_top _ _ _ _ _ E) as Sw. apply strict_library in E.
    destruct (plain_step _ _ _ _ _ _ E C O) as (c01 & E0 & C1 & F1).
    { intros X. destruct a; try discriminate X; cbn [makes_rep changes_rep] in K; apply andb_true_iff in K as [K1 K2]; auto. }
    rewrite (plain_strict _ _ _ _ E0) by (intros X; apply (top_crel _ _ C); auto).
    apply (IH _ _ _ _ _ _ (makes_rep a) H C1 (apply_order _ _ _ _ _ E O)); [|assumption].
    destruct (makes_rep a); [assumption|]. apply andb_true_iff in K as [_ K]. assumption.
  - destruct input as [|ch rest]; [discriminate|]. destruct (term_matches (TTerm d) ch); [|discriminate]. apply (IH _ _ _ _ _ _ b H C O K F).
  - destruct input as [|ch rest]; [discriminate|]. destruct (term_matches TAny ch); [|discriminate]. apply (IH _ _ _ _ _ _ b H C O K F).
  - destruct input as [|ch rest]; [discriminate|]. destruct (term_matches (TSet t) ch); [|discriminate]. apply (IH _ _ _ _ _ _ b H C O K F).
Qed.
Theorem compiled_denotes : forall u r, several_letters u = false -> compile props u = CRegex r ->
  exists r0, pattern_text props plain_builders u r0 /\ rel r0 r.
Proof.
  intros u r S H. destruct (compiled_strict u r H S) as (c & E).
  destruct (pattern_read_back _ _ _ _ _ E) as (r' & k & -> & T). rewrite (text_compiles _ _ T) in H. injection H as <-.
  destruct (strict_simulates _ _ _ _ (mkCtx [] 0) _ _ false E) as (c0 & E0 & C).
  - split; [constructor|reflexivity].
  - reflexivity.
  - reflexivity.
  - discriminate.
  - destruct (pattern_read_back _ _ _ _ _ E0) as (r0 & k0 & -> & T0). exists r0. split; [exact T0|].
    destruct C as [C _]. cbn [stk] in C. inversion C as [|i0 i ts0 ts1 I T' Q]. subst. apply irel_re in I as (r1 & E1 & R). injection E1 as <-. exact R.
Qed.

(** The text denotes [r0]; the compiled AST has the same language. *)
Lemma text_plain : forall u r0, pattern_text props plain_builders u r0 -> exists n k, plain_run props n None u [NT N_s] (mkCtx [] 0) = PAccept (mkCtx [IRe r0] k).
Proof. intros u r0 H. destruct (text_run _ u r0 H) as (n & k & K). apply mrun_plain in K. eauto. Qed.
Lemma text_rel : forall u r0 r, pattern_text props plain_builders u r0 -> compile props u = CRegex r -> rel r0 r.
Proof.
  intros u r0 r T H. destruct (compile_plain _ _ _ H) as (r1 & H1 & R). destruct (text_plain _ _ T) as (n & k & E).
  unfold plain_compile in H1. destruct (plain_run props (parse_fuel u) None u [NT N_s] (mkCtx [] 0)) as [c| | |] eqn:E1; try discriminate.
  apply (plain_mono _ (n + parse_fuel u)) in E; [|lia]. apply (plain_mono _ (n + parse_fuel u)) in E1; [|lia].
  rewrite E in E1. injection E1 as <-. injection H1 as <-. exact R.
Qed.
Theorem text_language : forall u r0 r, pattern_text props plain_builders u r0 -> compile props u = CRegex r -> fusible r0 = true ->
  find_captures r0 = find_captures r /\ forall s f p e lg, derives s f r0 p e lg <-> derives s f r p e lg.
Proof. intros u r0 r T H G. pose proof (text_rel _ _ _ T H) as R. split; [apply R|]. exact (rel_derives _ _ R G). Qed.
Lemma captures_same : forall r0 r c lg, find_captures r0 = find_captures r -> captures_are r c lg -> captures_are r0 c lg.
Proof. intros r0 r c lg E H id I. rewrite E in I. auto. Qed.
Theorem text_match : forall u r0 r opt n s f c, pattern_text props plain_builders u r0 -> compile props u = CRegex r -> fusible r0 = true ->
  forallb val_ok s = true -> sound_check opt f r = true -> complete_check opt f r tail_match = true -> ctre_match opt n s f r = Ok c ->
  (matched c = true <-> exists lg, derives s f r0 0 (List.length s) lg) /\
  (matched c = true -> exists lg, derives s f r0 0 (List.length s) lg /\ captures_are r0 c lg).
Proof.
  intros u r0 r opt n s f c T H G Hs S0 C0 E. destruct (text_language _ _ _ T H G) as [F L].
  destruct (complete_check_spec _ _ _ _ s Hs C0) as [F0 O0].
  assert (A : matched c = true -> exists lg, derives s f r0 0 (List.length s) lg /\ captures_are r0 c lg).
  { intros M. destruct (match_sound opt s f r Hs n c (sound_check_spec _ _ _ S0) E M) as (lg & D & K). exists lg. split; [apply L; exact D|].
    eapply captures_same; eassumption. }
  split; [|exact A]. split.
  - intros M. destruct (A M) as (lg & D & _). eauto.
  - intros (lg & D). apply L in D. exact (match_complete opt s f r Hs n c lg F0 O0 E D).
Qed.
Theorem text_search : forall u r0 r opt n s f c, pattern_text props plain_builders u r0 -> compile props u = CRegex r -> fusible r0 = true ->
  forallb val_ok s = true -> starts_with_anchor f r = false -> sound_check opt f r = true -> complete_check opt f r tail_starts = true ->
  ctre_search opt n s f r = Ok c ->
  (matched c = true <-> exists b e lg, b <= List.length s /\ derives s f r0 b e lg) /\
  (matched c = true -> exists b e lg, group c 0 = Some (b, e) /\ derives s f r0 b e lg /\ captures_are r0 c lg /\
     forall b' e' lg', b' <= List.length s -> derives s f r0 b' e' lg' -> b <= b').
Proof.
  intros u r0 r opt n s f c T H G Hs Sa S0 C0 E. destruct (text_language _ _ _ T H G) as [F L].
  destruct (complete_check_spec _ _ _ _ s Hs C0) as [F0 O0]. pose proof (compiled_well_numbered _ _ _ H) as W.
  assert (B : forall b' e' lg', b' <= List.length s -> derives s f r0 b' e' lg' -> matched c = true /\ exists b e, group c 0 = Some (b, e) /\ b <= b').
  { intros b' e' lg' Lb D. apply L in D. destruct (search_complete opt s f r Hs n c b' e' lg' W F0 O0 Sa E Lb D) as [M (b & e & lg & Q & LQ & _)]. eauto 6. }
  assert (A : matched c = true -> exists b e lg, group c 0 = Some (b, e) /\ b <= List.length s /\ derives s f r0 b e lg /\ captures_are r0 c lg).
  { intros M. destruct (search_sound opt s f r Hs n c W (sound_check_spec _ _ _ S0) E M) as (b & e & lg & Q & D & K). exists b, e, lg.
    split; [assumption|]. split; [|split; [apply L; exact D|eapply captures_same; eassumption]].
    destruct (search_span _ _ _ _ _ _ W E M) as (b' & e' & B' & LB). rewrite Q in B'. injection B' as <- <-. lia. }
  split; [split|].
  - intros M. destruct (A M) as (b & e & lg & _ & Lb & D & _). eauto.
  - intros (b & e & lg & Lb & D). apply (B _ _ _ Lb D).
  - intros M. destruct (A M) as (b & e & lg & Q & Lb & D & K). exists b, e, lg. split; [assumption|]. split; [assumption|]. split; [assumption|].
    intros b' e' lg' Lb' D'. destruct (B _ _ _ Lb' D') as (_ & b1 & e1 & Q1 & L1). rewrite Q in Q1. injection Q1 as <- _. exact L1.
Qed.
End Link.
