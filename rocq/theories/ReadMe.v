(** The examples of /repo/README.md (lines 164-241) and what they say about every subject. *)
From Coq Require Import List ZArith NArith Bool Lia Arith ZifyN ZifyNat String.
From Verif Require Import Chars Syntax Views Eval Api Actions Parser Spec CharProofs EvalTop Match Term ModeSem Mode ModeCalls ModeTop Compiles Total Numbering Fields Properties2 Properties14.
Import ListNotations.
Local Open Scope nat_scope.
Local Open Scope list_scope.

(** * Rows of fields *)
(** [match] with a row of fields says whether the subject splits into words of the fields, and its groups are the words of one
    splitting. *)
Theorem fields_match : forall props u l opt s f, compile props u = CRegex (RSeq (map field_re l)) -> forallb val_ok s = true ->
  terminating (RSeq (map field_re l)) = true -> msound_check opt f (RSeq (map field_re l)) = true ->
  right_check opt f (RSeq (map field_re l)) MMatch = true ->
  exists c, answers (fun n => ctre_match opt n s f (RSeq (map field_re l))) c /\
    (matched c = true <-> exists ws, Forall2 (fits (f_ci f)) l ws /\ s = List.concat ws) /\
    (matched c = true -> exists ws, Forall2 (fits (f_ci f)) l ws /\ s = List.concat ws /\
       captures_are (RSeq (map field_re l)) c (fields_log l ws 0 [])).
Proof.
  intros props u l opt s f Hc V T M R. destruct (C47_match _ _ _ _ s f Hc V T M R) as (c & A & S0 & G). exists c. split; [exact A|].
  assert (NS : no_switch (RSeq (map field_re l)) = true).
  { change (no_switch (RSeq (map field_re l))) with ((fix all (l : list re) : bool := match l with [] => true | x :: xs => no_switch x && all xs end) (map field_re l)).
    clear. induction l as [|[[[id [nm|]]|] [[[k a] b]|] c] l IH]; cbn in *; auto. }
  assert (E : forall lg, mderives s f (RSeq (map field_re l)) 0 (List.length s) lg <->
    exists ws, Forall2 (fits (f_ci f)) l ws /\ s = List.concat ws /\ lg = fields_log l ws 0 []).
  { intros lg. rewrite (mderives_plain s f _ 0 _ lg NS). unfold derives.
    pose proof (fields_derive s (f_ml f) (f_ci f) (names_of (RSeq (map field_re l))) l [] s [] (List.length s, lg) eq_refl) as D.
    cbn [List.length Nat.add app] in D. rewrite D. split.
    - intros (ws & u' & E1 & E2 & E3). injection E3 as E3 ->. exists ws. split; [exact E2|]. split; [|reflexivity].
      rewrite E1 in E3. rewrite app_length in E3. destruct u'; [rewrite app_nil_r in E1; exact E1|cbn in E3; lia].
    - intros (ws & E2 & E1 & ->). exists ws, []. rewrite app_nil_r. split; [exact E1|]. split; [exact E2|]. rewrite E1. reflexivity. }
  split.
  - rewrite S0. split.
    + intros [lg H]. apply E in H as (ws & H1 & H2 & _). exists ws. auto.
    + intros (ws & H1 & H2). eexists. apply E. exists ws. split; [exact H1|]. split; [exact H2|reflexivity].
  - intros H. destruct (G H) as (lg & D & K). apply E in D as (ws & H1 & H2 & ->). exists ws. auto.
Qed.

(** * Splitting at characters *)
Lemma split_unique : forall (P : Z -> Prop) a b a' b', Forall P a -> Forall P a' -> Forall (fun v => ~ P v) b -> Forall (fun v => ~ P v) b' ->
  a ++ b = a' ++ b' -> a = a' /\ b = b'.
Proof.
  intros P. induction a as [|x a IH]; intros b [|y a'] b' F F' G G' E; cbn in E.
  - auto.
  - subst b. inversion G; inversion F'; subst. contradiction.
  - subst b'. inversion G'; inversion F; subst. contradiction.
  - injection E as -> E. inversion F; inversion F'; subst. destruct (IH b a' b') as [-> ->]; auto.
Qed.
Definition lower (v : Z) : Prop := (97 <= v <= 122)%Z.
Definition decimal (v : Z) : Prop := (48 <= v <= 57)%Z.
Lemma has_range : forall a b v, cls_has false (CSet [CRange a b]) v = true <-> (a <= v <= b)%Z.
Proof. intros a b v. cbn [cls_has existsb]. unfold fold_test. cbn [andb orb]. rewrite !orb_false_r, andb_true_iff, !Z.leb_le. reflexivity. Qed.
Lemma has_char : forall k v, cls_has false (CChar k) v = true <-> v = k.
Proof. intros k v. cbn [cls_has]. unfold lit_has, fold_test. cbn [andb orb]. rewrite ?orb_false_r, Z.eqb_eq. split; auto. Qed.
Lemma fits_run : forall g k a b c w (P : Z -> Prop), (forall v, cls_has false c v = true <-> P v) ->
  (fits false (mkField g (Some (k, a, b)) c) w <-> Forall P w /\ (a <= N.of_nat (List.length w))%N /\ (b = 0%N \/ (N.of_nat (List.length w) <= b)%N)).
Proof. intros g k a b c w P H. unfold fits. cbn [f_cls f_rep].
  assert (E : Forall (fun v => cls_has false c v = true) w <-> Forall P w) by (rewrite !Forall_forall; split; intros F x I; apply H, F, I).
  rewrite E. reflexivity.
Qed.
Lemma fits_char : forall g k w, fits false (mkField g None (CChar k)) w <-> w = [k].
Proof.
  intros g k w. unfold fits. cbn [f_cls f_rep]. split.
  - intros [F L]. destruct w as [|v [|]]; try discriminate. inversion_clear F as [|? ? F1 _]. apply has_char in F1. subst. reflexivity.
  - intros ->. split; [constructor; [apply has_char; reflexivity|constructor]|reflexivity].
Qed.

(** * The examples *)
(** README.md lines 169-175. *)
Definition number_row : list field :=
  [mkField None (Some (Greedy, 1, 0)%N) (CSet [CRange 97 122]); mkField (Some (1, None)) (Some (Greedy, 1, 0)%N) (CSet [CRange 48 57])].
Definition number_text : list Z := codes "[a-z]+([0-9]+)".
Theorem extract_number : forall opt s, forallb val_ok s = true -> exists r c, compile no_props number_text = CRegex r /\
  answers (fun n => ctre_match opt n s plain_mode r) c /\
  (matched c = true <-> exists w d, s = w ++ d /\ w <> [] /\ d <> [] /\ Forall lower w /\ Forall decimal d) /\
  (forall w d, s = w ++ d -> w <> [] -> d <> [] -> Forall lower w -> Forall decimal d -> group c 1 = Some (List.length w, List.length s)).
Proof.
  intros opt s V. assert (Hr : compile no_props number_text = CRegex (RSeq (map field_re number_row))) by (vm_compute; reflexivity).
  destruct (fields_match no_props number_text number_row opt s plain_mode Hr V) as (c & A & M & G);
    [vm_compute; reflexivity|destruct opt; vm_compute; reflexivity|destruct opt; vm_compute; reflexivity|].
  exists (RSeq (map field_re number_row)), c. split; [exact Hr|]. split; [exact A|].
  assert (E : forall ws, Forall2 (fits false) number_row ws <-> exists w d, ws = [w; d] /\ w <> [] /\ d <> [] /\ Forall lower w /\ Forall decimal d).
  { intros ws. split.
    - intros F. inversion F as [|? w ? ? F1 F']; subst. inversion F' as [|? d ? ? F2 F'']; subst. inversion F''; subst.
      apply (fits_run _ _ _ _ _ _ lower (has_range _ _)) in F1 as (F1 & L1 & _). apply (fits_run _ _ _ _ _ _ decimal (has_range _ _)) in F2 as (F2 & L2 & _).
      exists w, d. split; [reflexivity|]. split; [intros ->; cbn in L1; lia|]. split; [intros ->; cbn in L2; lia|]. auto.
    - intros (w & d & -> & N1 & N2 & F1 & F2). constructor; [|constructor; [|constructor]].
      + apply (fits_run _ _ _ _ _ _ lower (has_range _ _)). split; [exact F1|]. split; [destruct w; [contradiction|cbn [List.length]; lia]|left; reflexivity].
      + apply (fits_run _ _ _ _ _ _ decimal (has_range _ _)). split; [exact F2|]. split; [destruct d; [contradiction|cbn [List.length]; lia]|left; reflexivity]. }
  assert (M' : matched c = true <-> exists w d, s = w ++ d /\ w <> [] /\ d <> [] /\ Forall lower w /\ Forall decimal d).
  { rewrite M. split.
    - intros (ws & F & H). apply E in F as (w & d & -> & F). exists w, d. cbn [List.concat] in H. rewrite app_nil_r in H. split; [exact H|exact F].
    - intros (w & d & H & F). exists [w; d]. split; [apply E; exists w, d; split; [reflexivity|exact F]|]. cbn [List.concat]. rewrite app_nil_r. exact H. }
  split; [exact M'|]. intros w d H N1 N2 F1 F2. destruct G as (ws & F & H' & K); [apply M'; exists w, d; auto|].
  apply E in F as (w' & d' & -> & _ & _ & F1' & F2'). cbn [List.concat] in H'. rewrite app_nil_r in H'.
  assert (X : w = w' /\ d = d').
  { assert (Y : forall l, Forall decimal l -> Forall (fun v => ~ lower v) l)
      by (intros l; apply Forall_impl; unfold decimal, lower; intros; lia).
    apply (split_unique lower w d w' d'); auto. rewrite <- H. exact H'. }
  destruct X as [<- <-]. rewrite (K 1) by (vm_compute; auto). cbn. rewrite H, app_length. reflexivity.
Qed.

(** README.md lines 187 and 205: the same row with and without names. *)
Definition digit_class : cls := CSet [CRange 48 57].
Definition date_row (y m d : option (list Z)) : list field :=
  [mkField (Some (1, y)) (Some (Greedy, 4, 4)%N) digit_class; mkField None None (CChar 47);
   mkField (Some (2, m)) (Some (Greedy, 1, 2)%N) digit_class; mkField None None (CChar 47);
   mkField (Some (3, d)) (Some (Greedy, 1, 2)%N) digit_class].
Definition date_text : list Z := codes "(\d{4})/(\d{1,2})/(\d{1,2})".
Definition named_date_text : list Z := codes "(?<year>\d{4})/(?<month>\d{1,2})/(?<day>\d{1,2})".
(** Four digits, one or two, one or two, separated by slashes. *)
Definition is_date (y m d : list Z) : Prop :=
  Forall decimal (y ++ m ++ d) /\ List.length y = 4 /\ (List.length m = 1 \/ List.length m = 2) /\ (List.length d = 1 \/ List.length d = 2).
Lemma date_words : forall ny nm nd ws, Forall2 (fits false) (date_row ny nm nd) ws <->
  exists y m d, ws = [y; [47%Z]; m; [47%Z]; d] /\ is_date y m d.
Proof.
  intros ny nm nd ws. unfold is_date. split.
  - intros F. inversion F as [|? y ? ? F1 F']; subst. inversion F' as [|? a ? ? F2 F'']; subst. inversion F'' as [|? m ? ? F3 F3']; subst.
    inversion F3' as [|? b ? ? F4 F4']; subst. inversion F4' as [|? d ? ? F5 F5']; subst. inversion F5'; subst.
    apply fits_char in F2, F4. subst. apply (fits_run _ _ _ _ _ _ decimal (has_range _ _)) in F1 as (F1 & L1 & L1').
    apply (fits_run _ _ _ _ _ _ decimal (has_range _ _)) in F3 as (F3 & L3 & L3'). apply (fits_run _ _ _ _ _ _ decimal (has_range _ _)) in F5 as (F5 & L5 & L5').
    exists y, m, d. split; [reflexivity|]. split; [repeat (apply Forall_app; split); assumption|]. lia.
  - intros (y & m & d & -> & F & L1 & L2 & L3). apply Forall_app in F as [F1 F]. apply Forall_app in F as [F2 F3].
    unfold date_row. repeat apply Forall2_cons; try apply Forall2_nil; try (apply fits_char; reflexivity);
      apply (fits_run _ _ _ _ _ _ decimal (has_range _ _)); (split; [assumption|lia]).
Qed.
Lemma date_unique : forall y m d y' m' d', is_date y m d -> is_date y' m' d' ->
  y ++ 47%Z :: m ++ 47%Z :: d = y' ++ 47%Z :: m' ++ 47%Z :: d' -> y = y' /\ m = m' /\ d = d'.
Proof.
  intros y m d y' m' d' (F & _) (F' & _) E. apply Forall_app in F as [F1 F], F' as [F1' F']. apply Forall_app in F as [F2 F3], F' as [F2' F3'].
  assert (X : ~ decimal 47) by (unfold decimal; lia).
  apply (run_unique decimal) in E as (-> & _ & E); auto. apply (run_unique decimal) in E as (-> & _ & ->); auto.
Qed.
Theorem extract_date : forall t, In t [date_text; named_date_text] -> forall opt s, forallb val_ok s = true -> exists r c, compile no_props t = CRegex r /\
  answers (fun n => ctre_match opt n s plain_mode r) c /\
  (matched c = true <-> exists y m d, s = y ++ 47%Z :: m ++ 47%Z :: d /\ is_date y m d) /\
  (forall y m d, s = y ++ 47%Z :: m ++ 47%Z :: d -> is_date y m d ->
     group c 1 = Some (0, 4) /\ group c 2 = Some (5, 5 + List.length m) /\ group c 3 = Some (6 + List.length m, List.length s)).
Proof.
  intros t Ht opt s V.
  assert (X : exists ny nm nd, compile no_props t = CRegex (RSeq (map field_re (date_row ny nm nd))) /\
    terminating (RSeq (map field_re (date_row ny nm nd))) = true /\ msound_check opt plain_mode (RSeq (map field_re (date_row ny nm nd))) = true /\
    right_check opt plain_mode (RSeq (map field_re (date_row ny nm nd))) MMatch = true).
  { destruct Ht as [<-|[<-|[]]]; [exists None, None, None|exists (Some (codes "year")), (Some (codes "month")), (Some (codes "day"))]; destruct opt; vm_compute; auto. }
  destruct X as (ny & nm & nd & Hr & T & MS & R). clear Ht. destruct (fields_match no_props t _ opt s plain_mode Hr V T MS R) as (c & A & M & G).
  eexists. exists c. split; [exact Hr|]. split; [exact A|].
  assert (J : forall y m d, List.concat [y; [47%Z]; m; [47%Z]; d] = y ++ 47%Z :: m ++ 47%Z :: d) by (intros; cbn; rewrite app_nil_r; reflexivity).
  assert (M' : matched c = true <-> exists y m d, s = y ++ 47%Z :: m ++ 47%Z :: d /\ is_date y m d).
  { rewrite M. split.
    - intros (ws & F & H). apply date_words in F as (y & m & d & -> & F). exists y, m, d. rewrite J in H. auto.
    - intros (y & m & d & H & F). eexists. split; [apply date_words; exists y, m, d; split; [reflexivity|exact F]|]. rewrite J. exact H. }
  split; [exact M'|]. intros y m d H D. destruct G as (ws & F & H' & K); [apply M'; exists y, m, d; auto|].
  apply date_words in F as (y' & m' & d' & -> & D'). rewrite J in H'. rewrite H in H'. destruct (date_unique _ _ _ _ _ _ D D' H') as (<- & <- & <-).
  destruct D as (_ & L1 & _ & _). assert (Ls : List.length s = 6 + List.length m + List.length d) by (rewrite H, app_length; cbn [List.length]; rewrite app_length; cbn [List.length]; lia).
  assert (I : forall i, In i [1; 2; 3] -> In i (map fst (find_captures (RSeq (map field_re (date_row ny nm nd)))))).
  { intros i Hi. destruct ny, nm, nd; vm_compute; vm_compute in Hi; tauto. }
  rewrite (K 1), (K 2), (K 3) by (apply I; cbn; auto). cbn. rewrite L1, Ls. cbn. repeat split; f_equal; f_equal; lia.
Qed.

(** README.md lines 232-238: a word of letters is an identifier, a word of digits a number, anything else nothing. *)
Definition lexer_text : list Z := codes "([a-z]+)|([0-9]+)".
Theorem lexer : forall opt s, forallb val_ok s = true -> exists r c, compile no_props lexer_text = CRegex r /\
  answers (fun n => ctre_match opt n s plain_mode r) c /\
  (matched c = true <-> s <> [] /\ (Forall lower s \/ Forall decimal s)) /\
  (s <> [] -> Forall lower s -> group c 1 = Some (0, List.length s) /\ group c 2 = None) /\
  (s <> [] -> Forall decimal s -> group c 1 = None /\ group c 2 = Some (0, List.length s)).
Proof.
  intros opt s V.
  set (x := mkField (Some (1, None)) (Some (Greedy, 1, 0)%N) (CSet [CRange 97 122])). set (y := mkField (Some (2, None)) (Some (Greedy, 1, 0)%N) (CSet [CRange 48 57])).
  set (r := RSelect [field_re x; field_re y]). assert (Hr : compile no_props lexer_text = CRegex r) by (vm_compute; reflexivity).
  destruct (C47_match _ _ _ opt s plain_mode Hr V) as (c & A & S0 & G);
    [vm_compute; reflexivity|destruct opt; vm_compute; reflexivity|destruct opt; vm_compute; reflexivity|].
  exists r, c. split; [exact Hr|]. split; [exact A|].
  assert (E : forall lg, mderives s plain_mode r 0 (List.length s) lg <->
    s <> [] /\ (Forall lower s /\ lg = [(1, (0, List.length s))] \/ Forall decimal s /\ lg = [(2, (0, List.length s))])).
  { intros lg. rewrite (mderives_plain s plain_mode r 0 _ lg eq_refl). unfold derives.
    change (sem s (f_ml plain_mode) (f_ci plain_mode) (names_of r) r (0, []) (List.length s, lg)) with
      (sem s false false (names_of r) (field_re x) (0, []) (List.length s, lg) \/ sem s false false (names_of r) (field_re y) (0, []) (List.length s, lg) \/ False).
    pose proof (field_derives s false false (names_of r) x [] s [] (List.length s, lg) eq_refl) as D1.
    pose proof (field_derives s false false (names_of r) y [] s [] (List.length s, lg) eq_refl) as D2.
    cbn [List.length Nat.add] in D1, D2. rewrite D1, D2. clear D1 D2. split.
    - intros [(w & u' & E1 & F & E2)|[(w & u' & E1 & F & E2)|[]]]; injection E2 as E2 ->; rewrite E1, app_length in E2;
        (destruct u'; [|cbn in E2; lia]); rewrite app_nil_r in E1; subst w.
      + apply (fits_run _ _ _ _ _ _ lower (has_range _ _)) in F as (F & L & _). split; [intros ->; cbn in L; lia|]. left. auto.
      + apply (fits_run _ _ _ _ _ _ decimal (has_range _ _)) in F as (F & L & _). split; [intros ->; cbn in L; lia|]. right. auto.
    - intros [N1 [[F ->]|[F ->]]]; [left|right; left]; exists s, []; rewrite app_nil_r; (split; [reflexivity|]); (split; [|reflexivity]).
      + apply (fits_run _ _ _ _ _ _ lower (has_range _ _)). split; [exact F|]. split; [destruct s; [contradiction|cbn [List.length]; lia]|left; reflexivity].
      + apply (fits_run _ _ _ _ _ _ decimal (has_range _ _)). split; [exact F|]. split; [destruct s; [contradiction|cbn [List.length]; lia]|left; reflexivity]. }
  assert (M' : matched c = true <-> s <> [] /\ (Forall lower s \/ Forall decimal s)).
  { rewrite S0. split.
    - intros [lg H]. apply E in H. tauto.
    - intros [N1 [F|F]]; eexists; apply E; (split; [exact N1|]); [left|right]; split; (exact F || reflexivity). }
  split; [exact M'|].
  assert (D : s <> [] -> Forall lower s -> Forall decimal s -> False).
  { intros N1 F F'. destruct s as [|v s']; [contradiction|]. inversion F; inversion F'; subst. unfold lower, decimal in *. lia. }
  split; intros N1 F; (destruct G as (lg & H & K); [apply M'; auto|]); apply E in H as [_ [[F' ->]|[F' ->]]]; try (exfalso; eauto; fail);
    rewrite (K 1), (K 2) by (vm_compute; auto); split; reflexivity.
Qed.
