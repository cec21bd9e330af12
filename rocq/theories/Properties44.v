(** Failed matches and failed alternatives: C40.

    [blank r]: the captures of [r], empty. [around_caps pre post c]: the result [c] with captures in front and behind.
    [first_of pre post x y]: [x] with [post] behind if it matched, [y] with [pre] in front if [x] failed; anything else of [x] stays. [ignores x y]: [x]
    neither sets nor refers to a group of [y]. *)
From Coq Require Import List ZArith NArith Bool Lia Arith String.
From Verif Require Import Chars Syntax First View Eval Api Actions Parser EvalInv ApiProofs Numbering Results Blank Frame Properties2 Properties6.
Import ListNotations.
Local Open Scope string_scope.
Local Open Scope list_scope.

(** Of a failed call every offered capture is false and converts to the empty optional; all but the whole match are empty too. *)
Theorem C40_reads : forall props u r m opt n s f c, compile props u = CRegex r -> entry_point m -> m opt n s f r = Ok c -> matched c = false ->
  forall id sl, get_id id c = Some sl -> s_m sl = false /\ to_optional_view s sl = Ok None /\ (id <> 0 -> sl = mkSlot None None false).
Proof.
  intros props u r m opt n s f c H Hm Hc Hf id sl Hg. pose proof (compiled_well_numbered props u r H) as Hw.
  assert (E : s_m sl = false).
  { destruct (slot_cases m opt n s f r c id sl Hm Hw Hc Hg) as [(_ & b & e & G & _)|[E _]]; [|exact E].
    pose proof (call_failed m opt n s f r c Hm Hw Hc Hf id) as G'. congruence. }
  split; [exact E|]. split; [unfold to_optional_view; rewrite E; reflexivity|]. intros H0.
  exact (proj1 (missing_reads m opt n s f r c id sl Hm Hw Hc H0 Hg E)).
Qed.
Print Assumptions C40_reads.
Example C40_reads_ex : match ctre_search true 80 (codes "abab") plain_mode (rx "(a)(?<n>b)(c)") with
  | Ok c => (matched c, map (fun i => get_id i c) [0; 1; 2; 3]) | _ => (true, []) end
  = (false, [Some (mkSlot None (Some 4) false); Some (mkSlot None None false); Some (mkSlot None None false); Some (mkSlot None None false)]).
Proof. vm_compute. reflexivity. Qed.

(** Alternatives that ignore each other: the outcome is that of the first alone, or if it fails that of the others alone. *)
Theorem C40_match : forall opt n s f a l, ignores a (RSelect l) -> ignores (RSelect l) a ->
  ctre_match opt (S n) s f (RSelect (a :: l)) = first_of (blank a) (blank (RSelect l)) (ctre_match opt n s f a) (ctre_match opt n s f (RSelect l)).
Proof. exact match_first. Qed.
Print Assumptions C40_match.
Theorem C40_starts : forall opt n s f a l, ignores a (RSelect l) -> ignores (RSelect l) a ->
  ctre_starts_with opt (S n) s f (RSelect (a :: l)) =
  first_of (blank a) (blank (RSelect l)) (ctre_starts_with opt n s f a) (ctre_starts_with opt n s f (RSelect l)).
Proof. exact starts_first. Qed.
Print Assumptions C40_starts.
(** A search is not changed by an alternative that matches nowhere. *)
Theorem C40_search : forall opt n s f a l, ignores a (RSelect l) -> ignores (RSelect l) a ->
  starts_with_anchor f (RSelect (a :: l)) = starts_with_anchor f (RSelect l) ->
  (forall p, p <= List.length s -> attempt opt n s f a p = No) ->
  forall x, ctre_search opt n s f (RSelect l) = x -> x <> Fuel -> ctre_search opt (S n) s f (RSelect (a :: l)) = fres (blank a) [] x.
Proof. exact search_skips. Qed.
Print Assumptions C40_search.
(** For pattern texts without backreferences, in terms of what the caller sees. *)
Theorem C40_ignores : forall props u a l, compile props u = CRegex (RSelect (a :: l)) -> refless (RSelect (a :: l)) = true ->
  ignores a (RSelect l) /\ ignores (RSelect l) a.
Proof. exact compiled_ignores. Qed.
Print Assumptions C40_ignores.
Theorem C40_alternatives : forall props u a l, compile props u = CRegex (RSelect (a :: l)) -> refless (RSelect (a :: l)) = true ->
  forall m opt n s f d, m = ctre_match \/ m = ctre_starts_with -> m opt (S n) s f (RSelect (a :: l)) = Ok d ->
  exists x c, (x = a \/ x = RSelect l) /\ m opt n s f x = Ok c /\ matched c = matched d /\
    (forall id, id = 0 \/ In id (map fst (find_captures x)) -> group d id = group c id) /\
    (forall id, id <> 0 -> ~ In id (map fst (find_captures x)) -> group d id = None) /\
    (x <> a -> exists c', m opt n s f a = Ok c' /\ matched c' = false).
Proof. exact alternatives_seen. Qed.
Print Assumptions C40_alternatives.
(** The first alternative fills three captures before it fails, in a loop, in a group and in a lookahead. *)
Example C40_alternatives_ex :
  let r := rx "(?:(a)(b))+(?=(c))x|(a)(?:b|(d))*c" in
  (exists a l, r = RSelect (a :: l) /\ refless r = true /\ List.length (find_captures a) = 3) /\
  match ctre_match true 200 (codes "ababc") plain_mode r, ctre_match true 200 (codes "abdbc") plain_mode r with
  | Ok c, Ok d => (matched c, matched d, map (group d) [0; 1; 2; 3; 4; 5])
  | _, _ => (true, false, []) end
  = (false, true, [Some (0, 5); None; None; None; Some (0, 1); Some (2, 3)]).
Proof. split; [eexists; eexists; split; [vm_compute; reflexivity|split; vm_compute; reflexivity]|vm_compute; reflexivity]. Qed.
Example C40_search_ex :
  let a := RSeq [RCap 1 [RCls (CChar 97)]; RCls (CChar 98); RCls (CChar 120)] in let l := [RSeq [RCap 2 [RCls (CChar 98)]; RCls (CChar 99)]] in
  ignores a (RSelect l) /\ ignores (RSelect l) a /\ (forall p, p <= 4 -> attempt true 60 (codes "abbc") plain_mode a p = No) /\
  match ctre_search true 61 (codes "abbc") plain_mode (RSelect (a :: l)) with Ok c => map (group c) [0; 1; 2] | _ => [] end = [Some (2, 4); None; Some (2, 3)].
Proof.
  intros a l. split; [|split; [|split; [|vm_compute; reflexivity]]].
  - split; intros z J; cbn in J |- *; [destruct J as [<-|[]]; right; intros [X|[]]; discriminate X|destruct J].
  - split; intros z J; cbn in J |- *; [destruct J as [<-|[]]; right; intros [X|[]]; discriminate X|destruct J].
  - intros p Hp. do 5 (destruct p as [|p]; [vm_compute; reflexivity|]). lia.
Qed.
