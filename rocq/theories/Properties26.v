(** The evaluator compiled with the work-around for MSVC (C56). *)
From Coq Require Import List ZArith NArith Bool String.
From Verif Require Import Chars Syntax First View Eval Api Parser MsvcEval Properties2.
Import ListNotations.
Local Open Scope string_scope.
Local Open Scope list_scope.

(** * C56 *)
(** [ms_eval] is [eval] with [evaluate_recursive] writing its answer through a reference. Both give the same answer with
    the same fuel: on all views, all flags, all stacks, also where the answer is undefined behaviour or an ill-formed program. *)
Theorem C56_evaluate : forall opt n v w cur f c stk, ms_eval opt n v w cur f c stk = eval opt n v w cur f c stk.
Proof. exact ms_same. Qed.
Print Assumptions C56_evaluate.
Theorem C56_calls : forall opt n v w f r p,
  ms_exec_match opt n v w f r p = exec_match opt n v w f r p /\
  ms_exec_starts_with opt n v w f r p = exec_starts_with opt n v w f r p /\
  ms_exec_search opt n v w f r p = exec_search opt n v w f r p.
Proof.
  exact (fun opt n v w f r p => conj (ms_match_same opt n v w f r p) (conj (ms_starts_same opt n v w f r p) (ms_search_same opt n v w f r p))).
Qed.
Print Assumptions C56_calls.
(** What [result] holds on entry never comes out again: it is always written, and a success found deeper is not overwritten. *)
Theorem C56_result : forall opt n result v w cur f c b i l tl,
  ms_rec_loop opt n result v w cur f c b i l tl =
  match rec_loop opt n v w cur f c b i l tl with Ok c' => Ok (Some c') | No => Ok None | Fuel => Fuel | UB => UB | Ill => Ill end.
Proof. exact (fun opt n => proj2 (proj2 (proj2 (proj2 (ms_all opt n))))). Qed.
Print Assumptions C56_result.

(** Characters are given back twice before the tail matches, and never enough. *)
Example C56_ex :
  map (fun t => match ms_exec_match false 100 (arr_view (codes t)) (arr_view (codes t)) plain_mode (rx "(a|b)*abb?") 0 with
                | Ok c => (matched c, group c 1) | _ => (false, None) end) ["aabab"; "ababb"; "aaaaa"] =
    [(true, Some (2, 3)); (true, Some (1, 2)); (false, None)] /\
  ms_rec_loop false 100 None (arr_view (codes "aa")) (arr_view (codes "aa")) 0 plain_mode (fresh REmpty) 0 0 [RCls (CChar 97)] [AR RReject] = Ok None.
Proof. vm_compute. split; reflexivity. Qed.
