(** Property C10: a promise runs its continuation exactly once. *)
From Coq Require Import ZArith List Bool Arith Lia.
From Verif Require Import Promise_model Promise_proofs.
Import ListNotations.
Local Open Scope Z_scope.

(** Any history of calls on a promise and its forwards in which the continuation
    is attached once and the promise resolved once, in either order, with any other
    calls (error handlers, errors, forwards, calls on forwarded promises) before,
    between and after: before the second of the two the continuation has not run;
    at the end it has run exactly once, with the resolved value, even if it throws. *)
Theorem C10_exactly_once : forall h1 h2 h3 c v (resolve_first : bool),
  quiet h1 -> quiet h2 -> quiet h3 ->
  let first := if resolve_first then CallCb v else SetCb c in
  let second := if resolve_first then SetCb c else CallCb v in
  head_calls (snd (history [new_node] (h1 ++ (0%nat, first) :: h2))) = [] /\
  head_calls (snd (history [new_node] (h1 ++ (0%nat, first) :: h2 ++ (0%nat, second) :: h3))) = [(cid c, v)].
Proof. exact exactly_once. Qed.
Print Assumptions C10_exactly_once.
Example C10_nonvacuous :
  let c := mkcont 7 (fun v => if v =? 3 then Some 99 else None) in
  history [new_node] [(0%nat, Forward); (0%nat, CallCb 3); (1%nat, SetEr rethrow); (0%nat, SetEr (mkhandler 5 (fun _ => inr true))); (0%nat, SetCb c)]
  = ([mknode (Some c) (Some (mkhandler 5 (fun _ => inr true))) (Some 3) None; mknode None (Some rethrow) None None],
     [Called 0 7 3; Handled 0 5 99; Handled 1 0 99]).
Proof. reflexivity. Qed.

(** A chain of forwarded promises whose continuations are attached: resolving the
    first runs all of them once, in chain order, with the same value. *)
Theorem C10_chain : forall v cs, (forall c, In c cs -> throws c v = None) ->
  snd (fst (call_cb 0 (map (fun c => mknode (Some c) None None None) cs) v))
  = map (fun ic => Called (fst ic) (cid (snd ic)) v) (combine (seq 0 (length cs)) cs).
Proof. intros v cs H. rewrite (chain_fires v cs 0 H). reflexivity. Qed.
Print Assumptions C10_chain.

(** Refuted for forward(): a promise obtained by forward() after the parent's
    continuation has run is never resolved, its continuation never runs. *)
Theorem C10_late_forward_refuted : exists c c' v,
  snd (history [new_node] [(0%nat, SetCb c); (0%nat, CallCb v); (0%nat, Forward); (1%nat, SetCb c')]) = [Called 0 (cid c) v]
  /\ cid c' <> cid c.
Proof. exists (mkcont 1 (fun _ => None)), (mkcont 2 (fun _ => None)), 5. split; [reflexivity|discriminate]. Qed.
Print Assumptions C10_late_forward_refuted.

(** Refuted for error handlers: an error raised before a handler is attached is
    reported again to every handler attached later. *)
Theorem C10_error_twice_refuted : exists h1 h2 x,
  snd (history [new_node] [(0%nat, CallEr x); (0%nat, SetEr h1); (0%nat, SetEr h2)]) = [Handled 0 (hid h1) x; Handled 0 (hid h2) x].
Proof. exists (mkhandler 1 (fun _ => inr false)), (mkhandler 2 (fun _ => inr false)), 5. reflexivity. Qed.
Print Assumptions C10_error_twice_refuted.
