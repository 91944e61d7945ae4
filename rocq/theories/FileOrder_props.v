(** Property C08: asynchronous file reads are delivered in request order, once. *)
From Coq Require Import ZArith List Bool Lia Permutation Arith.
From Verif Require Import FileOrder_model FileOrder_proofs.
Import ListNotations.
Local Open Scope Z_scope.

(** [n] successful reads, completed in any order by the I/O layer: the client sees
    exactly one completion per request, in request order, each with its own
    result, and nothing is left outstanding. *)
Theorem C08_reads_in_order : forall (n : nat) (res : nat -> Z) (completion_order : list req),
  Permutation completion_order (map (fun i => mkreq i true (res i)) (seq 0 n)) ->
  (forall i, (i < n)%nat -> 0 <= res i) ->
  exists s, completions fresh completion_order = Some (s, map (fun i => (i, Done (res i))) (seq 0 n))
    /\ outstanding n s = 0%nat.
Proof. exact events_full. Qed.
Print Assumptions C08_reads_in_order.
Example C08_nonvacuous : 
  completions fresh [mkreq 3 true 30; mkreq 1 true 10; mkreq 4 true 0; mkreq 0 true 7; mkreq 2 true 20]
  = Some (mkfs 5 [], [(0%nat, Done 7); (1%nat, Done 10); (2%nat, Done 20); (3%nat, Done 30); (4%nat, Done 0)]).
Proof. reflexivity. Qed.

(** At every moment (after any set of completions, failed ones included) the
    requests notified so far are exactly the first [k] issued, in order, where [k]
    is the first request not completed yet; successful histories deliver each
    request its own result. *)
Theorem C08_prefix_delivered : forall l, NoDup (map rseq l) -> Forall (fun x => rread x = true) l ->
  exists s D k, completions fresh l = Some (s, D) /\ served s = k /\
    map fst D = seq 0 k /\ (forall i, (i < k)%nat -> In i (map rseq l)) /\ ~ In k (map rseq l) /\
    (Forall (fun x => 0 <= rres x) l ->
       forall i note, In (i, note) D -> exists r, In r l /\ rseq r = i /\ note = Done (rres r)).
Proof. exact order_prefix. Qed.
Print Assumptions C08_prefix_delivered.

(** Completions that arrive in issue order: each request of any kind gets its own
    result or its own error. *)
Theorem C08_in_order_errors : forall (n : nat) (res : nat -> Z) (is_read : nat -> bool),
  completions fresh (map (fun i => mkreq i (is_read i) (res i)) (seq 0 n)) =
  Some (mkfs n [], map (fun i => (i, if res i <? 0 then Failed (res i) else Done (res i))) (seq 0 n)).
Proof. intros n res rd. exact (in_order n res rd 0). Qed.
Print Assumptions C08_in_order_errors.

(** Refuted with a failing read out of order: a read that returned 100 bytes is
    reported as failed with another request's error code ... *)
Theorem C08_error_attribution_refuted : exists l s D,
  Permutation (map rseq l) (seq 0 3) /\ Forall (fun x => rread x = true) l /\
  completions fresh l = Some (s, D) /\
  In (mkreq 1 true 100) l /\ In (1%nat, Failed (-5)) D.
Proof.
  exists [mkreq 1 true 100; mkreq 2 true (-5); mkreq 0 true 100]. eexists. eexists.
  split. { cbn. apply Permutation_sym. apply (Permutation_cons_append [1%nat;2%nat] 0%nat). }
  split. { repeat constructor. }
  split. { vm_compute. reflexivity. }
  cbn. auto 10.
Qed.
(** ... and a read that failed is reported to its owner as a success of -5 bytes. *)
Theorem C08_lost_error_refuted : exists l s D,
  Permutation (map rseq l) (seq 0 3) /\ Forall (fun x => rread x = true) l /\
  completions fresh l = Some (s, D) /\
  In (mkreq 1 true (-5)) l /\ In (1%nat, Done (-5)) D.
Proof.
  exists [mkreq 1 true (-5); mkreq 2 true 100; mkreq 0 true 100]. eexists. eexists.
  split. { cbn. apply Permutation_sym. apply (Permutation_cons_append [1%nat;2%nat] 0%nat). }
  split. { repeat constructor. }
  split. { vm_compute. reflexivity. }
  cbn. auto 10.
Qed.
Print Assumptions C08_lost_error_refuted.
Print Assumptions C08_error_attribution_refuted.

(** Refuted when writes are mixed with reads on the same file: a write served out
    of order shifts the counter and a later read is delivered before an earlier. *)
Theorem C08_mixed_write_refuted : exists l s,
  Permutation l [mkreq 0 true 8; mkreq 1 true 8; mkreq 2 false 8] /\
  completions fresh l = Some (s, [(2%nat, Done 8); (1%nat, Done 8); (0%nat, Done 8)]).
Proof.
  exists [mkreq 2 false 8; mkreq 1 true 8; mkreq 0 true 8]. eexists. split.
  - apply Permutation_sym. etransitivity; [apply perm_swap|]. etransitivity; [apply perm_skip, perm_swap|]. apply perm_swap.
  - vm_compute. reflexivity.
Qed.
Print Assumptions C08_mixed_write_refuted.
