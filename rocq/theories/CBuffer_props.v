(** Property C11: growing a byte buffer preserves its content. *)
From Coq Require Import ZArith List Bool Arith Lia.
From Verif Require Import CBuffer_model CBuffer_proofs.
Import ListNotations.

(** Every history of append / prepare+direct write / reset / back operations on a
    buffer of any positive initial size: growth terminates, no access falls outside
    the block, the committed size stays inside the capacity and the bytes read are
    those of the list specification. *)
Theorem C11_buffer_history : forall (l : list op) (size : nat), 0 < size -> legal_run l [] ->
  exists b, run l (create size) = OK b /\ current b <= length (mem b)
    /\ firstn (current b) (mem b) = spec_run l [].
Proof. exact run_create. Qed.
Print Assumptions C11_buffer_history.

(** In particular appending gives the concatenation of everything appended. *)
Theorem C11_append_concat : forall (ds : list (list Z)) (size : nat), 0 < size ->
  exists b, run (map Add ds) (create size) = OK b /\ current b <= length (mem b)
    /\ firstn (current b) (mem b) = concat ds.
Proof.
  intros ds size H. destruct (run_create (map Add ds) size H (adds_legal ds [])) as (b & E & L & C).
  exists b. rewrite C, adds_concat. auto.
Qed.
Print Assumptions C11_append_concat.

(** prepare(n) really reserves more than n free bytes and keeps the content. *)
Theorem C11_prepare : forall (l : list op) (size n : nat) b, 0 < size -> legal_run l [] -> run l (create size) = OK b ->
  exists b', prepare FUEL n b = Some b' /\ firstn (current b') (mem b') = spec_run l [] /\ n < length (mem b') - current b'.
Proof.
  intros l size n b Hs HL HR. destruct (run_ok l (create size)) as (b0 & E & W & C).
  - unfold WF, create. cbn. rewrite repeat_length. lia.
  - exact HL.
  - rewrite HR in E. injection E as <-. destruct (prepare_ok n b W) as (b' & E' & _ & C' & F & _).
    exists b'. split; [auto|]. split; [|auto]. unfold content in *. rewrite C', C. reflexivity.
Qed.
Print Assumptions C11_prepare.
Example C11_nonvacuous : exists b,
  run [Add [1;2;3]; Add [4;5;6;7;8;9]; Direct 4 [10;11]; Back 3 true; Add [12]]%Z (create 2) = OK b
  /\ firstn (current b) (mem b) = [1;2;3;4;5;6;7;8;12]%Z.
Proof. eexists. split; vm_compute; reflexivity. Qed.

(** Refuted: appending a buffer to itself can read freed memory. *)
Theorem C11_self_append_refuted : exists l b, run l (create 4) = OK b /\ self_append_reads_freed b = true.
Proof. exists [Add [1;2;3]%Z]. eexists. split; vm_compute; reflexivity. Qed.
Print Assumptions C11_self_append_refuted.
