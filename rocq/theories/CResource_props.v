(** Property C12: reference-counted handles free their object exactly once. *)
From Coq Require Import ZArith List Bool Arith Lia.
From Verif Require Import CResource_model CResource_proofs.
Import ListNotations.
Local Open Scope Z_scope.

(** Any program over any number of handles without self-assignment: if it respects
    scopes (no use of a variable out of scope) it never touches a freed object, and
    at the end every object created is deleted exactly once if no variable refers to
    it and is alive, with a count equal to the number of variables, otherwise. *)
Theorem C12_handles : forall (l : list op),
  forallb (fun o => negb (self_assign o)) l = true -> run start l <> Illegal ->
  exists s, run start l = OK s /\
   (forall o b, nth_error (objs s) o = Some b ->
     rc b = Z.of_nat (owners s o) /\ deleted b = (if Nat.eqb (owners s o) 0 then 1 else 0)%nat) /\
   (forall i o, nth_error (vars s) i = Some (Ref o) -> exists b, nth_error (objs s) o = Some b /\ deleted b = 0%nat).
Proof.
  intros l HF HL. destruct (run_inv l start start_inv HF) as [H|(s & H & HI)]; [congruence|].
  exists s. split; [exact H|]. split; [exact (proj1 HI)|].
  intros i o E. destruct (closed_var s i o HI E) as [A B].
  destruct (nth_error (objs s) o) as [b|] eqn:Eb; [|apply nth_error_None in Eb; lia].
  exists b. split; [auto|]. destruct (proj1 HI o b Eb) as [_ ->]. destruct (Nat.eqb_spec (cnt_of o (vars s)) 0); [lia|reflexivity].
Qed.
Print Assumptions C12_handles.
Example C12_nonvacuous :
  run start [FromPointer; Copy 0; Default; Assign 2 1; Destroy 0; FromPointer; Assign 1 3; Destroy 2; Destroy 3]
  = OK (mks [mkobj 0 1; mkobj 1 0] [Gone; Ref 1; Gone; Gone]).
Proof. reflexivity. Qed.

(** Self-assignment, exactly: a use after free when the variable is the only owner,
    harmless otherwise. *)
Theorem C12_self_assignment : forall (l : list op) s i o,
  forallb (fun o => negb (self_assign o)) l = true -> run start l = OK s -> nth_error (vars s) i = Some (Ref o) ->
  (owners s o = 1%nat -> do_op s (Assign i i) = UseAfterFree) /\
  (owners s o <> 1%nat -> exists s', do_op s (Assign i i) = OK s' /\ vars s' = vars s /\ objs s' = objs s).
Proof.
  intros l s i o HF HR E. destruct (run_inv l start start_inv HF) as [H|(s' & H & HI)]; [congruence|].
  rewrite HR in H. injection H as <-.
  destruct (self_assign_exact s i o HI E) as [H|(s' & H & Hb & HI' & Hv)].
  - destruct (Nat.eqb_spec (owners s o) 1) as [H1|H1]; split; intros; try congruence. exists s. auto.
  - apply Nat.eqb_neq in Hb. split; intros; [congruence|]. exists s'. split; [auto|]. split; [auto|].
    (* same counts, hence same objects *)
    destruct HI' as [G' _]. destruct HI as [G _]. rewrite Hv in G'.
    assert (HL : length (objs s') = length (objs s)).
    { cbn [do_op] in H. rewrite E in H. cbn [release_var addRef_var] in H.
      unfold release in H. destruct (nth_error (objs s) o); [|discriminate]. destruct (Nat.ltb 0 (deleted o0)); [discriminate|]. cbn [bind] in H.
      unfold addRef in H. destruct (nth_error (upd _ _ _) o); [|discriminate]. destruct (Nat.ltb 0 (deleted o1)); [discriminate|]. cbn [bind] in H.
      injection H as <-. cbn [objs]. rewrite !upd_length. reflexivity. }
    apply nth_ext with (d := mkobj 0 0) (d' := mkobj 0 0); [exact HL|]. intros n Hn.
    destruct (nth_error (objs s') n) as [b'|] eqn:E1; [|apply nth_error_None in E1; lia].
    destruct (nth_error (objs s) n) as [b|] eqn:E2; [|apply nth_error_None in E2; lia].
    rewrite (nth_error_nth _ _ _ E1), (nth_error_nth _ _ _ E2).
    destruct (G' n b' E1) as [A1 A2], (G n b E2) as [B1 B2]. destruct b, b'; cbn in *; congruence.
Qed.
Print Assumptions C12_self_assignment.

Theorem C12_self_assign_refuted : exists l, run start l = UseAfterFree.
Proof. exists [FromPointer; Assign 0 0]. reflexivity. Qed.
Print Assumptions C12_self_assign_refuted.

(** Refuted across threads: two threads dropping their handles at the same time can
    leave the object undeleted although no handle is left. *)
Theorem C12_concurrent_release_refuted : exists sched,
  pc1 (crun sched) = 3%nat /\ pc2 (crun sched) = 3%nat /\ freed (crun sched) = 0%nat.
Proof. exists [true; false; true; false; true; false]. repeat split. Qed.
Print Assumptions C12_concurrent_release_refuted.
(** ... or delete it twice. *)
Theorem C12_double_free_refuted : exists sched,
  pc1 (crun sched) = 3%nat /\ pc2 (crun sched) = 3%nat /\ freed (crun sched) = 2%nat.
Proof. exists [true; true; false; false; true; false]. repeat split. Qed.
Print Assumptions C12_double_free_refuted.
