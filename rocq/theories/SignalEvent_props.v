(** Property C09: waiting on and signalling an event, every interleaving. *)
From Coq Require Import List Bool Arith Lia.
From Verif Require Import SignalEvent_model SignalEvent_proofs.
Import ListNotations.

(** No thread returns from wait() unless the event was set; any number of threads. *)
Theorem C09_no_early_return : forall n m t s,
  exec (init n m) t s -> In WReturned (ws s) -> signed s = true.
Proof. exact no_early_return. Qed.
Print Assumptions C09_no_early_return.

(** Threads that call wait() after the event is set never sleep and, whatever the
    interleaving, all have returned when nothing more can run. *)
Theorem C09_wait_after_signal : forall n m t s,
  exec (init_set n m) t s -> ~ In WSleep (ws s) /\ (stuck s -> Forall (fun w => w = WReturned) (ws s)).
Proof. intros n m t s H. split; [exact (exec_no_sleep n m t s H)|exact (set_before n m t s H)]. Qed.
Print Assumptions C09_wait_after_signal.

(** A single thread already asleep when the signals start is released. *)
Theorem C09_sleeper_released : forall m t s, (0 < m)%nat ->
  exec (init_asleep m) t s -> stuck s -> ws s = [WReturned].
Proof. exact asleep_first. Qed.
Print Assumptions C09_sleeper_released.

(** Exact characterisation for one waiter and one signaller: in every complete
    execution the waiter sleeps forever exactly when the condition variable was
    signalled between its test of the flag and its going to sleep. *)
Theorem C09_lost_wakeup_iff : forall t s, exec (init 1 1) t s -> stuck s ->
  (ws s = [WReturned] /\ ~ lost t) \/ (ws s = [WSleep] /\ lost t).
Proof. exact all_runs_ok. Qed.
Print Assumptions C09_lost_wakeup_iff.

(** Such an execution exists: the event is set, signal() has returned, the waiter sleeps forever. *)
Theorem C09_lost_wakeup_refuted : exists t s,
  exec (init 1 1) t s /\ stuck s /\ signed s = true /\ ss s = [SReturned] /\ ws s = [WSleep].
Proof.
  exists [LTest 0 false; LSTest 0; LStore 0; LSignal 0; LLock 0; LEnter 0], (mk true false [WSleep] [SReturned]).
  repeat split.
  - eapply exec_cons; [apply next1_sound; cbn; auto|].
    eapply exec_cons; [apply next1_sound; cbn; auto|].
    eapply exec_cons; [apply next1_sound; cbn; auto|].
    eapply exec_cons; [apply next1_sound; cbn; auto|].
    eapply exec_cons; [apply next1_sound; cbn; auto|].
    eapply exec_cons; [apply next1_sound; cbn; auto|].
    apply exec_nil.
  - intros l s' H. apply next1_complete in H; [|exists WSleep, SReturned; split; reflexivity]. destruct H as [[] _].
Qed.
Print Assumptions C09_lost_wakeup_refuted.

(** Two threads asleep: one signal() releases one of them, every later signal()
    returns without effect, and the other thread sleeps forever. *)
Theorem C09_second_waiter_refuted : exists t s,
  exec (mk false false [WSleep; WSleep] [STest; STest]) t s /\ stuck s /\
  ss s = [SReturned; SReturned] /\ ws s = [WReturned; WSleep].
Proof.
  exists [LSTest 0; LStore 0; LSignal 0; LRelock 0; LUnlock 0; LSTest 1], (mk true false [WReturned; WSleep] [SReturned; SReturned]).
  repeat split.
  - eapply exec_cons; [match goal with |- step ?s _ _ => exact (step_stest s 0 eq_refl) end|].
    eapply exec_cons; [match goal with |- step ?s _ _ => exact (step_store s 0 eq_refl) end|].
    eapply exec_cons; [match goal with |- step ?s _ _ => exact (step_signal s 0 0 eq_refl eq_refl) end|].
    eapply exec_cons; [match goal with |- step ?s _ _ => exact (step_relock s 0 eq_refl eq_refl) end|].
    eapply exec_cons; [match goal with |- step ?s _ _ => exact (step_unlock s 0 eq_refl) end|].
    eapply exec_cons; [match goal with |- step ?s _ _ => exact (step_stest s 1 eq_refl) end|].
    apply exec_nil.
  - intros l s' H. inversion H; subst; cbn [ws ss] in *;
    repeat match goal with H : nth_error _ ?i = Some _ |- _ => destruct i as [|[|[|]]]; cbn in H; try discriminate end.
Qed.
Print Assumptions C09_second_waiter_refuted.
Example C09_nonvacuous : exists t s, exec (init_asleep 1) t s /\ ws s = [WReturned].
Proof.
  exists [LSTest 0; LStore 0; LSignal 0; LRelock 0; LUnlock 0], (mk true false [WReturned] [SReturned]). split; [|reflexivity].
  do 5 (eapply exec_cons; [apply next1_sound; cbn; auto|]). apply exec_nil.
Qed.
