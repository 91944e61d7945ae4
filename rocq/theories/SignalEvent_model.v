(** Model of the event object, /repo/src/mg/core/thread.cpp lines 88-125
    (signal_event::signal, signal_event::wait()), for any number of threads
    calling wait() and any number calling signal(), as a labelled transition
    system: one label per atomic access.
    Simplified: no reset() runs concurrently, no spurious wake-up of the condition
    variable, the timed wait (127-151) is not modelled. *)
From Coq Require Import List Bool Arith.
Import ListNotations.

(** Program points of wait(): line 117 test; 120 lock; 121 entering
    uv_cond_wait (atomically enqueues and releases the mutex); sleeping; woken and
    re-acquiring the mutex; 122 unlock; returned. *)
Inductive wpc := WTest | WLock | WEnter | WSleep | WWoken | WUnlock | WReturned.
(** Program points of signal(): line 101 test; 104 store; 106 uv_cond_signal; returned. *)
Inductive spc := STest | SStore | SSignal | SReturned.

Record state := mk { signed : bool; locked : bool; ws : list wpc; ss : list spc }.

Inductive label :=
| LTest (i : nat) (seen : bool) | LLock (i : nat) | LEnter (i : nat) | LRelock (i : nat) | LUnlock (i : nat)
| LSTest (j : nat) | LStore (j : nat) | LSignal (j : nat).

Fixpoint upd {A} (i : nat) (x : A) (l : list A) : list A :=
  match l, i with
  | [], _ => []
  | _ :: l', O => x :: l'
  | y :: l', S i' => y :: upd i' x l'
  end.

Inductive step : state -> label -> state -> Prop :=
(** thread.cpp 117-118 *)
| step_test s i : nth_error (ws s) i = Some WTest ->
    step s (LTest i (signed s)) (mk (signed s) (locked s) (upd i (if signed s then WReturned else WLock) (ws s)) (ss s))
(** thread.cpp 120 *)
| step_lock s i : nth_error (ws s) i = Some WLock -> locked s = false ->
    step s (LLock i) (mk (signed s) true (upd i WEnter (ws s)) (ss s))
(** thread.cpp 121, entry of uv_cond_wait *)
| step_enter s i : nth_error (ws s) i = Some WEnter ->
    step s (LEnter i) (mk (signed s) false (upd i WSleep (ws s)) (ss s))
(** thread.cpp 121, exit of uv_cond_wait *)
| step_relock s i : nth_error (ws s) i = Some WWoken -> locked s = false ->
    step s (LRelock i) (mk (signed s) true (upd i WUnlock (ws s)) (ss s))
(** thread.cpp 122 *)
| step_unlock s i : nth_error (ws s) i = Some WUnlock ->
    step s (LUnlock i) (mk (signed s) false (upd i WReturned (ws s)) (ss s))
(** thread.cpp 101-102 *)
| step_stest s j : nth_error (ss s) j = Some STest ->
    step s (LSTest j) (mk (signed s) (locked s) (ws s) (upd j (if signed s then SReturned else SStore) (ss s)))
(** thread.cpp 104 *)
| step_store s j : nth_error (ss s) j = Some SStore ->
    step s (LStore j) (mk true (locked s) (ws s) (upd j SSignal (ss s)))
(** thread.cpp 106: wakes one sleeping thread ... *)
| step_signal s j i : nth_error (ss s) j = Some SSignal -> nth_error (ws s) i = Some WSleep ->
    step s (LSignal j) (mk (signed s) (locked s) (upd i WWoken (ws s)) (upd j SReturned (ss s)))
(** ... or none when nobody sleeps *)
| step_signal_none s j : nth_error (ss s) j = Some SSignal -> ~ In WSleep (ws s) ->
    step s (LSignal j) (mk (signed s) (locked s) (ws s) (upd j SReturned (ss s))).

Inductive exec : state -> list label -> state -> Prop :=
| exec_nil s : exec s [] s
| exec_cons s l s1 t s2 : step s l s1 -> exec s1 t s2 -> exec s (l :: t) s2.

Definition stuck (s : state) : Prop := forall l s', ~ step s l s'.

(** [n] threads about to call wait(), [m] about to call signal(), event not set
    (thread.cpp 88: constructor). *)
Definition init (n m : nat) : state := mk false false (repeat WTest n) (repeat STest m).
(** [n] threads about to wait on an event that is already set. *)
Definition init_set (n m : nat) : state := mk true false (repeat WTest n) (repeat STest m).
(** One thread already asleep in wait(), [m] about to call signal(). *)
Definition init_asleep (m : nat) : state := mk false false [WSleep] (repeat STest m).

(** Specification vocabulary (not code). *)
(** [lost t]: the waiter read "not set" and entered uv_cond_wait only after the
    signaller's uv_cond_signal. *)
Definition lost (t : list label) : Prop :=
  exists a b c d, t = a ++ LTest 0 false :: b ++ LSignal 0 :: c ++ LEnter 0 :: d.

