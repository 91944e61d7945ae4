(** Model of CPromise, /repo/src/mg/promises.h lines 31-150.  A promise and the
    promises obtained by forward() form a chain, modelled as a list of nodes.
    Each public call runs under the promise's recursive lock (lines 65, 89, 108,
    123, 136; thread.cpp 56-79), so a concurrent history is a sequence of calls.
    Simplified: continuations do not call back into the same promise. *)
From Coq Require Import ZArith List Bool Arith.
Import ListNotations.
Local Open Scope Z_scope.

(** A continuation: identity, and the exception it throws for a value, if any. *)
Record cont := mkcont { cid : nat; throws : Z -> option Z }.
(** An error handler: identity, and whether it throws (Some y), for an exception, or
    returns process_further (line 97). *)
Record handler := mkhandler { hid : nat; reacts : Z -> Z + bool }.
(** promises.h 53-61: the default handler rethrows. *)
Definition rethrow : handler := mkhandler 0 (fun x => inl x).

(** promises.h 34-44: _cb, _er, _value, _eptr. *)
Record node := mknode { cb : option cont; er : option handler; value : option Z; eptr : option Z }.
Definition new_node : node := mknode None None None None.

(** Observable calls: position in the chain, identity of the function, argument. *)
Inductive event := Called (depth : nat) (id : nat) (v : Z) | Handled (depth : nat) (id : nat) (x : Z).

(** promises.h 87-104.  Result: chain, calls made, exception escaping to the caller. *)
Fixpoint call_er (d : nat) (l : list node) (x : Z) : list node * list event * option Z :=
  match l with
  | [] => ([], [], None)
  | n :: rest =>
    match er n with
    | None => (mknode (cb n) None (value n) (Some x) :: rest, [], None)
    | Some h =>
      match reacts h x with
      | inl y => (n :: rest, [Handled d (hid h) x], Some y)
      | inr false => (n :: rest, [Handled d (hid h) x], None)
      | inr true => let '(rest', ev, e) := call_er (S d) rest x in (n :: rest', Handled d (hid h) x :: ev, e)
      end
    end
  end.

(** promises.h 63-85. *)
Fixpoint call_cb (d : nat) (l : list node) (v : Z) : list node * list event * option Z :=
  match l with
  | [] => ([], [], None)
  | n :: rest =>
    match cb n with
    | None => (mknode None (er n) (Some v) (eptr n) :: rest, [], None)
    | Some c =>
      match throws c v with
      | Some x => let '(l', ev, e) := call_er d (n :: rest) x in (l', Called d (cid c) v :: ev, e)
      | None =>
        let '(rest', ev, e) := call_cb (S d) rest v in
        match e with
        | None => (n :: rest', Called d (cid c) v :: ev, None)
        | Some x => let '(l', ev', e') := call_er d (n :: rest') x in (l', Called d (cid c) v :: ev ++ ev', e')
        end
      end
    end
  end.

(** promises.h 121-133. *)
Definition set_cb (d : nat) (l : list node) (c : cont) : list node * list event * option Z :=
  match l with
  | [] => ([], [], None)
  | n :: rest =>
    let n' := mknode (Some c) (er n) (value n) (eptr n) in
    match value n with
    | Some v => call_cb d (n' :: rest) v
    | None => (n' :: rest, [], None)
    end
  end.
(** promises.h 134-146. *)
Definition set_er (d : nat) (l : list node) (h : handler) : list node * list event * option Z :=
  match l with
  | [] => ([], [], None)
  | n :: rest =>
    let n' := mknode (cb n) (Some h) (value n) (eptr n) in
    match eptr n with
    | Some x => call_er d (n' :: rest) x
    | None => (n' :: rest, [], None)
    end
  end.
(** promises.h 106-117, forward(false): creates the next promise if missing. *)
Definition forward (l : list node) : list node :=
  match l with [n] => [n; new_node] | _ => l end.

(** The public calls on the promise at a given depth of the chain. *)
Inductive call := SetCb (c : cont) | SetEr (h : handler) | CallCb (v : Z) | CallEr (x : Z) | Forward.
Definition do_call (d : nat) (l : list node) (k : call) : list node * list event * option Z :=
  match k with
  | SetCb c => set_cb d l c
  | SetEr h => set_er d l h
  | CallCb v => call_cb d l v
  | CallEr x => call_er d l x
  | Forward => (forward l, [], None)
  end.
(** The call addressed to the promise at depth [i]: the part of the chain before it
    is untouched. *)
Definition at_depth (l : list node) (i : nat) (k : call) : list node * list event :=
  let '(l', ev, _) := do_call i (skipn i l) k in (firstn i l ++ l', ev).
(** A history of calls; exceptions that escape go to the caller of that call. *)
Fixpoint history (l : list node) (h : list (nat * call)) : list node * list event :=
  match h with
  | [] => (l, [])
  | (i, k) :: h' => let '(l1, e1) := at_depth l i k in let '(l2, e2) := history l1 h' in (l2, e1 ++ e2)
  end.

(** Specification vocabulary (not code). *)
(** calls made to the continuation of the promise at depth 0 *)
Definition head_calls (ev : list event) : list (nat * Z) :=
  flat_map (fun e => match e with Called 0 i v => [(i, v)] | _ => [] end) ev.
Definition is_set0 (x : nat * call) := match x with (O, SetCb _) => true | _ => false end.
Definition is_call0 (x : nat * call) := match x with (O, CallCb _) => true | _ => false end.

(** a history without set-callback or resolve on the promise itself *)
Definition quiet (h : list (nat * call)) : Prop := forallb (fun x => negb (is_set0 x) && negb (is_call0 x)) h = true.
