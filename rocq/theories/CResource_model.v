(** Model of CResource / CInternalResource, /repo/src/mg/cresource.h lines 44-262:
    handles (variables of type CResource) pointing to counted objects.
    Simplified: the count does not overflow; destructors of the managed object do
    not use handles; everything runs in one thread (the two-thread case is [crun]
    below). *)
From Coq Require Import ZArith List Bool Arith.
Import ListNotations.
Local Open Scope Z_scope.

(** One CInternalResource: its count and how many times it was deleted. *)
Record obj := mkobj { rc : Z; deleted : nat }.
(** A variable: not (any longer) in scope, or in scope holding NULL or an object. *)
Inductive var := Gone | Null | Ref (o : nat).
Record state := mks { objs : list obj; vars : list var }.

Inductive outcome (A : Type) := OK (a : A) | UseAfterFree | Illegal.
Arguments OK {A} _. Arguments UseAfterFree {A}. Arguments Illegal {A}.
Definition bind {A B} (x : outcome A) (f : A -> outcome B) : outcome B :=
  match x with OK a => f a | UseAfterFree => UseAfterFree | Illegal => Illegal end.

Fixpoint upd {A} (i : nat) (x : A) (l : list A) : list A :=
  match l, i with
  | [], _ => []
  | _ :: l', O => x :: l'
  | y :: l', S i' => y :: upd i' x l'
  end.

(** cresource.h 77-87: release(); touching a deleted object is a use after free. *)
Definition release (o : nat) (l : list obj) : outcome (list obj) :=
  match nth_error l o with
  | None => Illegal
  | Some b => if Nat.ltb 0 (deleted b) then UseAfterFree else
      OK (upd o (mkobj (rc b - 1) (if rc b - 1 =? 0 then 1%nat else 0%nat)) l)
  end.
(** cresource.h 89-92: addRef(). *)
Definition addRef (o : nat) (l : list obj) : outcome (list obj) :=
  match nth_error l o with
  | None => Illegal
  | Some b => if Nat.ltb 0 (deleted b) then UseAfterFree else OK (upd o (mkobj (rc b + 1) 0) l)
  end.
Definition release_var (v : var) l := match v with Ref o => release o l | _ => OK l end.
Definition addRef_var (v : var) l := match v with Ref o => addRef o l | _ => OK l end.

Inductive op :=
| Default          (* CResource()            114-116 : a new variable holding NULL *)
| FromPointer      (* CResource(Type* )      163-166 : a new variable owning a new object *)
| Copy (i : nat)   (* CResource(const &)     136-140 : a new variable copying variable i *)
| Create (i : nat) (* Create()               236-247 : i must be NULL *)
| Assign (i j : nat) (* i = j                121-132 *)
| Destroy (i : nat)  (* ~CResource()         168-171 : i leaves scope *).

Definition do_op (s : state) (o : op) : outcome state :=
  match o with
  | Default => OK (mks (objs s) (vars s ++ [Null]))
  | FromPointer => OK (mks (objs s ++ [mkobj 1 0]) (vars s ++ [Ref (length (objs s))]))
  | Copy i =>
    match nth_error (vars s) i with
    | None | Some Gone => Illegal
    | Some v => bind (addRef_var v (objs s)) (fun h => OK (mks h (vars s ++ [v])))
    end
  | Create i =>
    match nth_error (vars s) i with
    | Some Null => OK (mks (objs s ++ [mkobj 1 0]) (upd i (Ref (length (objs s))) (vars s)))
    | _ => Illegal
    end
  | Assign i j =>
    match nth_error (vars s) i, nth_error (vars s) j with
    | None, _ | _, None | Some Gone, _ | _, Some Gone => Illegal
    | Some vi, Some vj =>
      bind (release_var vi (objs s)) (fun h =>
      bind (addRef_var vj h) (fun h2 => OK (mks h2 (upd i vj (vars s)))))
    end
  | Destroy i =>
    match nth_error (vars s) i with
    | None | Some Gone => Illegal
    | Some v => bind (release_var v (objs s)) (fun h => OK (mks h (upd i Gone (vars s))))
    end
  end.

Fixpoint run (s : state) (l : list op) : outcome state :=
  match l with [] => OK s | o :: l' => bind (do_op s o) (fun s' => run s' l') end.
Definition start : state := mks [] [].

(** Specification vocabulary: how many variables in scope refer to object [o]. *)
Definition refers (o : nat) (v : var) : bool := match v with Ref p => Nat.eqb p o | _ => false end.
Definition owners (s : state) (o : nat) : nat := length (filter (refers o) (vars s)).

(** Two threads, each destroying its own handle on a shared object at the same
    time.  m_iRefCnt is a plain long (line 51): line 79 is a load and a store, line 80
    another load.  Thread program points: 0 load, 1 store, 2 test, 3 done. *)
Record cstate := mkc { cnt : Z; freed : nat; pc1 : nat; pc2 : nat; reg1 : Z; reg2 : Z }.
Definition cstep (first : bool) (s : cstate) : cstate :=
  match first with
  | true => match pc1 s with
    | 0%nat => mkc (cnt s) (freed s) 1 (pc2 s) (cnt s) (reg2 s)
    | 1%nat => mkc (reg1 s - 1) (freed s) 2 (pc2 s) (reg1 s) (reg2 s)
    | 2%nat => mkc (cnt s) (if cnt s =? 0 then S (freed s) else freed s) 3 (pc2 s) (reg1 s) (reg2 s)
    | _ => s end
  | false => match pc2 s with
    | 0%nat => mkc (cnt s) (freed s) (pc1 s) 1 (reg1 s) (cnt s)
    | 1%nat => mkc (reg2 s - 1) (freed s) (pc1 s) 2 (reg1 s) (reg2 s)
    | 2%nat => mkc (cnt s) (if cnt s =? 0 then S (freed s) else freed s) (pc1 s) 3 (reg1 s) (reg2 s)
    | _ => s end
  end.
Definition crun (sched : list bool) : cstate := fold_left (fun s b => cstep b s) sched (mkc 2 0 0 0 0 0).

(** Specification vocabulary: x = x. *)
Definition self_assign (o : op) : bool := match o with Assign i j => Nat.eqb i j | _ => false end.
