(** Model of the asynchronous file completion handler,
    /repo/src/mg/core/file.cpp lines 29-162 (cfile::uv_file_cb) and
    /repo/src/mg/core/file.h lines 41-56, 84-99 (struct_file_cb, do_outstanding). *)
From Coq Require Import ZArith List Bool.
Import ListNotations.
Local Open Scope Z_scope.

(** file.h 41-56: struct_file_cb with its uv_fs_t.  Simplified: [rread] is
    fs_type == UV_FS_READ; [rres] is uv_fs_t::result (bytes read, or a negative
    error); sequence numbers do not wrap (fewer than 2^32 requests per file). *)
Record req := mkreq { rseq : nat; rread : bool; rres : Z }.

(** file.h 75, 85: _unordered_buffer and _served. *)
Record fstate := mkfs { served : nat; fwd : list req }.

(** What the owner of a request sees: file.cpp 137-151, call_er or call_cb. *)
Inductive note := Failed (code : Z) | Done (result : Z).
Notation event := (nat * note)%type (only parsing).

(** file.cpp 65-69: scan of the forward list for an entry not beyond _served. *)
Fixpoint scan (k : nat) (l : list req) : option req :=
  match l with
  | [] => None
  | x :: l' => if Nat.ltb k (rseq x) then scan k l' else Some x
  end.

(** file.cpp 92: forward_list::remove of that pointer (requests are identified
    by their sequence number). *)
Definition remove_req (t : req) (l : list req) : list req :=
  filter (fun x => negb (Nat.eqb (rseq x) (rseq t))) l.

(** file.cpp 52-96: reordering of an out-of-order read.  [None] = return (line 84). *)
Definition select (s : fstate) (r : req) : option (req * list req) :=
  if Nat.ltb (served s) (rseq r) && rread r then
    match scan (served s) (r :: fwd s) with
    | None => None
    | Some t => Some (t, remove_req t (r :: fwd s))
    end
  else Some (r, fwd s).

(** file.cpp 29-162.  The error test (line 137) looks at the request that just
    arrived, the callback is called on the selected one.  [fuel] bounds the
    recursion of line 158; [None] = out of fuel (shown never to happen). *)
Fixpoint uv_file_cb (fuel : nat) (s : fstate) (r : req) : option (fstate * list event) :=
  match fuel with
  | O => None
  | S fuel' =>
    match select s r with
    | None => Some (mkfs (served s) (r :: fwd s), [])
    | Some (t, l) =>
      let ev := (rseq t, if rres r <? 0 then Failed (rres r) else Done (rres t)) in
      match l with
      | [] => Some (mkfs (S (served s)) [], [ev])
      | h :: l' =>
        match uv_file_cb fuel' (mkfs (S (served s)) l') h with
        | None => None
        | Some (s', evs) => Some (s', ev :: evs)
        end
      end
    end
  end.

(** One completion, with enough fuel for every pending request. *)
Definition complete (s : fstate) (r : req) : option (fstate * list event) :=
  uv_file_cb (2 + length (fwd s)) s r.

(** A history of completions, in the order the I/O layer reports them. *)
Fixpoint completions (s : fstate) (l : list req) : option (fstate * list event) :=
  match l with
  | [] => Some (s, [])
  | r :: l' =>
    match complete s r with
    | None => None
    | Some (s1, e1) =>
      match completions s1 l' with
      | None => None
      | Some (s2, e2) => Some (s2, e1 ++ e2)
      end
    end
  end.

(** file.cpp 170: a fresh cfile. *)
Definition fresh : fstate := mkfs 0 [].
(** file.h 134: outstanding(). *)
Definition outstanding (issued : nat) (s : fstate) : nat := issued - served s.
