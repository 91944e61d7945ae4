(** Model of CstringT<char> as a handle to a shared buffer,
    /repo/src/mg/alxstring.h lines 139-192, 223-261, 346-379, 446-466, over the
    CBuffer model (/repo/src/mg/cbuffer.h).  A history works on named string
    variables.  Simplified: reference counting (CResource_model) only decides when
    memory is released, so a released buffer is just never mentioned again. *)
From Verif Require Import Util.
From Verif Require CBuffer_model.
From Verif Require Import Str_model.
Import CBuffer_model.
Local Open Scope Z_scope.

Definition var := nat.
(** m_str of every variable (None = null handle), and the allocated buffers. *)
Record sstate := mkss { handle : var -> option nat; heap : list cbuf }.
Definition empty_state : sstate := mkss (fun _ => None) [].

Definition upd {A} (f : var -> A) (v : var) (x : A) : var -> A := fun u => if Nat.eqb u v then x else f u.
Fixpoint set_nth {A} (n : nat) (x : A) (l : list A) : list A :=
  match l, n with [], _ => [] | _ :: l', O => x :: l' | y :: l', S n' => y :: set_nth n' x l' end.

Inductive sop :=
| Default (v : var)                (* Cstring v; *)
| Assign (v : var) (t : list Z)    (* v = "t"; *)
| Copy (v w : var)                 (* v = w; *)
| Append (v : var) (t : list Z)    (* v += "t"; *)
| AppendVar (v w : var)            (* v += w; *)
| Clone (v w : var)                (* v = w.clone(); *)
| Plus (v w : var) (t : list Z).   (* v = w + "t"; *)

Inductive sres := SOk (s : sstate) | NullUse | MemoryError.

(** strlen / the C string at m_p; None when no terminator inside the block. *)
Definition read_buf (b : cbuf) : option (list Z) :=
  if existsb (fun x => x =? 0) (mem b) then Some (cstr (mem b)) else None.
(** operator T*() (366-379) read as a C string. *)
Definition read_var (s : sstate) (v : var) : option (list Z) :=
  match handle s v with None => None | Some i => match nth_error (heap s) i with None => None | Some b => read_buf b end end.

(** new CBuffer(size) stored in v *)
Definition alloc (v : var) (b : cbuf) (s : sstate) : sstate :=
  mkss (upd (handle s) v (Some (length (heap s)))) (heap s ++ [b]).
(** 223-261 with sizeof(T) == 1: m_str->add(str, strlen(str)) *)
Definition append (v : var) (t : list Z) (s : sstate) : sres :=
  match handle s v with
  | None => NullUse
  | Some i =>
    match nth_error (heap s) i with
    | None => MemoryError
    | Some b => match add t b with OK b' => SOk (mkss (handle s) (set_nth i b' (heap s))) | _ => MemoryError end
    end
  end.
(** 177-192: a fresh buffer of strlen + 1 characters, then += *)
Definition assign (v : var) (t : list Z) (s : sstate) : sres := append v t (alloc v (create (S (length t))) s).

Definition sstep (o : sop) (s : sstate) : sres :=
  match o with
  | Default v => SOk (alloc v (create 1024) s)                                  (* 139-142 *)
  | Assign v t => assign v t s
  | Copy v w => SOk (mkss (upd (handle s) v (handle s w)) (heap s))             (* 166-175 *)
  | Append v t => append v t s
  | AppendVar v w =>                                                            (* 346-361 *)
    match handle s v, handle s w with
    | Some i, Some j =>
      match nth_error (heap s) j with
      | None => MemoryError
      | Some b =>
        match read_buf b with
        | None => MemoryError
        | Some t =>
          (* the source pointer is read after prepare(): freed if it is the same
             buffer and prepare() enlarged it *)
          if Nat.eqb i j && negb (Nat.eqb (length t) 0) && Nat.leb (length (mem b) - current b) (length t) then MemoryError
          else append v t s
        end
      end
    | _, _ => NullUse
    end
  | Clone v w => match handle s w with None => NullUse | Some _ =>               (* 446-451 *)
      match read_var s w with None => MemoryError | Some t => assign v t s end end
  | Plus v w t => match handle s w with None => NullUse | Some _ =>              (* 452-458 *)
      match read_var s w with None => MemoryError | Some u =>
        match assign v u s with SOk s' => append v t s' | r => r end end end
  end.
Fixpoint srun (l : list sop) (s : sstate) : sres :=
  match l with [] => SOk s | o :: l' => match sstep o s with SOk s' => srun l' s' | r => r end end.

(** * Specification vocabulary *)
(** Value semantics: every variable holds its own text. *)
Definition values := var -> option (list Z).
Definition vstep (o : sop) (e : values) : values :=
  let get w := match e w with Some t => t | None => [] end in
  match o with
  | Default v => upd e v (Some [])
  | Assign v t => upd e v (Some t)
  | Copy v w | Clone v w => upd e v (e w)
  | Append v t => upd e v (Some (get v ++ t))
  | AppendVar v w => upd e v (Some (get v ++ get w))
  | Plus v w t => upd e v (Some (get w ++ t))
  end.
Definition vrun (l : list sop) : values := fold_left (fun e o => vstep o e) l (fun _ => None).

(** Who shares with whom: [shares o g] where g u w says u and w came from one another
    by plain copying and neither was re-assigned since. *)
Definition sharing := var -> var -> bool.
Definition share_step (o : sop) (g : sharing) : sharing :=
  match o with
  | Default v | Assign v _ | Clone v _ | Plus v _ _ =>
      fun a b => if Nat.eqb a v || Nat.eqb b v then Nat.eqb a b else g a b
  | Copy v w => fun a b => g (if Nat.eqb a v then w else a) (if Nat.eqb b v then w else b)
  | _ => g
  end.
(** Legal: variables are created before use and texts contain no NUL.
    [excl]: in addition append targets are shared with nobody. *)
Fixpoint legal_s (excl : bool) (vars : list var) (l : list sop) (declared : list var) (g : sharing) : Prop :=
  match l with
  | [] => True
  | o :: l' =>
    (match o with
     | Default v => In v vars
     | Assign v t => In v vars /\ nonul t
     | Copy v w | Clone v w => In v vars /\ In w declared
     | Append v t => In v declared /\ nonul t /\ (excl = true -> forall u, In u vars -> u <> v -> g u v = false)
     | AppendVar v w => In v declared /\ In w declared /\ v <> w /\ g v w = false
         /\ (excl = true -> forall u, In u vars -> u <> v -> g u v = false)
     | Plus v w t => In v vars /\ In w declared /\ nonul t
     end)
    /\ legal_s excl vars l'
        (match o with Default v | Assign v _ | Copy v _ | Clone v _ | Plus v _ _ => v :: declared | _ => declared end)
        (share_step o g)
  end.
Definition legal_history (excl : bool) (vars : list var) (l : list sop) : Prop := legal_s excl vars l [] Nat.eqb.

(** Reference semantics: an append through v is seen by everything sharing with v. *)
Definition rstep (o : sop) (ge : sharing * values) : sharing * values :=
  let (g, e) := ge in
  let get w := match e w with Some t => t | None => [] end in
  (share_step o g,
   match o with
   | Append v t => fun u => if g u v then Some (get v ++ t) else e u
   | AppendVar v w => fun u => if g u v then Some (get v ++ get w) else e u
   | _ => vstep o e
   end).
Definition rrun (l : list sop) : values := snd (fold_left (fun ge o => rstep o ge) l (Nat.eqb, fun _ => None)).
