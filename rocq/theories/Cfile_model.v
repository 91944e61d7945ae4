(** The position, the size and the end of a file, and what is asked of the system: cfile,
    /repo/src/mg/core/file.h 104-132 and /repo/src/mg/core/file.cpp 352-469.  Requests are carried
    out by other threads: in which order is open; that answers to reads are handed on in the order of
    the requests is C08.  Not modelled: opening and closing, errors of the system, more than 2^64
    bytes in all. *)
From Coq Require Import Permutation.
From Verif Require Import Util.
Local Open Scope Z_scope.

(** _position and _file_stat.st_size: the size when the file was opened, 0 if it was created or
    truncated (file.cpp 196-230) *)
Record handle := mkH { h_pos : Z; h_stat : Z }.
(** what uv_fs_write and uv_fs_read are given *)
Inductive request := Put (pos : Z) (bytes : list Z) | Get (pos n : Z).
(** size file.h 104-110 *)
Definition size (h : handle) : Z := if (h_stat h <=? h_pos h) && (0 <? h_pos h) then h_pos h else h_stat h.
(** eof 117-119 *)
Definition eof (h : handle) : bool := if size h =? 0 then true else size h <=? h_pos h.
(** set_position 115 *)
Definition set_position (h : handle) (pos : Z) : handle := mkH pos (h_stat h).
(** write file.cpp 352-404 *)
Definition write (h : handle) (bytes : list Z) : handle * request := (mkH (h_pos h + zlen bytes) (h_stat h), Put (h_pos h) bytes).
(** read 406-469.  The number of bytes asked for was put into buf (416) before it is made less at 437 *)
Definition read (h : handle) (n : Z) : handle * request :=
  let step := if size h <? h_pos h + n then (size h - h_pos h) mod 2 ^ 32 else n in
  (mkH (h_pos h + step) (h_stat h), Get (h_pos h) n).
(** a row of writes: the handle after it and the requests *)
Fixpoint writes (h : handle) (l : list (list Z)) : handle * list request :=
  match l with [] => (h, []) | b :: l => let '(h, r) := write h b in let '(h, rs) := writes h l in (h, r :: rs) end.
(** a row of reads *)
Fixpoint reads (h : handle) (l : list Z) : handle * list request :=
  match l with [] => (h, []) | n :: l => let '(h, r) := read h n in let '(h, rs) := reads h l in (h, r :: rs) end.

(** * Specification vocabulary *)
(** What the system does.  Writing past the end leaves zeros in between. *)
Definition overwritten (c : list Z) (pos : nat) (bytes : list Z) : list Z :=
  match bytes with [] => c | _ => firstn pos (c ++ repeat 0 (pos - length c)) ++ bytes ++ skipn (pos + length bytes) c end.
(** a request carried out: the file after it *)
Definition done (c : list Z) (r : request) : list Z := match r with Put pos bytes => overwritten c (Z.to_nat pos) bytes | Get _ _ => c end.
(** what a request hands on *)
Definition answer (c : list Z) (r : request) : list Z := match r with Put _ _ => [] | Get pos n => firstn (Z.to_nat n) (skipn (Z.to_nat pos) c) end.
(** requests carried out one after another *)
Definition all_done (c : list Z) (rs : list request) : list Z := fold_left done rs c.
(** nothing written by one is written by the other *)
Definition disjoint (a b : request) : Prop :=
  match a, b with Put p x, Put q y => p + zlen x <= q \/ q + zlen y <= p | _, _ => True end.
(** each with each of the later ones *)
Fixpoint each_pair (P : request -> request -> Prop) (l : list request) : Prop := match l with [] => True | a :: l => Forall (P a) l /\ each_pair P l end.
Definition sum (l : list Z) : Z := fold_right Z.add 0 l.
