(** Model of the queue on a fixed memory block, /repo/src/mg/media/fixed_queue.h
    lines 38-508, and of the growing queue, /repo/src/mg/media/media_queue.h 81-194.
    The block is byte-addressed memory: queue header and item headers live in it, at
    the offsets the structs have (6 and 3 ints).  int is 32-bit two's complement.
    Each public operation runs under the queue's (recursive) lock, so operations are
    atomic.  The item type T is any block of tsz bytes. *)
From Verif Require Import Util Bits_spec.
Local Open Scope Z_scope.

(** * Memory *)
Definition memory := Z -> Z.
Definition rd (m : memory) (a : Z) (n : nat) : list Z := map m (zseq a n).
Definition wr (m : memory) (a : Z) (l : list Z) : memory :=
  fun x => if (a <=? x) && (x <? a + zlen l) then nth (Z.to_nat (x - a)) l 0 else m x.
Definition int_of (v : Z) : Z := let u := v mod 2 ^ 32 in if u <? 2 ^ 31 then u else u - 2 ^ 32.
Definition get_int (m : memory) (a : Z) : Z := int_of (le_val (rd m a 4)).
Definition set_int (m : memory) (a v : Z) : memory := wr m a (le_bytes (v mod 2 ^ 32) 4).

Definition INT_MAX := 2 ^ 31 - 1.
Definition INT_MIN := - 2 ^ 31.
Definition HDR := 24.                                     (* 79-82: sizeof(queue_header) *)

(** struct queue_header, 57-65 *)
Definition full_size m := get_int m 4.
Definition start_offset m := get_int m 8.
Definition end_offset m := get_int m 12.
Definition written m := get_int m 16.
Definition deleted m := get_int m 20.
(** struct queue_item_header, 67-72 *)
Definition body_size m off := get_int m (off + 4).
Definition next_item m off := get_int m (off + 8).

Section Queue.
Variable tsz : nat.                                       (* sizeof(T) *)
Definition IH : Z := 12 + Z.of_nat tsz.                   (* 91-94 *)
Definition item_full_size m off := IH + body_size m off.  (* 96-99 *)

(** 101-110 on a fresh block with arbitrary content m0 *)
Definition init (m0 : memory) (size : Z) : memory :=
  set_int (set_int (set_int (set_int (set_int (set_int m0 0 0x100) 4 size) 8 INT_MAX) 12 INT_MAX) 16 0) 20 0.

Definition size m := written m - deleted m.               (* 487-495 *)
(** 112-132 *)
Definition head_space m : Z :=
  if written m =? deleted m then full_size m - HDR
  else if end_offset m <? start_offset m then 0 else start_offset m - HDR.
(** 134-169 *)
Definition tail_space m : Z :=
  if written m =? deleted m then 0
  else full_size m - item_full_size m (end_offset m) - end_offset m
       - (if end_offset m <? start_offset m then full_size m - start_offset m else 0).
(** 179-202 *)
Definition delete_direct m : memory :=
  let m1 := set_int m 20 (deleted m + 1) in
  if size m1 =? 0 then m1 else set_int m1 8 (next_item m (start_offset m)).

Definition fits m space : bool := negb ((tail_space m <? space) && (head_space m <? space)).

Inductive result := Pushed (m : memory) | Refused (m : memory) | OutOfBlock.

(** 324-359 with the base class no_space() (171-176), which does nothing: delete
    items while there is no room, or leave at once (346-351). *)
Fixpoint make_room (fuel : nat) (del : bool) (space : Z) (m : memory) : memory :=
  match fuel with
  | O => m
  | S f => if fits m space || (size m =? 0) then m
           else if del then make_room f del space (delete_direct m) else m
  end.

(** 361-403 once no_space() cannot help, then 405-484.  [cap] is the size of the
    allocated block. *)
Definition place (cap : Z) (t data : list Z) (space : Z) (m : memory) : result :=
  if fits m space then
    let tail := space <=? tail_space m in
    let offset := if tail && negb (size m =? 0) then end_offset m + item_full_size m (end_offset m) else HDR in
    let item := le_bytes 0x200 4 ++ le_bytes (zlen data) 4 ++ le_bytes (INT_MIN mod 2 ^ 32) 4 ++ t ++ data in
    if (0 <=? offset) && (offset + zlen item <=? cap) then
      let m1 := wr m offset item in
      let m2 := if size m =? 0 then set_int m1 8 offset else set_int m1 (end_offset m + 8) offset in
      let m3 := set_int (set_int m2 12 offset) 16 (written m + 1) in
      Pushed (if INT_MAX - 10 <? written m3 then set_int (set_int m3 16 (written m3 - deleted m3)) 20 0 else m3)
    else OutOfBlock
  else Refused m.

(** 300-485; 318: int + unsigned int converted back to int *)
Definition push (cap : Z) (del : bool) (t data : list Z) (m : memory) : result :=
  let space := int_of (IH + zlen data) in
  place cap t data space (make_room (Z.to_nat (size m)) del space m).

(** 259-298: the item at the front; pop also removes it when the caller's buffer is
    long enough. *)
Definition pick_t m : list Z := rd m (start_offset m + 12) tsz.
Definition pick_data m : list Z := rd m (start_offset m + IH) (Z.to_nat (body_size m (start_offset m))).
(** [None] = called on an empty queue (assertion of 261). *)
Definition pop (room : Z) (m : memory) : option (list Z * Z * option (list Z) * memory) :=
  if size m =? 0 then None else
  let n := body_size m (start_offset m) in
  Some (pick_t m, n, if n <=? room then Some (pick_data m) else None, if n <=? room then delete_direct m else m).

(** 500-507 *)
Definition clear m : memory := set_int m 20 (written m).

(** * media_queue.h: the growing queue *)
(** 154-165: move every item to the fresh block *)
Fixpoint move_items (fuel : nat) (cap : Z) (old new : memory) : option memory :=
  if size old =? 0 then Some new else
  match fuel with
  | O => None
  | S f => match push cap false (pick_t old) (pick_data old) new with
           | Pushed new' => move_items f cap (delete_direct old) new'
           | _ => None
           end
  end.
(** 100-173 when the doubled block can be allocated ([fresh] its content); beyond
    INT_MAX bytes the allocation fails and the queue throws (simplified: the second
    attempt with 3000000 bytes more, 124, is taken as failed too). *)
Definition grow (fresh : memory) (m : memory) : option (Z * memory) :=
  let c := 2 * full_size m in
  if INT_MAX <=? c then None else
  match move_items (Z.to_nat (size m)) c m (init fresh c) with
  | Some m' => Some (c, m')
  | None => None
  end.
Inductive gresult := GPushed (cap : Z) (m : memory) | GFail.
(** fixed_queue.h 324-400 with grow_queue's no_space(): double until it fits. *)
Fixpoint gpush_loop (fuel : nat) (fresh : memory) (t data : list Z) (cap : Z) (m : memory) : gresult :=
  let space := int_of (IH + zlen data) in
  if fits m space then match place cap t data space m with Pushed m' => GPushed cap m' | _ => GFail end
  else match fuel with
       | O => GFail
       | S f => match grow fresh m with Some (cap', m') => gpush_loop f fresh t data cap' m' | None => GFail end
       end.
Definition gpush := gpush_loop 32.
End Queue.

(** * Specification vocabulary *)
(** a queue item: the T value's bytes and the data bytes *)
Definition item := (list Z * list Z)%type.
Definition item_ok (tsz : nat) (it : item) : Prop :=
  length (fst it) = tsz /\ bytes (fst it) /\ bytes (snd it) /\ zlen (snd it) + 12 + Z.of_nat tsz < 2 ^ 31.
(** memory an item takes *)
Definition item_space (it : item) : Z := 12 + zlen (fst it) + zlen (snd it).

Inductive qop := Push (it : item) | Pop (room : Z) | Clear.
Inductive qevent := EPushed | ERefused | EEmpty | EPopped (t : list Z) (n : Z) (data : option (list Z)) | ECleared.

(** The fixed queue from the user's side: push, pop when size() is not 0, clear.
    [None] = a write outside the block. *)
Definition step (tsz : nat) (cap : Z) (del : bool) (o : qop) (m : memory) : option (qevent * memory) :=
  match o with
  | Push it => match push tsz cap del (fst it) (snd it) m with
               | Pushed m' => Some (EPushed, m') | Refused m' => Some (ERefused, m') | OutOfBlock => None end
  | Pop room => match pop tsz room m with Some (t, n, d, m') => Some (EPopped t n d, m') | None => Some (EEmpty, m) end
  | Clear => Some (ECleared, clear m)
  end.
Fixpoint run (tsz : nat) (cap : Z) (del : bool) (l : list qop) (m : memory) : option (list qevent * memory) :=
  match l with
  | [] => Some ([], m)
  | o :: l' => match step tsz cap del o m with
               | Some (e, m') => match run tsz cap del l' m' with Some (es, m'') => Some (e :: es, m'') | None => None end
               | None => None end
  end.
(** The abstract queue: which transitions a FIFO may make. *)
Definition fifo (cap : Z) (del : bool) (o : qop) (q : list item) (e : qevent) (q' : list item) : Prop :=
  match o with
  | Push it =>
      (* accepted: appended at the end; oldest items go only with drop-on-full *)
      (e = EPushed /\ exists k, q' = skipn k q ++ [it] /\ (k <= length q)%nat /\ (del = false -> k = 0%nat)) \/
      (* refused: without drop-on-full nothing changes; with it only an item that fits
         no empty block is refused (and everything was dropped) *)
      (e = ERefused /\ (if del then q' = [] /\ cap - 24 < item_space it else q' = q)
        /\ (q = [] -> cap - 24 < item_space it))
  | Pop room => match q with
      | [] => e = EEmpty /\ q' = []
      | it :: r => if zlen (snd it) <=? room then e = EPopped (fst it) (zlen (snd it)) (Some (snd it)) /\ q' = r
                   else e = EPopped (fst it) (zlen (snd it)) None /\ q' = q end
  | Clear => e = ECleared /\ q' = []
  end.
Inductive fifo_run (cap : Z) (del : bool) : list qop -> list item -> list qevent -> list item -> Prop :=
| fr_nil q : fifo_run cap del [] q [] q
| fr_cons o l q e q1 es q' : fifo cap del o q e q1 -> fifo_run cap del l q1 es q' -> fifo_run cap del (o :: l) q (e :: es) q'.
Definition ops_ok (tsz : nat) (l : list qop) : Prop := forall it, In (Push it) l -> item_ok tsz it.

(** Live blocks: where the items of the queue are in memory. *)
Definition stored (tsz : nat) (m : memory) (o : Z) (it : item) : Prop :=
  rd m (o + 12) tsz = fst it /\ rd m (o + 12 + Z.of_nat tsz) (length (snd it)) = snd it.
Fixpoint disjoint_from (o : Z) (it : item) (l : list (Z * item)) : Prop :=
  match l with
  | [] => True
  | (o', it') :: l' => (o + item_space it <= o' \/ o' + item_space it' <= o) /\ disjoint_from o it l'
  end.
Fixpoint pairwise_disjoint (l : list (Z * item)) : Prop :=
  match l with [] => True | (o, it) :: l' => disjoint_from o it l' /\ pairwise_disjoint l' end.
Definition layout_ok (tsz : nat) (cap : Z) (m : memory) (q : list item) : Prop :=
  exists L, map snd L = q /\ pairwise_disjoint L
    /\ (forall o it, In (o, it) L -> stored tsz m o it /\ 24 <= o /\ o + item_space it <= cap).

(** The growing queue from the user's side; every growth finds the new block with
    some arbitrary content. *)
Definition gstep (tsz : nat) (fresh : memory) (o : qop) (cap : Z) (m : memory) : option (qevent * Z * memory) :=
  match o with
  | Push it => match gpush tsz fresh (fst it) (snd it) cap m with GPushed c m' => Some (EPushed, c, m') | GFail => None end
  | Pop room => match pop tsz room m with Some (t, n, d, m') => Some (EPopped t n d, cap, m') | None => Some (EEmpty, cap, m) end
  | Clear => Some (ECleared, cap, clear m)
  end.
Fixpoint grun (tsz : nat) (fresh : memory) (l : list qop) (cap : Z) (m : memory) : option (list qevent * Z * memory) :=
  match l with
  | [] => Some ([], cap, m)
  | o :: l' => match gstep tsz fresh o cap m with
               | Some (e, c, m') => match grun tsz fresh l' c m' with Some (es, c', m'') => Some (e :: es, c', m'') | None => None end
               | None => None end
  end.
(** A lossless FIFO. *)
Definition lossless (o : qop) (q : list item) (e : qevent) (q' : list item) : Prop :=
  match o with
  | Push it => e = EPushed /\ q' = q ++ [it]
  | Pop room => match q with
      | [] => e = EEmpty /\ q' = []
      | it :: r => if zlen (snd it) <=? room then e = EPopped (fst it) (zlen (snd it)) (Some (snd it)) /\ q' = r
                   else e = EPopped (fst it) (zlen (snd it)) None /\ q' = q end
  | Clear => e = ECleared /\ q' = []
  end.
Inductive lossless_run : list qop -> list item -> list qevent -> list item -> Prop :=
| lr_nil q : lossless_run [] q [] q
| lr_cons o l q e q1 es q' : lossless o q e q1 -> lossless_run l q1 es q' -> lossless_run (o :: l) q (e :: es) q'.
Definition used (q : list item) : Z := fold_right (fun it a => item_space it + a) 0 q.
(** repeated removal of the oldest item *)
Fixpoint drop (n : nat) (m : memory) : memory := match n with O => m | S k => drop k (delete_direct m) end.
(** free room for [sp] bytes: after the last block, or, when the blocks have not
    wrapped, also before the first one; [L] lists the live blocks oldest first *)
Definition room_for (cap : Z) (L : list (Z * item)) (sp : Z) : Prop :=
  match L with
  | [] => 24 + sp <= cap
  | (first, _) :: _ => exists last it, (exists L', L = L' ++ [(last, it)]) /\
      if last <? first then last + item_space it + sp <= first
      else last + item_space it + sp <= cap \/ 24 + sp <= first
  end.
