(** C66: what is written through the bit stream is what the storage holds. *)
From Coq Require Import Permutation.
From Verif Require Import Util Bits_spec Bitstream_model Store_model Store_proofs.

(** In memory: for every session of fields, blocks, moves back and forth,
    flushes and position queries, every page size and every initial capacity,
    no step leaves the allocated block, the position queries are right, and
    the buffer holds exactly the bits of the session, get_size() of them. *)
Theorem C66_memory : forall (page : nat) (tail : list Z) (capacity : nat) (ops : list wop),
  (5 <= page)%nat -> bytes tail -> (0 < capacity)%nat -> wok 0 0 ops ->
  exists w tot calls m, wrun ops (wcreate page tail) 0 = (w, tot, calls, wtells 0 ops) /\
    mrun calls (mcreate capacity) = MOk m /\
    bytes_bits (mcontent m) = wspec [] 0 ops /\ msize m = length (mcontent m).
Proof. exact memory_store. Qed.

Definition ex_ops : list wop :=
  [Put 0 32; Put 0x6d6f6f76 32; WTell; Bytes [1;2;3;4;5;6;7]; Put 0xA 4; Put 0xBCD 12; WTell; WSeek 0; WTell; Put 17 32;
   WSeek 17; Bytes [9;9;9]; WFlush; WSeek 9; Put 0xFF 8; WTell; Put 0xEE 8; WSeek 20; Put 0x123456 24; WFlush].
Example C66_nonvacuous :
  wok 0 0 ex_ops /\ wtells 0 ex_ops = [8; 17; 0; 10] /\
  wspec [] 0 ex_ops = bytes_bits [0;0;0;17;0x6d;0x6f;0x6f;0x76;1;0xFF;0xEE;4;5;6;7;0xAB;0xCD;9;9;9;0x12;0x34;0x56] /\
  exists m, mrun (snd (fst (wrun ex_ops (wcreate 5 []) 0))) (mcreate 2) = MOk m /\
    mcontent m = [0;0;0;17;0x6d;0x6f;0x6f;0x76;1;0xFF;0xEE;4;5;6;7;0xAB;0xCD;9;9;9;0x12;0x34;0x56].
Proof.
  split. { cbn. unfold bytes, is_byte. repeat (constructor || (split; [|]) || lia). }
  split; [vm_compute; reflexivity|]. split; [vm_compute; reflexivity|].
  eexists. split; vm_compute; reflexivity.
Qed.

(** On a file: the same when the issued writes are carried out in the order
    they were issued. *)
Theorem C66_file : forall (page : nat) (tail : list Z) (ops : list wop),
  (5 <= page)%nat -> bytes tail -> wok 0 0 ops ->
  exists w tot calls, wrun ops (wcreate page tail) 0 = (w, tot, calls, wtells 0 ops) /\
    bytes_bits (fapply (fissue calls 0) []) = wspec [] 0 ops.
Proof. exact file_store. Qed.

(** Without moves: in whatever order the thread pool carries them out. *)
Theorem C66_file_any_order : forall (page : nat) (tail : list Z) (ops : list wop),
  (5 <= page)%nat -> bytes tail -> wok 0 0 ops -> (forall p, ~ In (WSeek p) ops) ->
  exists w tot calls, wrun ops (wcreate page tail) 0 = (w, tot, calls, wtells 0 ops) /\
    forall done, Permutation (fissue calls 0) done -> bytes_bits (fapply done []) = wspec [] 0 ops.
Proof. exact file_any_order. Qed.
Definition ex_seq : list wop := [Put 1 8; Put 0x0203 16; Bytes [4; 5]; Put 6 8; Put 7 8; Put 0x08090A0B 32; Put 12 8; WFlush].
Example C66_order_nonvacuous :
  wok 0 0 ex_seq /\ (forall p, ~ In (WSeek p) ex_seq) /\
  fissue (snd (fst (wrun ex_seq (wcreate 5 []) 0))) 0 = [(0%nat, [1;2;3]); (3%nat, [4;5]); (5%nat, [6;7]); (7%nat, [8;9;10;11;12])] /\
  fapply [(7%nat, [8;9;10;11;12]); (3%nat, [4;5]); (0%nat, [1;2;3]); (5%nat, [6;7])] [] = [1;2;3;4;5;6;7;8;9;10;11;12].
Proof.
  split. { cbn. unfold bytes, is_byte. repeat (constructor || (split; [|]) || lia). }
  split. { cbn. intros p H. intuition discriminate. }
  split; vm_compute; reflexivity.
Qed.

(** With a move (a box size set afterwards) the outcome depends on the order in
    which the thread pool carries out the writes: nothing waits for the first. *)
Theorem C66_race_refuted : exists ops done,
  wok 0 0 ops /\ Permutation (fissue (snd (fst (wrun ops (wcreate 5 []) 0))) 0) done /\
  bytes_bits (fapply done []) <> wspec [] 0 ops.
Proof.
  exists [Put 0 32; Put 0x66726565 32; WSeek 0; Put 8 32; WFlush].
  eexists. split; [cbn; repeat split; lia|].
  split; [apply Permutation_rev|].
  vm_compute. intros H. discriminate H.
Qed.

(** Moves and blocks from inside a byte: the bits begun are not written where
    they were put. *)
Theorem C66_unaligned_refuted : exists ops1 ops2 m1 m2,
  mrun (snd (fst (wrun ops1 (wcreate 8 []) 0))) (mcreate 64) = MOk m1 /\
  mrun (snd (fst (wrun ops2 (wcreate 8 []) 0))) (mcreate 64) = MOk m2 /\
  ops1 = [Put 0xAB 8; Put 0xC 4; WSeek 0; Put 0xD 4; Put 0xEF 8; WFlush] /\
  mcontent m1 = [0xCD; 0xEF] /\ firstn 8 (wspec [] 0 ops1) = bytes_bits [0xDE] /\
  ops2 = [Put 0xC 4; Bytes [0x11; 0x22]; Put 0xD 4; WFlush] /\ mcontent m2 = [0x11; 0x22; 0xCD].
Proof.
  do 4 eexists. split; [|split; [|split; [reflexivity|split; [|split; [|split; [reflexivity|]]]]]].
  1,2: vm_compute; reflexivity. all: vm_compute; reflexivity.
Qed.

Print Assumptions C66_memory.
Print Assumptions C66_file.
Print Assumptions C66_file_any_order.
Print Assumptions C66_race_refuted.
Print Assumptions C66_unaligned_refuted.
