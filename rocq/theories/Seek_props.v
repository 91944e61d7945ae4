(** C65: random access of the bit reader. *)
From Verif Require Import Util Bits_spec Bitstream_model Seek_model Seek_proofs.

(** A memory stream (page = whole buffer) behaves as a bit string with a
    cursor, for every sequence of reads, skips, moves and position queries and
    every schedule; a field past the end raises EndOfData. *)
Theorem C65_memory : forall (buffer : list Z) (oob : nat -> Z) (calls : list (bool * op)),
  bytes buffer -> (forall i, is_byte (oob i)) ->
  well_formed (bytes_bits buffer) 0 (map snd calls) ->
  match expected (bytes_bits buffer) 0 (map snd calls) with
  | Some values => exists st, session buffer (length buffer) oob calls (create buffer (length buffer)) = Ok (values, st)
  | None => session buffer (length buffer) oob calls (create buffer (length buffer)) = EndOfData
  end.
Proof. intros buffer oob calls HB HO W. exact (memory_session buffer oob HB HO calls W). Qed.

Definition ex_buffer : list Z := map Z.of_nat (seq 1 12).
Definition ex_calls : list (bool * op) :=
  [(false, Get 8); (true, Seek 9); (false, Get 16); (false, Tell); (false, Seek 3); (true, Get 12); (false, Skip 4);
   (false, Get 8); (false, Seek 100); (false, Tell); (false, Seek 12); (false, Tell); (false, Seek 2); (false, Get 32)].
Example C65_memory_nonvacuous :
  well_formed (bytes_bits ex_buffer) 0 (map snd ex_calls) /\
  expected (bytes_bits ex_buffer) 0 (map snd ex_calls) = Some [1; 2571; 11; 64; 6; 12; 12; 50595078].
Proof. split; [|vm_compute; reflexivity]. cbn. repeat split; lia. Qed.
Example C65_memory_past_end :
  session ex_buffer 12 (fun _ => 0) [(false, Seek 11); (false, Get 9)] (create ex_buffer 12) = EndOfData.
Proof. vm_compute. reflexivity. Qed.

(** A file read by pages of at least 8 bytes, wherever two pages (and 5 bytes)
    of it follow the cursor: the same, for every schedule in which the
    outstanding read is called back before each move. *)
Theorem C65_file : forall (file : list Z) (page : nat) (oob : nat -> Z) (calls : list (bool * op)),
  bytes file -> (forall i, is_byte (oob i)) -> (8 <= page)%nat ->
  well_formed (bytes_bits file) 0 (map snd calls) ->
  inside (16 * page + 40) (bytes_bits file) 0 (map snd calls) ->
  Forall (calm page) calls ->
  exists values st, expected (bytes_bits file) 0 (map snd calls) = Some values /\
    session file page oob calls (create file page) = Ok (values, st).
Proof.
  intros file page oob calls HB HO HP W I C.
  assert (L : (2 * page <= length file)%nat).
  { destruct calls; cbn [map inside] in I; destruct I as [I _]; rewrite Bits_lemmas.bytes_bits_length in I; lia. }
  apply (file_session file page oob HB HO HP False calls L); auto; [|tauto].
  eapply Forall_impl; [|exact C]. intros x Hx. left. exact Hx.
Qed.

(** Read byte by byte, positions may be set under any schedule at all. *)
Theorem C65_file_bytes : forall (file : list Z) (page : nat) (oob : nat -> Z) (calls : list (bool * op)),
  bytes file -> (forall i, is_byte (oob i)) -> (8 <= page)%nat ->
  well_formed (bytes_bits file) 0 (map snd calls) ->
  inside (16 * page + 40) (bytes_bits file) 0 (map snd calls) ->
  Forall (bytewise page) calls ->
  exists values st, expected (bytes_bits file) 0 (map snd calls) = Some values /\
    session file page oob calls (create file page) = Ok (values, st).
Proof.
  intros file page oob calls HB HO HP W I C.
  assert (L : (2 * page <= length file)%nat).
  { destruct calls; cbn [map inside] in I; destruct I as [I _]; rewrite Bits_lemmas.bytes_bits_length in I; lia. }
  apply (file_session file page oob HB HO HP True calls L); auto.
  apply Forall_forall. intros x _. right. auto.
Qed.

Definition ex_file : list Z := map Z.of_nat (seq 0 80).
Definition ex_file_calls : list (bool * op) :=
  [(false, Get 20); (true, Skip 13); (false, Get 7); (true, Seek 13); (false, Get 32); (false, Tell); (true, Seek 50);
   (false, Get 24); (true, Seek 40); (false, Get 8); (true, Skip 60); (false, Get 12)].
Definition ex_byte_calls : list (bool * op) :=
  [(false, Seek 3); (false, Get 8); (false, Seek 30); (false, Get 8); (false, Seek 41); (false, Get 8); (true, Skip 48); (false, Get 8); (false, Seek 1); (false, Get 8); (false, Tell)].
Example C65_file_nonvacuous :
  well_formed (bytes_bits ex_file) 0 (map snd ex_file_calls) /\
  inside (16 * 8 + 40) (bytes_bits ex_file) 0 (map snd ex_file_calls) /\
  Forall (calm 8) ex_file_calls /\
  expected (bytes_bits ex_file) 0 (map snd ex_file_calls) = Some [16; 4; 219025168; 17; 3289908; 40; 49].
Proof.
  split; [cbn; repeat split; lia|]. split; [cbn; repeat split; lia|].
  split; [repeat constructor; cbn; try split; try reflexivity; try lia|]. vm_compute. reflexivity.
Qed.
Example C65_bytes_nonvacuous :
  well_formed (bytes_bits ex_file) 0 (map snd ex_byte_calls) /\
  inside (16 * 8 + 40) (bytes_bits ex_file) 0 (map snd ex_byte_calls) /\
  Forall (bytewise 8) ex_byte_calls /\
  expected (bytes_bits ex_file) 0 (map snd ex_byte_calls) = Some [3; 30; 41; 48; 1; 2].
Proof.
  split; [cbn; repeat split; lia|]. split; [cbn; repeat split; lia|].
  split; [repeat constructor; cbn; try split; try reflexivity; try lia|]. vm_compute. reflexivity.
Qed.

(** A position set from inside a byte keeps the bit offset when the target is
    in the page: the next byte read is not the byte at that position. *)
Theorem C65_unaligned_refuted : exists buffer,
  session buffer (length buffer) (fun _ => 0) [(false, Get 4); (false, Seek 2); (false, Get 8); (false, Tell)]
    (create buffer (length buffer))
  = Ok ([0; 0x23; 3], advance 8 (set_cur 20 20 (create buffer (length buffer)))) /\
  nth 2 buffer 0 = 0x12.
Proof. exists [0x01; 0x02; 0x12; 0x34; 0x56; 0x78]. split; vm_compute; reflexivity. Qed.

(** On a file, a skip past the shadow page, or with the shadow page still
    outstanding, goes twice as far as asked. *)
Theorem C65_skip_refuted : exists file st1 st2,
  session file 8 (fun _ => 0) [(true, Skip 200); (true, Tell)] (create file 8) = Ok ([50], st1) /\
  session file 8 (fun _ => 0) [(false, Skip 72); (false, Tell)] (create file 8) = Ok ([18], st2) /\
  expected (bytes_bits file) 0 [Skip 200; Tell] = Some [25] /\ expected (bytes_bits file) 0 [Skip 72; Tell] = Some [9] /\
  inside (16 * 8 + 40) (bytes_bits file) 0 [Skip 200; Tell].
Proof.
  exists ex_file. eexists. eexists. split; [vm_compute; reflexivity|]. split; [vm_compute; reflexivity|].
  split; [vm_compute; reflexivity|]. split; [vm_compute; reflexivity|]. cbn. repeat split; lia.
Qed.

(** With a read outstanding and a byte left over in the shadow page, a position
    set from a byte boundary lands elsewhere, and a skip times out. *)
Theorem C65_outstanding_refuted : exists file st,
  session file 8 (fun _ => 0) [(true, Get 20); (true, Get 20); (true, Get 20); (false, Get 20); (false, Seek 15); (false, Tell)]
    (create file 8) = Ok ([16; 131844; 20576; 460809; 8], st) /\
  expected (bytes_bits file) 0 [Get 20; Get 20; Get 20; Get 20; Seek 15; Tell] = Some [16; 131844; 20576; 460809; 15] /\
  session file 8 (fun _ => 0) [(true, Get 20); (true, Get 20); (true, Get 20); (false, Get 20); (false, Skip 44)]
    (create file 8) = InvalidInput.
Proof.
  exists ex_file. eexists. split; [vm_compute; reflexivity|]. split; vm_compute; reflexivity.
Qed.

Print Assumptions C65_memory.
Print Assumptions C65_file.
Print Assumptions C65_file_bytes.
Print Assumptions C65_unaligned_refuted.
Print Assumptions C65_skip_refuted.
Print Assumptions C65_outstanding_refuted.
