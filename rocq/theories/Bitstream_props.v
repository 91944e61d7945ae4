(** Property theorems for the bit streams (C04, C05, C06, C07, C44). *)
From Verif Require Import Util Bits_spec Bits_lemmas Bitstream_model Bitstream_proofs Bitstream_proofs2 Bitstream_proofs3 Bitstream_proofs4.

(** C04: any sequence of reads on a memory buffer gives the successive fields
    of its bits, or the end-of-data exception as soon as one does not fit -
    whatever the memory past the buffer contains ([oob]). *)
Theorem C04_memory_reads : forall (buffer : list Z) (oob : nat -> Z) (reads : list (bool * nat)),
  bytes buffer -> (forall i, is_byte (oob i)) ->
  Forall (fun r => (1 <= snd r <= 32)%nat) reads ->
  exists st, run_reads buffer (length buffer) oob reads (create buffer (length buffer)) =
    if Nat.leb (total (map snd reads)) (8 * length buffer)
    then Ok (fields (map snd reads) (bytes_bits buffer), st) else EndOfData.
Proof.
  intros buffer oob reads HB HO HF.
  pose proof (Mem_run buffer oob HB HO reads _ (Mem_create buffer) HF) as H.
  rewrite cur_create in H. exact H.
Qed.
Print Assumptions C04_memory_reads.
Example C04_nonvacuous :
  exists st, run_reads [0xA5; 0x0F; 0x33; 0x80; 0x01] 5 (fun _ => 0xEE) [(true,3);(false,7);(true,30)]%nat
    (create [0xA5; 0x0F; 0x33; 0x80; 0x01] 5) = Ok ([5; 0x14; 0xF338001], st).
Proof. eexists. vm_compute. reflexivity. Qed.

(** In the next statements [Mem buffer st] says: the reader [st] was opened on
    [buffer] as a memory stream and stands at bit [cur st] <= 8 * length of it
    (C04_mem_reachable, and preserved by every read that succeeds). *)
(** C04: peeking returns the field without moving. *)
Theorem C04_peek : forall buffer oob st n,
  bytes buffer -> (forall i, is_byte (oob i)) -> Mem buffer st -> (1 <= n <= 32)%nat ->
  (cur st + n <= 8 * length buffer)%nat ->
  nextbits buffer (length buffer) oob n st = Ok (bits_val (firstn n (skipn (cur st) (bytes_bits buffer))), st).
Proof.
  intros buffer oob st n HB HO HM Hn Hl. rewrite Mem_nextbits by assumption.
  apply Nat.leb_le in Hl. rewrite Hl. reflexivity.
Qed.
Print Assumptions C04_peek.

(** C04: signed reads. *)
Theorem C04_signed : forall buffer oob st n,
  bytes buffer -> (forall i, is_byte (oob i)) -> Mem buffer st -> (2 <= n <= 32)%nat ->
  (cur st + n <= 8 * length buffer)%nat ->
  sgetbits buffer (length buffer) oob n st =
   Ok (sign_extend32 n (bits_val (firstn n (skipn (cur st) (bytes_bits buffer)))), advance n st).
Proof. intros buffer oob st n HB HO. exact (Mem_sgetbits buffer oob HB HO n st). Qed.
Print Assumptions C04_signed.

(** C04: align(n) moves to the next multiple of n bits ([d] is the distance). *)
Theorem C04_align : forall buffer oob, (forall i, is_byte (oob i)) -> forall n st, Mem buffer st -> (n mod 8 = 0)%nat -> (0 < n)%nat ->
  forall d, (d < n)%nat -> ((tot st + d) mod n = 0)%nat -> (cur st + d <= 8 * length buffer)%nat ->
  align buffer (length buffer) oob n st = Ok (advance d st).
Proof. exact Mem_align. Qed.
Print Assumptions C04_align.
Example C04_mem_reachable : forall buffer, Mem buffer (create buffer (length buffer)).
Proof. exact Mem_create. Qed.
Example C04_align_nonvacuous :
  let b := [1;2;3;4;5;6;7;8] in
  match getbits b 8 (fun _ => 0) 3 (create b 8) with
  | Ok (_, st) => match align b 8 (fun _ => 0) 32 st with Ok st' => cur st' = 32%nat | _ => False end
  | _ => False end.
Proof. vm_compute. reflexivity. Qed.

(** C04: the load itself is not memory safe: a read inside the buffer touches
    bytes past its end. *)
Theorem C04_overread_refuted : exists (buffer : list Z) (cur n : nat),
  (1 <= n <= 32)%nat /\ (cur + n <= 8 * length buffer)%nat /\
  exists i, In i (load_touches cur n) /\ (length buffer <= i)%nat.
Proof. exists [1;2;3;4], 24%nat, 8%nat. cbn. split; [lia|]. split; [lia|]. exists 4%nat. split; [auto|lia]. Qed.
Print Assumptions C04_overread_refuted.

(** C05: write fields, flush, read back: every value modulo 2^width.  [tail] is
    the memory after the writer's page and is left unchanged. *)
Theorem C05_put_get : forall (page : nat) (tail : list Z) (oob : nat -> Z) (fs : list (Z * nat)) (done : list bool),
  (5 <= page)%nat -> bytes tail -> (forall i, is_byte (oob i)) ->
  Forall (fun f => (1 <= snd f <= 32)%nat) fs -> length done = length fs ->
  (total (map snd fs) mod 8 = 0)%nat ->
  let file := wout (flush (run_puts fs (wcreate page tail))) in
  exists st, run_reads file (length file) oob (combine done (map snd fs)) (create file (length file))
     = Ok (map (fun f => fst f mod 2 ^ Z.of_nat (snd f)) fs, st)
  /\ length file = (total (map snd fs) / 8)%nat.
Proof. exact put_get_roundtrip. Qed.
Print Assumptions C05_put_get.

(** C05: the bytes written are the whole bytes of the concatenated fields; fewer
    than 8 bits stay unwritten; memory after the page is unchanged. *)
Theorem C05_bytes_written : forall page tail fs,
  (5 <= page)%nat -> bytes tail -> Forall (fun f => (1 <= snd f <= 32)%nat) fs ->
  let w := flush (run_puts fs (wcreate page tail)) in
  exists rest, flat_map (fun f => field_bits (fst f) (snd f)) fs = bytes_bits (wout w) ++ rest
    /\ (length rest < 8)%nat /\ wtail w = tail.
Proof. intros page tail fs HP HT HF w. exact (write_stream page tail HP HT fs HF). Qed.
Print Assumptions C05_bytes_written.
Example C05_nonvacuous :
  wout (flush (run_puts [(5,3%nat);(0xFFFFFFFF,32%nat);(1,5%nat);(0x1234,16%nat);(0xABC,7%nat);(1,1%nat);(0,32%nat)] (wcreate 5 [9;9;9;9])))
  = [0xBF; 0xFF; 0xFF; 0xFF; 0xE1; 0x12; 0x34; 0x79; 0;0;0;0].
Proof. vm_compute. reflexivity. Qed.

(** C06 *)
Theorem C06_little_endian : forall page tail oob v k,
  (5 <= page)%nat -> bytes tail -> (forall i, is_byte (oob i)) ->
  (k <= 4)%nat -> 0 <= v < 256 ^ Z.of_nat k ->
  let file := wout (flush (little_putbits v (8 * k) (wcreate page tail))) in
  file = le_bytes v k /\
  exists st, little_getbits file (length file) oob (8 * k) (create file (length file)) = Ok (v, st).
Proof. exact little_roundtrip. Qed.
Print Assumptions C06_little_endian.
Example C06_nonvacuous : wout (flush (little_putbits 0x12345678 32 (wcreate 8 []))) = [0x78; 0x56; 0x34; 0x12].
Proof. vm_compute. reflexivity. Qed.

(** C07: paged file reading, every schedule of asynchronous completions, every
    content: correct as long as the read ends at least two pages before the end. *)
Theorem C07_paged_reads : forall (file : list Z) (page : nat) (oob : nat -> Z) (reads : list (bool * nat)),
  bytes file -> (forall i, is_byte (oob i)) -> (8 <= page)%nat ->
  Forall (fun r => (1 <= snd r <= 32)%nat) reads ->
  (total (map snd reads) + 16 * page <= 8 * length file)%nat ->
  exists st, run_reads file page oob reads (create file page) = Ok (fields (map snd reads) (bytes_bits file), st).
Proof.
  intros file page oob reads HB HO HP HF Hroom.
  assert (H2 : (2 * page <= length file)%nat) by (clear - Hroom; lia).
  destruct (create_good file page oob HO HP H2) as [HG Hc].
  destruct (run_good file page oob HB HO HP reads 0 _ HG HF ltac:(rewrite Hc; lia)) as [st E].
  exists st. rewrite E, Hc. reflexivity.
Qed.
Print Assumptions C07_paged_reads.
Example C07_nonvacuous :
  let file := map (fun i => (7 * i) mod 256) (zseq 0 40) in
  exists st, run_reads file 8 (fun _ => 0xFF) [(false,32);(true,24);(false,24);(true,32);(false,5);(false,32)]%nat (create file 8)
   = Ok ([0x00070E15; 0x1C232A; 0x31383F; 0x464D545B; 0x0C; 0x4D2E0EEF], st).
Proof. eexists. vm_compute. reflexivity. Qed.

(** C07: whole file, any size, when the field width divides the page and the
    storage completes each read before the next call (synchronous storage). *)
Theorem C07_exact_page_reads : forall (file : list Z) (page : nat) (oob : nat -> Z) (w m : nat),
  bytes file -> (forall i, is_byte (oob i)) -> (8 <= w <= 32)%nat -> (w mod 8 = 0)%nat ->
  ((8 * page) mod w = 0)%nat -> (0 < page)%nat -> (m * w <= 8 * length file)%nat ->
  exists st, run_reads file page oob (repeat (true, w) m) (create file page)
    = Ok (fields (repeat w m) (bytes_bits file), st).
Proof.
  intros file page oob w m HB HO Hw Hw8 HPw HP Hroom.
  destruct (Ex_create file page oob HB HO w Hw Hw8 HPw HP) as [HE Hc].
  destruct (Ex_run file page oob HB HO w Hw Hw8 HPw HP m 0 _ HE ltac:(rewrite Hc; lia)) as [st E].
  exists st. rewrite E, Hc. reflexivity.
Qed.
Print Assumptions C07_exact_page_reads.
Example C07_exact_nonvacuous :
  exists st, run_reads [1;2;3;4;5;6;7;8;9;10;11] 4 (fun _ => 0) (repeat (true,16%nat) 5) (create [1;2;3;4;5;6;7;8;9;10;11] 4)
   = Ok ([0x102;0x304;0x506;0x708;0x90A], st).
Proof. eexists. vm_compute. reflexivity. Qed.

(** C07 refuted at the end of the file: with prompt completions and only fields
    lying inside the file, wrong values are returned. *)
Theorem C07_last_page_refuted : exists (file : list Z) (page : nat) (reads : list (bool * nat)) vals st,
  bytes file /\ (8 <= page)%nat /\ Forall (fun r => fst r = true /\ (1 <= snd r <= 32)%nat) reads /\
  (total (map snd reads) <= 8 * length file)%nat /\
  run_reads file page (fun _ => 0) reads (create file page) = Ok (vals, st) /\
  vals <> fields (map snd reads) (bytes_bits file).
Proof.
  exists (zseq 1 16), 8%nat, (repeat (true, 24%nat) 5). eexists. eexists.
  split; [repeat (constructor; [unfold is_byte; lia|]); constructor|]. split; [lia|].
  split; [repeat (constructor; [cbn; lia|]); constructor|]. split; [cbn; lia|].
  split; [vm_compute; reflexivity|]. vm_compute. discriminate.
Qed.
Print Assumptions C07_last_page_refuted.

(** C07 refuted for some completion schedules: the read of the second page is
    still outstanding and the reader reports end of data in the middle of the file. *)
Theorem C07_premature_eof_refuted : exists (file : list Z) (page : nat) (reads : list (bool * nat)),
  bytes file /\ (8 <= page)%nat /\ Forall (fun r => (1 <= snd r <= 32)%nat) reads /\
  (total (map snd reads) < 8 * length file)%nat /\
  run_reads file page (fun _ => 0) reads (create file page) = EndOfData /\
  (exists vals st, run_reads file page (fun _ => 0) (map (fun r => (true, snd r)) reads) (create file page) = Ok (vals, st)).
Proof.
  exists (zseq 1 16), 8%nat, [(false, 32); (false, 32); (false, 8)]%nat.
  split; [repeat (constructor; [unfold is_byte; lia|]); constructor|]. split; [lia|].
  split; [repeat (constructor; [cbn; lia|]); constructor|]. split; [cbn; lia|].
  split; [vm_compute; reflexivity|]. eexists. eexists. vm_compute. reflexivity.
Qed.
Print Assumptions C07_premature_eof_refuted.

(** C04: after any reads that succeeded, "are there n more bits" and "at end" answer from
    what is left. *)
Theorem C04_has_bits : forall buffer oob reads vals st n,
  bytes buffer -> (forall i, is_byte (oob i)) -> Forall (fun r => (1 <= snd r <= 32)%nat) reads ->
  run_reads buffer (length buffer) oob reads (create buffer (length buffer)) = Ok (vals, st) ->
  has_bits buffer n st = Nat.leb (total (map snd reads) + n) (8 * length buffer)
  /\ atend buffer st = Nat.eqb (total (map snd reads)) (8 * length buffer).
Proof.
  intros buffer oob reads vals st n HB HO HF HR.
  destruct (Mem_run_inv buffer oob HB HO reads _ (Mem_create buffer) HF vals st HR) as [HM HC].
  assert (E : cur (create buffer (length buffer)) = 0%nat) by (unfold create, internal_read; destruct (eof _ _); reflexivity).
  rewrite E in HC. cbn [Nat.add] in HC. rewrite (Mem_atend buffer st HM), HC. split; [|reflexivity].
  unfold has_bits. rewrite (Mem_eof buffer st HM). destruct HM as (_ & B & _ & _ & _ & G & _). rewrite B, HC in *.
  destruct (Nat.leb_spec n (length buffer * 8 - total (map snd reads))); destruct (Nat.leb_spec (total (map snd reads) + n) (8 * length buffer)); try reflexivity; lia.
Qed.
Print Assumptions C04_has_bits.

(** C44: after any fields that leave the memory reader byte aligned at byte [c],
    a block read of [size] bytes returns the next [size] bytes, or all the
    remaining ones when fewer are left; the one exception is that it reports end
    of data when 1 to 3 bytes would remain. *)
Theorem C44_block_read : forall buffer oob reads vals st c size rounds,
  bytes buffer -> (forall i, is_byte (oob i)) ->
  Forall (fun r => (1 <= snd r <= 32)%nat) reads ->
  run_reads buffer (length buffer) oob reads (create buffer (length buffer)) = Ok (vals, st) ->
  total (map snd reads) = (8 * c)%nat -> (2 <= rounds)%nat -> (0 < size)%nat -> (c < length buffer)%nat ->
  exists st', read_loop buffer (length buffer) oob rounds size st =
   (if Nat.leb (length buffer) (c + size) then Ok (skipn c buffer, st')
    else if Nat.leb (c + size + 4) (length buffer) then Ok (firstn size (skipn c buffer), st') else EndOfData).
Proof.
  intros buffer oob reads vals st c size rounds HB HO HF HR HT Hr Hs Hc.
  destruct (Mem_run_inv buffer oob HB HO reads _ (Mem_create buffer) HF vals st HR) as [HM HC].
  apply (Mem_read buffer oob HB HO st c size rounds); auto.
  rewrite HC, HT. unfold create, internal_read. destruct (eof _ _); reflexivity.
Qed.
Print Assumptions C44_block_read.

(** C44 refuted: asking for bytes that are there raises end of data when 1 to 3
    bytes would remain. *)
Theorem C44_block_read_refuted : exists buffer size,
  bytes buffer /\ (size < length buffer)%nat /\
  read_loop buffer (length buffer) (fun _ => 0) 5 size (create buffer (length buffer)) = EndOfData.
Proof.
  exists [1;2;3;4;5;6;7;8;9;10], 8%nat.
  split; [repeat (constructor; [unfold is_byte; lia|]); constructor|]. split; [cbn; lia|]. vm_compute. reflexivity.
Qed.
Print Assumptions C44_block_read_refuted.
