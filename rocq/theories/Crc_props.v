(** Property C17: section CRC. *)
From Verif Require Import Util Bits_spec Crc_model Crc_proofs Crc_proofs2.
Local Open Scope Z_scope.

(** The table-driven CRC (any buffer alignment, any length) is the MPEG-2 shift
    register fed with the bits of the data. *)
Theorem C17_crc_spec : forall align data, bytes data -> crc_32 align data 0xFFFFFFFF = crc_spec data.
Proof. intros a l H. rewrite crc_32_eq by (auto; unfold w32; lia). reflexivity. Qed.
Print Assumptions C17_crc_spec.
(** With any start value, and computed over any cut of the data in two parts. *)
Theorem C17_start_and_chunks : forall a a1 a2 l1 l2 c, bytes l1 -> bytes l2 -> 0 <= c < 2 ^ 32 ->
  crc_32 a (l1 ++ l2) c = crc_bits (bswap c) (bytes_bits (l1 ++ l2))
  /\ crc_32 a2 l2 (bswap (crc_32 a1 l1 c)) = crc_32 a (l1 ++ l2) c.
Proof.
  intros a a1 a2 l1 l2 c H1 H2 Hc. assert (H : bytes (l1 ++ l2)) by (apply bytes_app; auto).
  rewrite (crc_32_eq a) by auto. split; [reflexivity|].
  rewrite (crc_32_eq a2) by (auto; apply bswap_w). rewrite (crc_32_eq a1) by auto.
  rewrite bswap_inv by (apply crc_bits_w, bswap_w). rewrite Bits_lemmas.bytes_bits_app, crc_bits_app. reflexivity.
Qed.
Print Assumptions C17_start_and_chunks.
(** Appending the CRC (big endian) gives remainder 0: what a receiver checks. *)
Theorem C17_residue : forall align align' data, bytes data ->
  crc_32 align' (data ++ be32 (crc_32 align data 0xFFFFFFFF)) 0xFFFFFFFF = 0.
Proof.
  intros a a' l H. rewrite (C17_crc_spec a l H). rewrite C17_crc_spec.
  - apply residue. unfold w32. lia.
  - apply bytes_app. split; [exact H|]. unfold be32. repeat apply Forall_cons; try apply Forall_nil; unfold is_byte; apply Z.mod_pos_bound; lia.
Qed.
Print Assumptions C17_residue.
(** Any corruption confined to at most 32 consecutive bits changes the CRC. *)
Theorem C17_burst_detected : forall align align' data data' pre w w' post, bytes data -> bytes data' ->
  bytes_bits data = pre ++ w ++ post -> bytes_bits data' = pre ++ w' ++ post ->
  length w = length w' -> (length w <= 32)%nat -> w <> w' ->
  crc_32 align data 0xFFFFFFFF <> crc_32 align' data' 0xFFFFFFFF.
Proof.
  intros a a' d d' pre w w' post Hd Hd' E E' L L32 N. rewrite !C17_crc_spec by assumption. unfold crc_spec. rewrite E, E'.
  apply burst; auto. unfold w32. lia.
Qed.
Print Assumptions C17_burst_detected.
Example C17_nonvacuous : crc_32 1 [49;50;51;52;53;54;55;56;57] 0xFFFFFFFF = 0x0376E6E7
  /\ bytes_bits [1; 255] = field_bits 0 7 ++ [true; true] ++ field_bits 127 7.
Proof. split; vm_compute; reflexivity. Qed.
(** Refuted under concurrent first use: the table is rebuilt in place, so a CRC
    computed meanwhile can be wrong. *)
Theorem C17_concurrent_init_refuted : exists data, bytes data /\ crc_32_during_reinit data 0xFFFFFFFF <> crc_spec data.
Proof.
  exists [0; 0; 255; 0]. split; [|vm_compute; discriminate].
  repeat apply Forall_cons; try apply Forall_nil; unfold is_byte; lia.
Qed.
Print Assumptions C17_concurrent_init_refuted.
