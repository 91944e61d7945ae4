(** C91: files read and written synchronously, and a segment encrypted in its file.  Statements only; see
    Sync_model for the vocabulary. *)
From Coq Require Import ZifyBool ZifyNat.
From Verif Require Import Util HlsCrypt_model HlsCrypt_props Sync_model Sync_proofs.
Local Open Scope Z_scope.

(** Reads of any sizes hand on the bytes of the file from the beginning, each once and in order; afterwards the
    position is that of the next byte, and the end is reported exactly when more was asked for than there is. *)
Theorem C91_reads : forall content l f got, Forall (fun n => 0 <= n) l -> freads (open_file content true) l = (f, got) ->
  concat got = firstn (Z.to_nat (all_of l)) content /\ get_position f = Z.min (all_of l) (zlen content) /\ (eof f = true <-> zlen content < all_of l) /\ size f = zlen content.
Proof.
  intros content l f got F E. pose proof (reads_go_on l (open_file content true) F ltac:(cbn; lia)) as H. pose proof (all_of_pos l F) as A. rewrite E in H. cbn [open_file f_pos f_bytes f_size f_end] in H. destruct H as (H1 & H2 & H3 & H4 & H5).
  change (skipn (Z.to_nat 0) content) with content in H1. split; [exact H1|]. assert (L : zlen (concat got) = Z.min (all_of l) (zlen content)) by (rewrite H1; unfold zlen; rewrite firstn_length; lia).
  unfold get_position, eof, size. rewrite H4, H5, H3, L. cbn [orb]. split; [lia|]. split; [lia|reflexivity].
Qed.
Print Assumptions C91_reads.
Example C91_reads_nonvacuous : freads (open_file [1;2;3;4;5] true) [2; 0; 2; 3] = (mkF [1;2;3;4;5] 5 true 5, [[1;2]; []; [3;4]; [5]]).
Proof. vm_compute. reflexivity. Qed.
(** Refuted: after the last byte was read the end is reported.  If no more was asked for than there is, it isn't:
    the next read finds nothing, and only then it is. *)
Theorem C91_end_refuted : forall content l f got n, Forall (fun n => 0 <= n) l -> all_of l = zlen content -> freads (open_file content true) l = (f, got) -> 0 < n ->
  concat got = content /\ eof f = false /\ exists f', fread f n = (f', []) /\ eof f' = true.
Proof.
  intros content l f got n F S E N. destruct (C91_reads content l f got F E) as (A & B & C & _). pose proof (reads_go_on l (open_file content true) F ltac:(cbn; lia)) as H. rewrite E in H. cbn [open_file f_pos f_bytes f_size f_end] in H. destruct H as (_ & H2 & _).
  split; [rewrite A, S; unfold zlen; rewrite Nat2Z.id; apply firstn_all|]. split; [destruct (eof f); [exfalso; assert (zlen content < all_of l) by (apply C; reflexivity); lia|reflexivity]|].
  unfold fread. unfold get_position in B. rewrite H2, B, S, Z.min_id. rewrite skipn_all2 by (unfold zlen; lia). rewrite firstn_nil. eexists. split; [reflexivity|]. unfold eof. cbn [f_end]. replace (zlen (@nil Z) <? n) with true by (unfold zlen; cbn; lia). apply orb_true_r.
Qed.
Print Assumptions C91_end_refuted.
Example C91_end_nonvacuous : all_of [2; 3] = zlen [1;2;3;4;5] /\ eof (fst (freads (open_file [1;2;3;4;5] true) [2; 3])) = false.
Proof. split; vm_compute; reflexivity. Qed.
(** After moving to a position below 2^32 the bytes from there are read, and the end isn't reported. *)
Theorem C91_moved : forall f p n, 0 <= p < 2 ^ 32 -> snd (fread (set_position f p) n) = firstn (Z.to_nat n) (skipn (Z.to_nat p) (f_bytes f)) /\ get_position (set_position f p) = p /\ eof (set_position f p) = false.
Proof. intros f p n P. unfold fread, get_position, eof, set_position. cbn [f_pos f_bytes f_end snd]. rewrite Z.mod_small by exact P. repeat split. Qed.
Print Assumptions C91_moved.
Example C91_moved_nonvacuous : snd (fread (set_position (open_file [1;2;3;4;5] true) 3) 9) = [4;5].
Proof. vm_compute. reflexivity. Qed.
(** Refuted for greater positions: the bytes read are those 4 GB (or a multiple of it) before. *)
Theorem C91_moved_far_refuted : forall f p n, 2 ^ 32 <= p -> exists k, 0 < k /\ 0 <= p - k * 2 ^ 32 < 2 ^ 32 /\ get_position (set_position f p) = p - k * 2 ^ 32 /\ fread (set_position f p) n = fread (set_position f (p - k * 2 ^ 32)) n.
Proof.
  intros f p n P. exists (p / 2 ^ 32). pose proof (Z.div_mod p (2 ^ 32) ltac:(lia)) as D. pose proof (Z.mod_pos_bound p (2 ^ 32) ltac:(lia)) as M. assert (0 < p / 2 ^ 32) by (apply Z.div_str_pos; lia).
  split; [assumption|]. split; [lia|]. replace (p - p / 2 ^ 32 * 2 ^ 32) with (p mod 2 ^ 32) by lia. unfold get_position, set_position. cbn [f_pos]. rewrite Zmod_mod. split; reflexivity.
Qed.
Print Assumptions C91_moved_far_refuted.
Example C91_moved_far_nonvacuous : snd (fread (set_position (open_file [1;2;3;4;5] true) (2 ^ 32 + 1)) 2) = [2;3].
Proof. vm_compute. reflexivity. Qed.

(** Opening a file to write empties it; then it holds what was written, one after another.  Refuted about its
    size: what is reported is always 0. *)
Theorem C91_writes : forall content ls, f_bytes (fwrites (open_file content false) ls) = concat ls /\ get_position (fwrites (open_file content false) ls) = zlen (concat ls).
Proof. intros content ls. destruct (writes_append ls (open_file content false) eq_refl) as (A & B & _). cbn [open_file f_bytes app] in A, B |- *. unfold get_position. rewrite B, A. split; reflexivity. Qed.
Print Assumptions C91_writes.
Example C91_writes_nonvacuous : f_bytes (fwrites (open_file [9;9;9;9;9;9] false) [[1;2]; []; [3]]) = [1;2;3].
Proof. vm_compute. reflexivity. Qed.
Theorem C91_size_refuted : forall content ls, size (fwrites (open_file content false) ls) = 0.
Proof. intros content ls. destruct (writes_append ls (open_file content false) eq_refl) as (_ & _ & C). exact C. Qed.
Print Assumptions C91_size_refuted.
Example C91_size_nonvacuous : zlen (f_bytes (fwrites (open_file [] false) [[1;2]; []; [3]])) = 3.
Proof. vm_compute. reflexivity. Qed.
(** After moving back to a place below 2^32 what is written replaces the bytes there, and no others. *)
Theorem C91_patched : forall f p l, 0 <= p < 2 ^ 32 -> p <= zlen (f_bytes f) -> f_bytes (fwrite (set_position f p) l) = replaced (f_bytes f) (Z.to_nat p) l /\ get_position (fwrite (set_position f p) l) = p + zlen l.
Proof.
  intros f p l P L. assert (M : set_position f p = mkF (f_bytes f) p false (f_size f)) by (unfold set_position; rewrite Z.mod_small by exact P; reflexivity). rewrite M. destruct (write_at (mkF (f_bytes f) p false (f_size f)) l) as (A & B & _); [cbn [f_pos f_bytes]; lia|]. split; [exact A|exact B].
Qed.
Print Assumptions C91_patched.
Example C91_patched_nonvacuous : f_bytes (fwrite (set_position (fwrites (open_file [] false) [[1;2;3]; [4;5]]) 1) [7;8]) = [1;7;8;4;5].
Proof. vm_compute. reflexivity. Qed.

(** A segment which isn't empty, of less than 4 GB, is replaced in its file by its encryption: whole blocks, from
    which decrypting and taking off the padding gives the segment. *)
Theorem C91_encrypted : forall E D content junk sequence, block_cipher E D -> bytes content -> 0 < zlen content -> enc_size (zlen content) < 2 ^ 32 -> zlen junk = enc_size (zlen content) ->
  exists after, hls_encrypt E content junk sequence = Some (0, after) /\ zlen after mod 16 = 0 /\ zlen content < zlen after <= zlen content + 16
  /\ unpad (cbc_decrypt D (Z.to_nat (zlen after / 16)) (iv_of sequence) after) = Some content.
Proof.
  intros E D content junk sequence BC B P S J. assert (EN : zlen content < enc_size (zlen content)) by (unfold enc_size, enc_missing; pose proof (Z.mod_pos_bound (zlen content) 16 ltac:(lia)); lia).
  destruct (C30_roundtrip E D junk content sequence BC B ltac:(lia) ltac:(lia)) as (out & n & H & M & R & LO & U & _).
  assert (N : n = enc_size (zlen content)). { revert H. unfold hls3_encrypt. destruct (zlen content =? 0); [discriminate|]. destruct (zlen junk =? 0); [discriminate|]. destruct (zlen junk <? enc_size (zlen content)); [discriminate|]. destruct (cbc_encrypt E _ _ _) as [a iv]. destruct (cbc_encrypt E 1 iv _) as [b' iv']. intros H. injection H as _ <-. reflexivity. }
  assert (FO : firstn (Z.to_nat n) out = out) by (apply firstn_all2; unfold zlen in *; lia).
  exists out. unfold hls_encrypt. cbn [open_file size f_size fread f_bytes f_pos]. change (skipn (Z.to_nat 0) content) with content. rewrite Z.mod_small by lia.
  replace (firstn (Z.to_nat (enc_size (zlen content))) content) with content by (symmetry; apply firstn_all2; unfold zlen in *; lia). rewrite Z.ltb_irrefl, <- J, H. split.
  - rewrite Z.mod_small by lia. rewrite FO. f_equal. f_equal. destruct (write_at (open_file content false) out) as (A & _); [cbn; lia|]. cbn [open_file f_bytes f_pos] in A. cbn [open_file]. rewrite A. unfold replaced. cbn. rewrite skipn_nil. apply app_nil_r.
  - assert (LN : zlen out = n) by lia. rewrite LN. split; [exact M|]. split; [lia|]. rewrite FO in U. exact U.
Qed.
Print Assumptions C91_encrypted.
Example C91_encrypted_nonvacuous : block_cipher (map (fun b => 255 - b)) (map (fun b => 255 - b)) /\ exists after, hls_encrypt (map (fun b => 255 - b)) [1;2;3;4;5;6;7;8;9;10;11;12;13;14;15;16;17] (repeat 0 32) 5 = Some (0, after) /\ length after = 32%nat.
Proof.
  split; [|eexists; split; [vm_compute; reflexivity|reflexivity]]. intros b [L B]. split.
  - split; [rewrite map_length; exact L|]. unfold bytes in *. apply Forall_map. eapply Forall_impl; [|exact B]. intros x X. unfold is_byte in *. lia.
  - rewrite map_map. rewrite <- (map_id b) at 2. apply map_ext. intros x. lia.
Qed.
(** An empty one stays as it is. *)
Theorem C91_empty : forall E junk sequence, hls_encrypt E [] junk sequence = Some (7, []).
Proof. reflexivity. Qed.
Print Assumptions C91_empty.
Example C91_empty_nonvacuous : enc_size (zlen (@nil Z)) = 16. Proof. reflexivity. Qed.
(** Refuted for segments of 4 GB and more: bytes of memory nothing was read into are encrypted. *)
Theorem C91_large_refuted : forall E content junk sequence, 2 ^ 32 <= zlen content -> enc_size (zlen content) mod 2 ^ 32 < zlen content /\ hls_encrypt E content junk sequence = None.
Proof.
  intros E content junk sequence L. pose proof (Z.mod_pos_bound (enc_size (zlen content)) (2 ^ 32) ltac:(lia)) as M. assert (X : enc_size (zlen content) mod 2 ^ 32 < zlen content) by lia. split; [exact X|].
  unfold hls_encrypt. cbn [open_file size f_size fread f_bytes f_pos]. change (skipn (Z.to_nat 0) content) with content. set (k := enc_size (zlen content) mod 2 ^ 32) in *.
  replace (zlen (firstn (Z.to_nat k) content) <? zlen content) with true; [reflexivity|]. symmetry. unfold zlen in *. rewrite firstn_length. lia.
Qed.
Print Assumptions C91_large_refuted.
