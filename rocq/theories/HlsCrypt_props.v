(** Property C30: HLS segment encryption. *)
From Coq Require Import ZifyNat.
From Verif Require Import Util HlsCrypt_model HlsCrypt_proofs.
Local Open Scope Z_scope.
Local Ltac Zify.zify_post_hook ::= Z.div_mod_to_equations.

(** For every block cipher, segment below 4 GiB and sequence number: the size is the next
    multiple of 16, a player (CBC decryption, then removal of the padding) gets the clear
    segment, and nothing is written after it. *)
Theorem C30_roundtrip : forall E D dest clear seq, block_cipher E D -> bytes clear -> 0 < zlen clear < 2 ^ 32 -> enc_size (zlen clear) <= zlen dest ->
  exists out n, hls3_encrypt E dest (zlen dest) clear seq = Encrypted out n
  /\ n mod 16 = 0 /\ zlen clear < n <= zlen clear + 16 /\ zlen out = zlen dest
  /\ unpad (cbc_decrypt D (Z.to_nat (n / 16)) (iv_of seq) (firstn (Z.to_nat n) out)) = Some clear
  /\ skipn (Z.to_nat n) out = skipn (Z.to_nat n) dest.
Proof.
  intros E D dest clear seq B Bc S Ld. set (s := zlen clear) in *.
  assert (En : enc_size s = s / 16 * 16 + 16) by (unfold enc_size, enc_missing; lia).
  set (fb := s / 16 * 16) in *. set (last := skipn (Z.to_nat fb) clear ++ repeat (enc_missing s) (Z.to_nat (enc_missing s))).
  set (r1 := cbc_encrypt E (Z.to_nat (fb mod 2 ^ 32 / 16)) (iv_of seq) clear).
  assert (NB : Z.to_nat (fb mod 2 ^ 32 / 16) = Z.to_nat (s / 16)) by (unfold fb; lia).
  assert (Lc : length clear = Z.to_nat s) by (unfold s, zlen; lia).
  assert (M : 1 <= enc_missing s <= 16) by (unfold enc_missing; lia).
  set (n1 := Z.to_nat (s / 16)) in *.
  set (d1 := firstn (16 * n1) clear).
  assert (Ld1 : length d1 = (16 * n1)%nat) by (unfold d1; rewrite firstn_length; lia).
  assert (Ec : clear = d1 ++ skipn (Z.to_nat fb) clear) by (unfold d1; replace (Z.to_nat fb) with (16 * n1)%nat by lia; symmetry; apply firstn_skipn).
  assert (R1 : r1 = cbc_encrypt E n1 (iv_of seq) d1).
  { unfold r1. rewrite NB. rewrite Ec at 1. apply cbc_prefix. lia. }
  pose proof (cbc_len E D B n1 (iv_of seq) d1 (iv_block seq) (bytes_firstn' _ _ Bc) ltac:(lia)) as (La & Ba & Ia). rewrite <- R1 in La, Ba, Ia.
  assert (Ll : length last = 16%nat) by (unfold last; rewrite app_length, skipn_length, repeat_length; unfold fb, enc_missing in *; lia).
  assert (Bl : bytes last).
  { unfold last. apply bytes_app. split; [apply bytes_skipn'; exact Bc|]. apply Forall_forall. intros x Hx. apply repeat_spec in Hx. unfold is_byte. lia. }
  set (r2 := cbc_encrypt E 1 (snd r1) last).
  pose proof (cbc_len E D B 1 (snd r1) last Ia Bl ltac:(lia)) as (Lb & Bb & _). fold r2 in Lb, Bb.
  assert (Lfb : zlen (fst r1) = fb) by (unfold zlen; lia).
  exists (store (store dest 0 (fst r1)) fb (fst r2)), (enc_size s).
  split.
  { unfold hls3_encrypt. fold s. replace (s =? 0) with false by lia. replace (zlen dest =? 0) with false by lia. replace (zlen dest <? enc_size s) with false by lia.
    fold fb. fold last. fold r1. destruct r1 as (a & iv) eqn:X1. cbn [fst snd] in *. fold r2. destruct r2 as (b & iv2). reflexivity. }
  rewrite <- Lfb at 1 2 3. rewrite store_end by (unfold zlen in Ld; lia).
  assert (L2 : length (fst r1 ++ fst r2) = Z.to_nat (enc_size s)) by (rewrite app_length, La, Lb; lia).
  split; [lia|]. split; [lia|]. split; [unfold zlen; rewrite !app_length, skipn_length; unfold zlen in Ld; lia|]. split.
  - rewrite firstn_app, L2, Nat.sub_diag, firstn_O, app_nil_r. rewrite <- L2, firstn_all.
    assert (W : fst r1 ++ fst r2 = fst (cbc_encrypt E (n1 + 1) (iv_of seq) (d1 ++ last))).
    { rewrite cbc_app by exact Ld1. rewrite <- R1. reflexivity. }
    rewrite W. replace (Z.to_nat (enc_size s / 16)) with (n1 + 1)%nat by lia.
    rewrite (cbc_round E D B); [|apply iv_block|apply bytes_app; split; [apply bytes_firstn'; exact Bc|exact Bl]|rewrite app_length; lia].
    unfold last. rewrite app_assoc, <- Ec. apply unpad_pad. exact M.
  - rewrite skipn_app. rewrite skipn_all2 by lia. rewrite L2, Nat.sub_diag. cbn [skipn app]. f_equal. lia.
Qed.
Print Assumptions C30_roundtrip.
(** The initialisation vector is the media sequence number as RFC 8216 says (numbers of 31
    bits). *)
Theorem C30_iv : forall seq, 0 <= seq < 2 ^ 31 -> iv_of seq = be_bytes 16 seq.
Proof. exact iv_be. Qed.
Print Assumptions C30_iv.
(** A size of 0 asks for the size needed; a buffer smaller than it is refused; no segment is
    an error. *)
Theorem C30_size : forall E dest dest_size clear seq, 0 < zlen clear ->
  hls3_encrypt E dest 0 clear seq = Size (zlen clear / 16 * 16 + 16)
  /\ (0 < dest_size < zlen clear / 16 * 16 + 16 -> hls3_encrypt E dest dest_size clear seq = TooSmall)
  /\ hls3_encrypt E dest dest_size [] seq = BadArgument.
Proof.
  intros E dest ds clear seq S. assert (En : enc_size (zlen clear) = zlen clear / 16 * 16 + 16) by (unfold enc_size, enc_missing; lia).
  split; [|split].
  - unfold hls3_encrypt. replace (zlen clear =? 0) with false by lia. rewrite En. reflexivity.
  - intros H. unfold hls3_encrypt. replace (zlen clear =? 0) with false by lia. replace (ds =? 0) with false by lia. rewrite En. replace (ds <? zlen clear / 16 * 16 + 16) with true by lia. reflexivity.
  - reflexivity.
Qed.
Print Assumptions C30_size.
(** Refuted from 4 GiB on: the blocks between the size modulo 2^32 and the last are left as
    they were in the destination, and success is reported. *)
Theorem C30_large_refuted : forall E D dest clear seq, block_cipher E D -> bytes clear -> 2 ^ 32 <= zlen clear -> enc_size (zlen clear) <= zlen dest ->
  exists out n, hls3_encrypt E dest (zlen dest) clear seq = Encrypted out n
  /\ forall j, zlen clear / 16 * 16 mod 2 ^ 32 <= Z.of_nat j < zlen clear / 16 * 16 -> nth j out 0 = nth j dest 0.
Proof.
  intros E D dest clear seq B Bc S Ld. set (s := zlen clear) in *.
  assert (En : enc_size s = s / 16 * 16 + 16) by (unfold enc_size, enc_missing; lia).
  set (fb := s / 16 * 16) in *. set (last := skipn (Z.to_nat fb) clear ++ repeat (enc_missing s) (Z.to_nat (enc_missing s))).
  set (r1 := cbc_encrypt E (Z.to_nat (fb mod 2 ^ 32 / 16)) (iv_of seq) clear).
  assert (Lc : Z.of_nat (length clear) = s) by reflexivity.
  pose proof (cbc_len E D B (Z.to_nat (fb mod 2 ^ 32 / 16)) (iv_of seq) clear (iv_block seq) Bc ltac:(lia)) as (La & Ba & Ia). fold r1 in La, Ba, Ia.
  set (r2 := cbc_encrypt E 1 (snd r1) last).
  exists (store (store dest 0 (fst r1)) fb (fst r2)), (enc_size s).
  split.
  { unfold hls3_encrypt. fold s. replace (s =? 0) with false by lia. replace (zlen dest =? 0) with false by lia. replace (zlen dest <? enc_size s) with false by lia.
    fold fb. fold last. fold r1. destruct r1 as (a & iv) eqn:X1. cbn [fst snd] in *. fold r2. destruct r2 as (b & iv2). reflexivity. }
  intros j Hj. unfold store at 1.
  assert (Lz : zlen dest = Z.of_nat (length dest)) by reflexivity.
  assert (L1 : length (store dest 0 (fst r1)) = length dest).
  { unfold store. cbn [Z.to_nat firstn app]. rewrite app_length, skipn_length. lia. }
  rewrite app_nth1 by (rewrite firstn_length; lia).
  rewrite <- (firstn_skipn (Z.to_nat fb) (store dest 0 (fst r1))) at 1.
  assert (X : nth j (firstn (Z.to_nat fb) (store dest 0 (fst r1))) 0 = nth j (store dest 0 (fst r1)) 0).
  { rewrite <- (firstn_skipn (Z.to_nat fb) (store dest 0 (fst r1))) at 2. rewrite app_nth1; [reflexivity|rewrite firstn_length; lia]. }
  rewrite firstn_skipn. rewrite X. unfold store. cbn [Z.to_nat firstn app]. rewrite app_nth2 by lia. 
  rewrite <- (firstn_skipn (0 + length (fst r1)) dest) at 2. rewrite app_nth2 by (rewrite firstn_length; lia). f_equal. rewrite firstn_length. lia.
Qed.
Print Assumptions C30_large_refuted.
(** a concrete cipher (rotate and complement) and segment *)
Definition toy_e (b : list Z) : list Z := map (fun x => 255 - x) (rev b).
Definition toy_d (b : list Z) : list Z := rev (map (fun x => 255 - x) b).
Lemma toy_cipher : block_cipher toy_e toy_d.
Proof.
  intros b (L & Bb). split.
  - split; [unfold toy_e; rewrite map_length, rev_length; exact L|]. apply Forall_forall. intros x Hx. unfold toy_e in Hx. apply in_map_iff in Hx.
    destruct Hx as (y & <- & Hy). apply in_rev in Hy. eapply Forall_forall in Bb; [|exact Hy]. unfold is_byte in *. lia.
  - unfold toy_e, toy_d. rewrite map_map. rewrite (map_ext _ (fun x => x)) by (intros a; lia). rewrite map_id. apply rev_involutive.
Qed.
Example C30_nonvacuous : exists out, hls3_encrypt toy_e (repeat 7 40) 40 (zseq 1 20) 5 = Encrypted out 32
  /\ unpad (cbc_decrypt toy_d 2 (be_bytes 16 5) (firstn 32 out)) = Some (zseq 1 20) /\ skipn 32 out = repeat 7 8.
Proof. eexists. split; [vm_compute; reflexivity|]. split; vm_compute; reflexivity. Qed.
