(** Property C40: encrypted samples can be decrypted, and no key stream is used twice. *)
From Verif Require Import Util SampleTab_model HlsCrypt_model Box_model Cenc_model Cenc_proofs.
Local Open Scope Z_scope.

(** The 8 bytes of an initialisation vector are a number, most significant byte first, which goes
    up by one for every sample and starts again after the largest. *)
Theorem C40_counter : forall iv, is_iv iv -> is_iv (counter8 iv) /\ be_val 0 (counter8 iv) = (be_val 0 iv + 1) mod 2 ^ 64.
Proof. intros iv H. rewrite counter8_spec by exact H. split; [apply be8_iv|]. apply be8_val. apply Z.mod_pos_bound. lia. Qed.
Print Assumptions C40_counter.
Example C40_counter_nonvacuous : is_iv [1; 2; 3; 4; 255; 255; 255; 255] /\ counter8 [1; 2; 3; 4; 255; 255; 255; 255] = [1; 2; 3; 5; 0; 0; 0; 0] /\ counter8 (repeat 255 8) = repeat 0 8.
Proof. split; [split; [reflexivity|repeat (apply Forall_cons; [unfold is_byte; lia|]); apply Forall_nil]|]. split; vm_compute; reflexivity. Qed.
(** The block counter of 16 bytes is such a number as well, and carries into its upper half. *)
Theorem C40_block_counter : forall c, length c = 16%nat -> bytes c -> length (counter c) = 16%nat /\ bytes (counter c) /\ be_val 0 (counter c) = (be_val 0 c + 1) mod 2 ^ 128.
Proof. exact counter_spec. Qed.
Print Assumptions C40_block_counter.
Example C40_block_counter_nonvacuous : counter (repeat 7 8 ++ repeat 255 8) = repeat 7 7 ++ [8] ++ repeat 0 8 /\ counter (repeat 255 16) = repeat 0 16.
Proof. split; vm_compute; reflexivity. Qed.
(** Every sample of a fragment keeps its size, and decrypting it with what is noted for it gives
    the sample back: any block cipher, any first vector, with and without clear bytes. *)
Theorem C40_decrypt : forall E sub l iv j, cipher E -> is_iv iv -> Forall (fun b => zlen b < 2 ^ 32) l -> (j < length l)%nat -> let r := nth j (encrypt_samples E sub iv l) ([], mkE [] 0 0) in
  zlen (fst r) = zlen (nth j l []) /\ decrypt E (e_iv (snd r)) [(e_clear (snd r), e_protected (snd r))] (fst r) = nth j l [].
Proof. exact decrypt_samples. Qed.
Print Assumptions C40_decrypt.
(** What is encrypted is what the standard says: sample [j] has the first vector plus [j], its
    first bytes are as they were, the others are xored with the encryption of the vector and the
    block number. *)
Theorem C40_standard : forall E sub l iv j, cipher E -> is_iv iv -> Forall (fun b => zlen b < 2 ^ 32) l -> (j < length l)%nat ->
  let body := nth j l [] in let v := (be_val 0 iv + Z.of_nat j) mod 2 ^ 64 in let r := nth j (encrypt_samples E sub iv l) ([], mkE [] 0 0) in let clear := e_clear (snd r) in
  e_iv (snd r) = be 8 v /\ e_clear (snd r) + e_protected (snd r) = zlen body
  /\ fst r = firstn (Z.to_nat clear) body ++ xor_bytes (skipn (Z.to_nat clear) body) (key_stream E v (Z.to_nat ((e_protected (snd r) + 15) / 16))).
Proof. intros E sub l iv j C I F Hj body v r clear. destruct (sample_formula E sub l iv j C I F Hj) as (S1 & S2 & _ & S4). split; [exact S1|]. split; [exact S2|exact S4]. Qed.
Print Assumptions C40_standard.
(** With clear bytes (video): samples up to 112 bytes stay clear, of others from 96 to 111 bytes
    stay clear and the rest is whole blocks; without (audio) all is encrypted. *)
Theorem C40_clear : forall E sub l iv j, cipher E -> is_iv iv -> Forall (fun b => zlen b < 2 ^ 32) l -> (j < length l)%nat -> let size := zlen (nth j l []) in let e := snd (nth j (encrypt_samples E sub iv l) ([], mkE [] 0 0)) in
  (sub = false -> e_clear e = 0) /\ (sub = true -> size <= 112 -> e_clear e = size) /\ (sub = true -> 112 < size -> 96 <= e_clear e < 112 /\ e_protected e mod 16 = 0 /\ 0 < e_protected e).
Proof.
  intros E sub l iv j C I F Hj size e. destruct (sample_formula E sub l iv j C I F Hj) as (_ & S2 & S3 & _). fold e size in S2, S3. unfold clear_of in S3. split; [intros ->; exact S3|]. split; [intros -> H; rewrite S3; destruct (Z.leb_spec size 112); [reflexivity|lia]|]. intros -> H. rewrite (proj2 (Z.leb_gt size 112) H) in S3. pose proof (Z.mod_pos_bound size 16 ltac:(lia)). split; [lia|]. replace (e_protected e) with ((size / 16 - 6) * 16) by (pose proof (Z.div_mod size 16 ltac:(lia)); lia). split; [apply Z.mod_mul; lia|]. assert (112 / 16 <= size / 16) by (apply Z.div_le_mono; lia). change (112 / 16) with 7 in H1. lia.
Qed.
Print Assumptions C40_clear.
(** No two blocks of the samples of a fragment are encrypted with the same counter block. *)
Theorem C40_no_reuse : forall E sub l iv j j' i i', cipher E -> is_iv iv -> Forall (fun b => zlen b < 2 ^ 32) l -> Z.of_nat (length l) <= 2 ^ 64 -> (j < length l)%nat -> (j' < length l)%nat -> 0 <= i < 2 ^ 64 -> 0 <= i' < 2 ^ 64 -> (j, i) <> (j', i') ->
  let v k := be_val 0 (e_iv (snd (nth k (encrypt_samples E sub iv l) ([], mkE [] 0 0)))) in counter_block (v j) i <> counter_block (v j') i'.
Proof. exact no_reuse. Qed.
Print Assumptions C40_no_reuse.
(** a cipher, two samples of 20 and of 133 bytes, a vector about to start again *)
Definition ex_cipher (b : list Z) : list Z := map (fun x => (7 * x + 3) mod 256) (firstn 16 (b ++ repeat 0 16)).
Definition ex_samples : list (list Z) := [zseq 1 20; zseq 1 133].
Example C40_nonvacuous : cipher ex_cipher /\ is_iv (repeat 255 8) /\ Forall (fun b => zlen b < 2 ^ 32) ex_samples
  /\ map (fun r => (e_iv (snd r), e_clear (snd r), e_protected (snd r), firstn 103 (skipn 100 (fst r)))) (encrypt_samples ex_cipher true (repeat 255 8) ex_samples)
     = [(repeat 255 8, 20, 0, []); (repeat 0 8, 101, 32, 101 :: xor_bytes (zseq 102 32) (repeat 3 31 ++ [10]))]
  /\ map (fun r => firstn 3 (fst r)) (encrypt_samples ex_cipher false (repeat 255 8) ex_samples) = [map (Z.lxor 252) [1; 2; 3]; map (Z.lxor 3) [1; 2; 3]].
Proof.
  split; [intros b; unfold ex_cipher; rewrite map_length, firstn_length, app_length, repeat_length; lia|]. split; [split; [reflexivity|apply Forall_forall; intros x Hx; apply repeat_spec in Hx; subst x; unfold is_byte; lia]|]. split; [repeat (apply Forall_cons; [vm_compute; reflexivity|]); apply Forall_nil|]. split; vm_compute; reflexivity.
Qed.
