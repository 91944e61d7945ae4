From Verif Require Import Util Bits_spec Bits_lemmas Crc_model.
Local Open Scope Z_scope.
Local Opaque POLY.

Definition w32 (x : Z) : Prop := 0 <= x < 2 ^ 32.
Definition hiz (k x : Z) : Prop := 0 <= x /\ forall n, k <= n -> Z.testbit x n = false.
Lemma w32_bits x : w32 x <-> hiz 32 x.
Proof.
  unfold w32, hiz. split.
  - intros H. split; [lia|]. intros n Hn. destruct (Z.eq_dec x 0) as [->|N]; [apply Z.bits_0|].
    apply Z.bits_above_log2; [lia|]. apply Z.log2_lt_pow2; try lia. apply (Z.lt_le_trans _ (2 ^ 32)); [lia|]. apply Z.pow_le_mono_r; lia.
  - intros [H0 H]. split; [exact H0|]. destruct (Z.eq_dec x 0) as [->|N]; [lia|].
    destruct (Z.ltb_spec x (2 ^ 32)) as [L|L]; [exact L|]. exfalso.
    assert (G : 32 <= Z.log2 x) by (change 32 with (Z.log2 (2 ^ 32)); apply Z.log2_le_mono; exact L).
    specialize (H _ G). rewrite Z.bit_log2 in H by lia. discriminate.
Qed.
Lemma w32_lxor a b : w32 a -> w32 b -> w32 (Z.lxor a b).
Proof.
  rewrite !w32_bits. intros [A A'] [B B']. split; [apply Z.lxor_nonneg; tauto|].
  intros n Hn. rewrite Z.lxor_spec, A', B' by exact Hn. reflexivity.
Qed.
Lemma w32_eq a b : w32 a -> w32 b -> (forall n, 0 <= n < 32 -> Z.testbit a n = Z.testbit b n) -> a = b.
Proof.
  rewrite !w32_bits. intros [_ A] [_ B] H. apply Z.bits_inj'. intros n Hn.
  destruct (Z.ltb_spec n 32); [apply H; lia|]. rewrite A, B by lia. reflexivity.
Qed.
Lemma ones32_bit n : 0 <= n -> Z.testbit ones32 n = (n <? 32).
Proof. intros H. change ones32 with (Z.ones 32). rewrite Z.testbit_ones_nonneg by lia. reflexivity. Qed.
Lemma poly_w : w32 POLY.
Proof. Transparent POLY. unfold w32, POLY. lia. Qed.
Local Opaque POLY.
Lemma land_ones_w x : w32 (Z.land x ones32).
Proof. change ones32 with (Z.ones 32). rewrite Z.land_ones by lia. unfold w32. apply Z.mod_pos_bound. lia. Qed.
Lemma bit_w x : w32 (bit_step x).
Proof. unfold bit_step. apply w32_lxor; [apply land_ones_w|]. destruct (Z.testbit x 31); [apply poly_w|unfold w32; lia]. Qed.
Lemma bit_tb x n : 0 <= n < 32 -> Z.testbit (bit_step x) n = xorb (if n =? 0 then false else Z.testbit x (n - 1)) (Z.testbit x 31 && Z.testbit POLY n).
Proof.
  intros H. unfold bit_step. rewrite Z.lxor_spec, Z.land_spec, ones32_bit by lia.
  destruct (Z.ltb_spec n 32); [|lia]. rewrite Bool.andb_true_r. f_equal.
  - destruct (Z.eqb_spec n 0) as [->|N]; [apply Z.shiftl_spec_low; lia|]. rewrite Z.shiftl_spec by lia. reflexivity.
  - destruct (Z.testbit x 31); [reflexivity|]. apply Z.bits_0.
Qed.
Lemma bit_lin a b : bit_step (Z.lxor a b) = Z.lxor (bit_step a) (bit_step b).
Proof.
  apply w32_eq; [apply bit_w|apply w32_lxor; apply bit_w|]. intros n Hn.
  rewrite Z.lxor_spec, !bit_tb, !Z.lxor_spec by exact Hn.
  destruct (n =? 0), (Z.testbit a 31), (Z.testbit b 31), (Z.testbit POLY n); cbn;
  destruct (Z.testbit a (n - 1)), (Z.testbit b (n - 1)); reflexivity.
Qed.
Lemma iter_lin k a b : iter k bit_step (Z.lxor a b) = Z.lxor (iter k bit_step a) (iter k bit_step b).
Proof. revert a b. induction k as [|k IH]; intros a b; cbn [iter]; [reflexivity|]. rewrite bit_lin. apply IH. Qed.
Lemma iter_w k x : w32 x -> w32 (iter k bit_step x).
Proof. revert x. induction k as [|k IH]; intros x H; cbn [iter]; [exact H|]. apply IH, bit_w. Qed.
Lemma poly_odd : Z.testbit POLY 0 = true.
Proof. Transparent POLY. reflexivity. Qed.
Local Opaque POLY.
Lemma bit_inj0 x : w32 x -> bit_step x = 0 -> x = 0.
Proof.
  intros Hx H. assert (T31 : Z.testbit x 31 = false).
  { pose proof (bit_tb x 0 ltac:(lia)) as B. rewrite H, Z.bits_0, poly_odd in B. destruct (Z.testbit x 31); [discriminate B|reflexivity]. }
  apply w32_eq; [exact Hx|unfold w32; lia|]. intros n Hn. rewrite Z.bits_0.
  destruct (Z.eq_dec n 31) as [->|N]; [exact T31|].
  pose proof (bit_tb x (n + 1) ltac:(lia)) as B. rewrite H, Z.bits_0, T31 in B.
  destruct (Z.eqb_spec (n + 1) 0); [lia|]. replace (n + 1 - 1) with n in B by lia. destruct (Z.testbit x n); [discriminate B|reflexivity].
Qed.
Lemma iter_inj k a b : w32 a -> w32 b -> iter k bit_step a = iter k bit_step b -> a = b.
Proof.
  intros Ha Hb H. apply Z.lxor_eq. assert (G : iter k bit_step (Z.lxor a b) = 0) by (rewrite iter_lin, H; apply Z.lxor_nilpotent).
  assert (W : w32 (Z.lxor a b)) by (apply w32_lxor; auto). revert W G. generalize (Z.lxor a b). clear.
  induction k as [|k IH]; cbn [iter]; intros x W G; [exact G|]. apply bit_inj0; [exact W|]. apply IH; [apply bit_w|exact G].
Qed.

(** the specification register *)
Lemma top_bit r : w32 r -> (2 ^ 31 <=? r) = Z.testbit r 31.
Proof.
  intros [A B]. destruct (Z.leb_spec (2 ^ 31) r) as [L|L]; symmetry.
  - apply Z.testbit_true; [lia|]. Z.div_mod_to_equations. lia.
  - apply Z.testbit_false; [lia|]. Z.div_mod_to_equations. lia.
Qed.
Lemma crc_bit_eq r b : w32 r -> crc_bit r b = bit_step (Z.lxor r (if b then 2 ^ 31 else 0)).
Proof.
  intros H. assert (Hs : (2 * r) mod 2 ^ 32 = Z.land (Z.shiftl r 1) ones32).
  { change ones32 with (Z.ones 32). rewrite Z.land_ones, Z.shiftl_mul_pow2 by lia. f_equal. lia. }
  unfold crc_bit. rewrite top_bit by exact H. rewrite Hs, bit_lin.
  replace (bit_step (if b then 2 ^ 31 else 0)) with (if b then POLY else 0) by (destruct b; vm_compute; reflexivity).
  unfold bit_step. change 0x04C11DB7 with POLY.
  destruct (Z.testbit r 31), b; cbn [xorb]; rewrite ?Z.lxor_0_r, ?Z.lxor_assoc, ?Z.lxor_nilpotent, ?Z.lxor_0_r; reflexivity.
Qed.
Lemma w32_pow31 b : w32 (if b : bool then 2 ^ 31 else 0).
Proof. destruct b; unfold w32; lia. Qed.
Lemma crc_bit_w r b : w32 r -> w32 (crc_bit r b).
Proof. intros H. rewrite crc_bit_eq by exact H. apply bit_w. Qed.
Lemma crc_bits_w bs : forall r, w32 r -> w32 (crc_bits r bs).
Proof. induction bs as [|b bs IH]; intros r H; cbn; [exact H|]. apply IH, crc_bit_w, H. Qed.
Lemma crc_bits_app r a b : crc_bits r (a ++ b) = crc_bits (crc_bits r a) b.
Proof. apply fold_left_app. Qed.

Lemma bits_val_cons b w : bits_val (b :: w) = (if b then 2 ^ Z.of_nat (length w) else 0) + bits_val w.
Proof.
  unfold bits_val. cbn [fold_left].
  assert (G : forall l a, fold_left (fun a (b : bool) => 2 * a + (if b then 1 else 0)) l a = a * 2 ^ Z.of_nat (length l) + fold_left (fun a (b : bool) => 2 * a + (if b then 1 else 0)) l 0).
  { induction l as [|x l IH]; intros a; cbn [fold_left length]; [cbn; lia|]. rewrite IH, (IH (2 * 0 + (if x then 1 else 0))).
    rewrite Nat2Z.inj_succ, Z.pow_succ_r by lia. destruct x; lia. }
  rewrite G. destruct b; lia.
Qed.
Lemma bits_val_bound w : 0 <= bits_val w < 2 ^ Z.of_nat (length w).
Proof.
  induction w as [|b w IH]; [cbn; lia|]. rewrite bits_val_cons. cbn [length]. rewrite Nat2Z.inj_succ, Z.pow_succ_r by lia. destruct b; lia.
Qed.
Lemma bit_step_small x : 0 <= x < 2 ^ 31 -> bit_step x = 2 * x.
Proof.
  intros H. unfold bit_step. change ones32 with (Z.ones 32). rewrite Z.land_ones, Z.shiftl_mul_pow2 by lia.
  assert (E : Z.testbit x 31 = false). { rewrite <- top_bit by (unfold w32; lia). apply Z.leb_gt. lia. }
  rewrite E, Z.lxor_0_r. change (2 ^ 1) with 2. rewrite Z.mod_small by lia. lia.
Qed.
Lemma lxor_disjoint a k v : 0 <= k -> 0 <= v < 2 ^ k -> a * 2 ^ k + v = Z.lxor (a * 2 ^ k) v.
Proof.
  intros Hk Hv. rewrite Z.add_nocarry_lxor; [reflexivity|]. apply Z.bits_inj'. intros n Hn. rewrite Z.bits_0, Z.land_spec.
  destruct (Z.ltb_spec n k).
  - rewrite Z.mul_pow2_bits_low by lia. reflexivity.
  - rewrite <- (Z.mod_small v (2 ^ k)) by lia. rewrite Z.mod_pow2_bits_high by lia. apply Bool.andb_false_r.
Qed.
(** feeding at most 32 bits = xor them at the top, then shift *)
Lemma feed w : forall r, w32 r -> (length w <= 32)%nat ->
  crc_bits r w = iter (length w) bit_step (Z.lxor r (bits_val w * 2 ^ (32 - Z.of_nat (length w)))).
Proof.
  induction w as [|b w IH]; intros r Hr Hl.
  - cbn [crc_bits fold_left length iter]. rewrite Z.mul_0_l, Z.lxor_0_r. reflexivity.
  - cbn [crc_bits fold_left length iter] in *. change (fold_left crc_bit w (crc_bit r b)) with (crc_bits (crc_bit r b) w).
    rewrite IH by (try lia; apply crc_bit_w, Hr). f_equal. rewrite crc_bit_eq by exact Hr.
    rewrite bits_val_cons. pose proof (bits_val_bound w) as Bw. set (k := Z.of_nat (length w)) in *.
    assert (Hk : 0 <= k <= 31) by lia.
    replace (32 - Z.of_nat (S (length w))) with (31 - k) by lia.
    assert (P : 2 ^ k * 2 ^ (31 - k) = 2 ^ 31) by (rewrite <- Z.pow_add_r by lia; f_equal; lia).
    assert (P2 : 2 ^ (32 - k) = 2 * 2 ^ (31 - k)) by (rewrite <- Z.pow_succ_r by lia; f_equal; lia).
    assert (Hb : 0 <= bits_val w * 2 ^ (31 - k) < 2 ^ 31). { rewrite <- P. split; [nia|]. apply Z.mul_lt_mono_pos_r; lia. }
    replace (((if b then 2 ^ k else 0) + bits_val w) * 2 ^ (31 - k))
      with (Z.lxor (if b then 2 ^ 31 else 0) (bits_val w * 2 ^ (31 - k))).
    + rewrite <- Z.lxor_assoc, (bit_lin (Z.lxor _ _)). f_equal. rewrite bit_step_small by exact Hb. rewrite P2. lia.
    + destruct b; [|rewrite Z.lxor_0_l; lia]. change (2 ^ 31) with (1 * 2 ^ 31). rewrite <- lxor_disjoint by lia. lia.
Qed.
