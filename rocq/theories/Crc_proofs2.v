From Verif Require Import Util Bits_spec Bits_lemmas Crc_model Crc_proofs.
Local Open Scope Z_scope.

Definition swap_ix (n : Z) : Z := 24 - 8 * (n / 8) + n mod 8.
Lemma bswap_tb x n : 0 <= n < 32 -> Z.testbit (bswap x) n = Z.testbit x (swap_ix n).
Proof.
  intros H.
  assert (D : In n (zseq 0 32)) by (apply zseq_In; lia). revert D. cbn [zseq In Z.add]. clear H. intros D.
  unfold bswap.
  repeat (destruct D as [D|D]; [subst n;
    repeat (rewrite ?Z.lor_spec, ?Z.land_spec; first [rewrite Z.testbit_neg_r by lia | rewrite Z.shiftl_spec by lia | rewrite Z.shiftr_spec by lia]);
    rewrite ?Z.lor_spec, ?Z.land_spec;
    repeat (rewrite Z.testbit_neg_r by lia);
    repeat match goal with |- context[Z.testbit (Zpos ?p) ?k] => let v := eval vm_compute in (Z.testbit (Zpos p) k) in change (Z.testbit (Zpos p) k) with v end;
    rewrite ?Bool.andb_true_r, ?Bool.andb_false_r, ?Bool.orb_false_r, ?Bool.orb_false_l;
    unfold swap_ix; f_equal; vm_compute; reflexivity |]).
  contradiction.
Qed.
Lemma bswap_w x : w32 (bswap x).
Proof.
  apply w32_bits. unfold bswap. split.
  - apply Z.lor_nonneg. split; [apply Z.shiftl_nonneg|]; apply Z.lor_nonneg; split; apply Z.land_nonneg; right; lia.
  - intros n Hn. rewrite !Z.lor_spec, Z.shiftl_spec, !Z.lor_spec, !Z.land_spec by lia.
    rewrite (testbit_high 0xff00 16 (n - 16)), (testbit_high 0xff 16 (n - 16)), (testbit_high 0xff00 16 n), (testbit_high 0xff 16 n) by lia. rewrite !Bool.andb_false_r. reflexivity.
Qed.
Lemma swap_ix_range n : 0 <= n < 32 -> 0 <= swap_ix n < 32.
Proof. unfold swap_ix. intros H. Z.div_mod_to_equations. lia. Qed.
Lemma swap_ix_inv n : 0 <= n < 32 -> swap_ix (swap_ix n) = n.
Proof. unfold swap_ix. intros H. Z.div_mod_to_equations. lia. Qed.
Lemma bswap_inv x : w32 x -> bswap (bswap x) = x.
Proof.
  intros H. apply w32_eq; [apply bswap_w|exact H|]. intros n Hn. rewrite !bswap_tb by (try apply swap_ix_range; lia). rewrite swap_ix_inv by lia. reflexivity.
Qed.
Lemma bswap_lin a b : bswap (Z.lxor a b) = Z.lxor (bswap a) (bswap b).
Proof.
  apply w32_eq; [apply bswap_w|apply w32_lxor; apply bswap_w|]. intros n Hn. rewrite Z.lxor_spec, !bswap_tb, Z.lxor_spec by lia. reflexivity.
Qed.

(** tables *)
Definition z (x : Z) : Z := Z.lxor (look T0 (Z.land x 0xff)) (Z.shiftr x 8).
Lemma look_T0 i : is_byte i -> look T0 i = tab0 i.
Proof.
  intros H. apply Z.eqb_eq.
  apply (byte_sweep (fun i => look T0 i =? tab0 i)); [vm_compute; reflexivity|exact H].
Qed.
Lemma tab0_lin a b : tab0 (Z.lxor a b) = Z.lxor (tab0 a) (tab0 b).
Proof. unfold tab0. rewrite Z.shiftl_lxor, iter_lin, bswap_lin. reflexivity. Qed.
Lemma tab0_w a : w32 (tab0 a).
Proof. apply bswap_w. Qed.
Lemma land_byte x : is_byte (Z.land x 0xff).
Proof. change 0xff with (Z.ones 8). rewrite Z.land_ones by lia. unfold is_byte. apply Z.mod_pos_bound. lia. Qed.
Lemma z_eq x : z x = Z.lxor (tab0 (Z.land x 0xff)) (Z.shiftr x 8).
Proof. unfold z. rewrite look_T0 by apply land_byte. reflexivity. Qed.
Lemma land_lxor a b m : Z.land (Z.lxor a b) m = Z.lxor (Z.land a m) (Z.land b m).
Proof. apply Z.bits_inj'. intros n Hn. rewrite Z.land_spec, !Z.lxor_spec, !Z.land_spec. destruct (Z.testbit a n), (Z.testbit b n), (Z.testbit m n); reflexivity. Qed.
Lemma z_lin a b : z (Z.lxor a b) = Z.lxor (z a) (z b).
Proof.
  rewrite !z_eq, land_lxor, tab0_lin, Z.shiftr_lxor.
  rewrite !Z.lxor_assoc. f_equal. rewrite <- !Z.lxor_assoc. f_equal. apply Z.lxor_comm.
Qed.
Lemma shiftr_w x k : 0 <= k -> w32 x -> w32 (Z.shiftr x k).
Proof. intros Hk [A B]. rewrite Z.shiftr_div_pow2 by exact Hk. unfold w32. split; [apply Z.div_pos; lia|]. apply Z.le_lt_trans with x; [|exact B]. apply Z.div_le_upper_bound; [lia|]. assert (1 <= 2 ^ k) by lia. nia. Qed.
Lemma z_w x : w32 x -> w32 (z x).
Proof. intros H. rewrite z_eq. apply w32_lxor; [apply tab0_w|apply shiftr_w; [lia|exact H]]. Qed.
Lemma tab0_0 : tab0 0 = 0.
Proof. vm_compute. reflexivity. Qed.
Lemma z_shift b : is_byte b \/ 0 <= b -> z (Z.shiftl b 8) = b.
Proof.
  intros H. rewrite z_eq. replace (Z.land (Z.shiftl b 8) 255) with 0.
  - rewrite tab0_0, Z.lxor_0_l. rewrite Z.shiftr_shiftl_l by lia. apply Z.shiftl_0_r.
  - change 255 with (Z.ones 8). rewrite Z.land_ones, Z.shiftl_mul_pow2 by lia. symmetry. apply Z.mod_mul. lia.
Qed.
Lemma byte_land b : is_byte b -> Z.land b 0xff = b.
Proof. intros H. change 0xff with (Z.ones 8). rewrite Z.land_ones by lia. apply Z.mod_small. exact H. Qed.
Lemma byte_lxor a b : is_byte a -> is_byte b -> is_byte (Z.lxor a b).
Proof. intros A B. rewrite <- (byte_land a A), <- (byte_land b B), <- land_lxor. apply land_byte. Qed.
Lemma byte_shiftr b : is_byte b -> Z.shiftr b 8 = 0.
Proof. intros H. rewrite Z.shiftr_div_pow2 by lia. apply Z.div_small. exact H. Qed.
Lemma look_T0_z b : is_byte b -> z b = tab0 b.
Proof. intros H. rewrite z_eq, byte_land, byte_shiftr, Z.lxor_0_r by exact H. reflexivity. Qed.

Lemma step_T0 c b : is_byte b -> byte_step T0 c b = z (Z.lxor c b).
Proof.
  intros H. unfold byte_step, z. rewrite land_lxor, (byte_land b H), Z.shiftr_lxor, (byte_shiftr b H), Z.lxor_0_r. reflexivity.
Qed.
Lemma look_ctx0 i : is_byte i -> look ctx i = look T0 i.
Proof. intros H. apply Z.eqb_eq. apply (byte_sweep (fun i => look ctx i =? look T0 i)); [vm_compute; reflexivity|exact H]. Qed.
Lemma look_ctx1 i : is_byte i -> look ctx (1 * 256 + i) = z (z i).
Proof. intros H. apply Z.eqb_eq. apply (byte_sweep (fun i => look ctx (1 * 256 + i) =? z (z i))); [vm_compute; reflexivity|exact H]. Qed.
Lemma look_ctx2 i : is_byte i -> look ctx (2 * 256 + i) = z (z (z i)).
Proof. intros H. apply Z.eqb_eq. apply (byte_sweep (fun i => look ctx (2 * 256 + i) =? z (z (z i)))); [vm_compute; reflexivity|exact H]. Qed.
Lemma look_ctx3 i : is_byte i -> look ctx (3 * 256 + i) = z (z (z (z i))).
Proof. intros H. apply Z.eqb_eq. apply (byte_sweep (fun i => look ctx (3 * 256 + i) =? z (z (z (z i))))); [vm_compute; reflexivity|exact H]. Qed.
Lemma step_ctx c b : is_byte b -> byte_step ctx c b = z (Z.lxor c b).
Proof.
  intros H. rewrite <- step_T0 by exact H. unfold byte_step. rewrite look_ctx0; [reflexivity|]. apply byte_lxor; [apply land_byte|exact H].
Qed.

(** a word is the xor of its four bytes in place *)
Lemma word_split x : w32 x -> x = Z.lxor (Z.lxor (Z.land x 0xff) (Z.shiftl (Z.land (Z.shiftr x 8) 0xff) 8))
   (Z.lxor (Z.shiftl (Z.land (Z.shiftr x 16) 0xff) 16) (Z.shiftl (Z.shiftr x 24) 24)).
Proof.
  intros Hx. apply Z.bits_inj'. intros n Hn. rewrite !Z.lxor_spec, !Z.shiftl_spec by lia. rewrite !Z.land_spec.
  change 0xff with (Z.ones 8).
  assert (T : forall k, Z.testbit (Z.ones 8) k = (0 <=? k) && (k <? 8)). { intros k. rewrite Z.testbit_ones by lia. reflexivity. }
  rewrite !T.
  assert (R : forall k, 0 <= k -> (if 0 <=? n - k then Z.testbit (Z.shiftr x k) (n - k) else false) = (if 0 <=? n - k then Z.testbit x n else false)).
  { intros k Hk. destruct (Z.leb_spec 0 (n - k)); [|reflexivity]. rewrite Z.shiftr_spec by lia. f_equal. lia. }
  pose proof (R 8 ltac:(lia)) as R8. pose proof (R 16 ltac:(lia)) as R16. pose proof (R 24 ltac:(lia)) as R24.
  assert (N24 : n < 24 -> Z.testbit (Z.shiftr x 24) (n - 24) = false) by (intros; apply Z.testbit_neg_r; lia).
  repeat match goal with |- context[?a <=? ?b] => destruct (Z.leb_spec a b) | |- context[?a <? ?b] => destruct (Z.ltb_spec a b)
    | H : context[?a <=? ?b] |- _ => destruct (Z.leb_spec a b) end; try lia; cbn [andb];
  rewrite ?Bool.andb_false_r, ?Bool.andb_true_r, ?R8, ?R16, ?R24, ?N24 by lia; destruct (Z.testbit x n); reflexivity.
Qed.
Lemma z_shl b k : 0 <= b -> 0 <= k -> z (Z.shiftl b (8 + k)) = Z.shiftl b k.
Proof.
  intros Hb Hk. replace (Z.shiftl b (8 + k)) with (Z.shiftl (Z.shiftl b k) 8) by (rewrite Z.shiftl_shiftl by lia; f_equal; lia).
  apply z_shift. right. apply Z.shiftl_nonneg. exact Hb.
Qed.
Lemma lor4_lxor b0 b1 b2 b3 : is_byte b0 -> is_byte b1 -> is_byte b2 -> is_byte b3 ->
  Z.lor (Z.lor b0 (Z.shiftl b1 8)) (Z.lor (Z.shiftl b2 16) (Z.shiftl b3 24))
  = Z.lxor (Z.lxor b0 (Z.shiftl b1 8)) (Z.lxor (Z.shiftl b2 16) (Z.shiftl b3 24)).
Proof.
  intros H0 H1 H2 H3. apply Z.bits_inj'. intros n Hn. rewrite !Z.lxor_spec, !Z.lor_spec, !Z.shiftl_spec by lia.
  assert (T : forall b k, is_byte b -> k < 0 \/ 8 <= k -> Z.testbit b k = false).
  { intros b k Hb [Hk|Hk]; [apply Z.testbit_neg_r; lia|]. apply (testbit_high b 8); [exact Hb|lia]. }
  assert (C : n < 8 \/ 8 <= n < 16 \/ 16 <= n < 24 \/ 24 <= n) by lia.
  destruct C as [C|[C|[C|C]]];
  [ rewrite (T b1), (T b2), (T b3) by (auto; lia); destruct (Z.testbit b0 n)
  | rewrite (T b0), (T b2), (T b3) by (auto; lia); destruct (Z.testbit b1 (n - 8))
  | rewrite (T b0), (T b1), (T b3) by (auto; lia); destruct (Z.testbit b2 (n - 16))
  | rewrite (T b0), (T b1), (T b2) by (auto; lia); destruct (Z.testbit b3 (n - 24)) ]; reflexivity.
Qed.

Lemma word_step_z c b0 b1 b2 b3 : w32 c -> is_byte b0 -> is_byte b1 -> is_byte b2 -> is_byte b3 ->
  word_step ctx c b0 b1 b2 b3 = z (z (z (z (Z.lxor c (Z.lxor (Z.lxor b0 (Z.shiftl b1 8)) (Z.lxor (Z.shiftl b2 16) (Z.shiftl b3 24))))))).
Proof.
  intros Hc H0 H1 H2 H3. unfold word_step. rewrite lor4_lxor by assumption.
  set (x := Z.lxor c _).
  assert (Wx : w32 x).
  { assert (Sh : forall b k, 0 <= k <= 24 -> is_byte b -> w32 (Z.shiftl b k)).
    { intros b k Hk [Hb Hb']. rewrite Z.shiftl_mul_pow2 by lia. unfold w32. assert (0 < 2 ^ k) by lia.
      assert (2 ^ k <= 2 ^ 24) by (apply Z.pow_le_mono_r; lia). split; [nia|]. change (2 ^ 32) with (256 * 2 ^ 24). nia. }
    apply w32_lxor; [exact Hc|]. repeat apply w32_lxor; try (apply Sh; [lia|assumption]). destruct H0. unfold w32. lia. }
  assert (B3 : is_byte (Z.shiftr x 24)).
  { destruct Wx. rewrite Z.shiftr_div_pow2 by lia. unfold is_byte. split; [apply Z.div_pos; lia|]. apply Z.div_lt_upper_bound; lia. }
  rewrite (word_split x Wx) at 5. rewrite !z_lin.
  rewrite look_ctx3, look_ctx2, look_ctx1 by apply land_byte. change (0 * 256 + Z.shiftr x 24) with (Z.shiftr x 24).
  rewrite look_ctx0, look_T0 by exact B3. rewrite <- look_T0_z by exact B3.
  assert (N : forall y, 0 <= Z.land y 255) by (intros y; destruct (land_byte y); lia).
  assert (NB : 0 <= Z.shiftr x 24) by (destruct B3; lia).
  assert (S1 : z (Z.shiftl (Z.land (Z.shiftr x 8) 255) 8) = Z.land (Z.shiftr x 8) 255) by (apply z_shift; right; apply N).
  assert (S2 : z (z (Z.shiftl (Z.land (Z.shiftr x 16) 255) 16)) = Z.land (Z.shiftr x 16) 255).
  { rewrite (z_shl _ 8) by (try apply N; lia). apply z_shift; right; apply N. }
  assert (S3 : z (z (z (Z.shiftl (Z.shiftr x 24) 24))) = Z.shiftr x 24).
  { rewrite (z_shl _ 16), (z_shl _ 8) by (auto; lia). apply z_shift; right; auto. }
  rewrite S1, S2, S3. rewrite !Z.lxor_assoc. reflexivity.
Qed.
Lemma four_steps c b0 b1 b2 b3 : is_byte b0 -> is_byte b1 -> is_byte b2 -> is_byte b3 ->
  fold_left (byte_step ctx) [b0; b1; b2; b3] c = z (z (z (z (Z.lxor c (Z.lxor (Z.lxor b0 (Z.shiftl b1 8)) (Z.lxor (Z.shiftl b2 16) (Z.shiftl b3 24))))))).
Proof.
  intros H0 H1 H2 H3. cbn [fold_left]. rewrite !step_ctx by assumption.
  assert (P : forall b, is_byte b -> 0 <= b) by (intros b [? ?]; lia).
  rewrite !z_lin.
  assert (Z1 : forall b, 0 <= b -> z (Z.shiftl b 8) = b) by (intros b Hb; apply z_shift; auto).
  assert (Z2 : forall b, 0 <= b -> z (Z.shiftl b 16) = Z.shiftl b 8) by (intros b Hb; apply (z_shl b 8); lia).
  assert (Z3 : forall b, 0 <= b -> z (Z.shiftl b 24) = Z.shiftl b 16) by (intros b Hb; apply (z_shl b 16); lia).
  rewrite (Z3 b3), (Z2 b2), (Z2 b3), (Z1 b1), (Z1 b2), (Z1 b3) by auto.
  rewrite !Z.lxor_assoc. reflexivity.
Qed.
Lemma fold_w l : forall c, bytes l -> w32 c -> w32 (fold_left (byte_step ctx) l c).
Proof.
  induction l as [|b l IH]; intros c Hl Hc; cbn [fold_left]; [exact Hc|]. apply bytes_cons in Hl. destruct Hl as [Hb Hl].
  apply IH; [exact Hl|]. rewrite step_ctx by exact Hb. apply z_w, w32_lxor; [exact Hc|]. destruct Hb. unfold w32. lia.
Qed.
Lemma words_fold n : forall l c, (length l <= n)%nat -> bytes l -> w32 c -> words ctx c l = fold_left (byte_step ctx) l c.
Proof.
  induction n as [|n IH]; intros l c Hn Hl Hc.
  - destruct l; [reflexivity|cbn in Hn; lia].
  - destruct l as [|b0 [|b1 [|b2 [|b3 l]]]]; try reflexivity. cbn [words].
    assert (HB : is_byte b0 /\ is_byte b1 /\ is_byte b2 /\ is_byte b3 /\ bytes l).
    { repeat (apply bytes_cons in Hl; destruct Hl as [? Hl]). auto. }
    destruct HB as (H0 & H1 & H2 & H3 & HL).
    change (b0 :: b1 :: b2 :: b3 :: l) with ([b0; b1; b2; b3] ++ l). rewrite fold_left_app.
    assert (E : word_step ctx c b0 b1 b2 b3 = fold_left (byte_step ctx) [b0; b1; b2; b3] c).
    { rewrite word_step_z, four_steps by assumption. reflexivity. }
    rewrite E. apply IH; [cbn in Hn; lia|exact HL|]. apply fold_w; [|exact Hc]. unfold bytes. auto 10 using Forall_cons, Forall_nil.
Qed.
Lemma av_fold a c l : bytes l -> w32 c -> av_crc ctx a c l = fold_left (byte_step ctx) l c.
Proof.
  intros Hl Hc. unfold av_crc. replace (look ctx 256) with 0 by (vm_compute; reflexivity). cbn [Z.eqb].
  set (h := ((4 - a) mod 4)%nat). rewrite <- (firstn_skipn h l) at 3. rewrite fold_left_app.
  rewrite <- (firstn_skipn h l) in Hl. apply bytes_app in Hl. destruct Hl as [H1 H2].
  apply (words_fold (length (skipn h l))); [lia|exact H2|]. apply fold_w; assumption.
Qed.

(** implementation against specification *)
Lemma bits_val_byte b : is_byte b -> bits_val (byte_bits b) = b.
Proof. intros H. unfold byte_bits. rewrite bits_val_field. apply Z.mod_small. exact H. Qed.
Lemma iter_small k x : 0 <= x -> x * 2 ^ Z.of_nat k < 2 ^ 32 -> iter k bit_step x = x * 2 ^ Z.of_nat k.
Proof.
  revert x. induction k as [|k IH]; intros x Hx Hk; cbn [iter]; [cbn; lia|].
  rewrite Nat2Z.inj_succ, Z.pow_succ_r in * by lia. assert (0 < 2 ^ Z.of_nat k) by lia.
  rewrite bit_step_small by nia. rewrite IH by lia. lia.
Qed.
Lemma spec_byte r b : w32 r -> is_byte b -> bswap (crc_bits r (byte_bits b)) = byte_step ctx (bswap r) b.
Proof.
  intros Hr Hb. rewrite feed by (auto; cbn; lia). rewrite bits_val_byte by exact Hb.
  change (length (byte_bits b)) with 8%nat. change (32 - Z.of_nat 8) with 24.
  rewrite iter_lin, bswap_lin, step_ctx by exact Hb. rewrite z_lin, (look_T0_z b Hb).
  f_equal; [|unfold tab0; rewrite Z.shiftl_mul_pow2 by lia; reflexivity].
  (* bswap (iter 8 r) = z (bswap r) *)
  rewrite z_eq.
  assert (Er : r = Z.lxor (Z.shiftl (Z.shiftr r 24) 24) (r mod 2 ^ 24)).
  { rewrite Z.shiftl_mul_pow2, Z.shiftr_div_pow2 by lia. rewrite <- lxor_disjoint; [|lia|apply Z.mod_pos_bound; lia].
    rewrite (Z.div_mod r (2 ^ 24)) at 1 by lia. lia. }
  assert (Eb : Z.land (bswap r) 255 = Z.shiftr r 24).
  { apply Z.bits_inj'. intros n Hn. rewrite Z.land_spec. change 255 with (Z.ones 8). rewrite Z.testbit_ones_nonneg, Z.shiftr_spec by lia.
    destruct (Z.ltb_spec n 8); [|rewrite Bool.andb_false_r; symmetry; apply (testbit_high r 32); [exact Hr|lia]].
    rewrite Bool.andb_true_r, bswap_tb by lia. f_equal. unfold swap_ix. Z.div_mod_to_equations. lia. }
  rewrite Er at 1. rewrite iter_lin, bswap_lin. f_equal; [unfold tab0; rewrite Eb; reflexivity|].
  pose proof (Z.mod_pos_bound r (2 ^ 24) ltac:(lia)) as M.
  rewrite iter_small by lia.
  apply w32_eq; [apply bswap_w|apply shiftr_w; [lia|apply bswap_w]|]. intros n Hn.
  rewrite bswap_tb, Z.shiftr_spec by lia. change (Z.of_nat 8) with 8.
  assert (Hsw := swap_ix_range n Hn).
  destruct (Z.ltb_spec n 24).
  - rewrite bswap_tb by lia. replace (swap_ix n) with (swap_ix (n + 8) + 8) by (unfold swap_ix; Z.div_mod_to_equations; lia).
    pose proof (swap_ix_range (n + 8) ltac:(lia)) as R.
    rewrite Z.mul_pow2_bits by lia. replace (swap_ix (n + 8) + 8 - 8) with (swap_ix (n + 8)) by lia. rewrite Z.mod_pow2_bits_low; [reflexivity|]. unfold swap_ix in *. Z.div_mod_to_equations; lia.
  - rewrite Z.mul_pow2_bits_low by (unfold swap_ix in *; Z.div_mod_to_equations; lia).
    symmetry. apply (testbit_high _ 32); [apply bswap_w|lia].
Qed.
Lemma spec_bytes l : forall r, w32 r -> bytes l -> bswap (crc_bits r (bytes_bits l)) = fold_left (byte_step ctx) l (bswap r).
Proof.
  induction l as [|b l IH]; intros r Hr Hl; [reflexivity|]. apply bytes_cons in Hl. destruct Hl as [Hb Hl].
  cbn [fold_left bytes_bits flat_map]. change (flat_map byte_bits l) with (bytes_bits l). rewrite crc_bits_app, IH by (auto; apply crc_bits_w, Hr).
  rewrite spec_byte by assumption. reflexivity.
Qed.
Lemma crc_32_eq a l c : bytes l -> w32 c -> crc_32 a l c = crc_bits (bswap c) (bytes_bits l).
Proof.
  intros Hl Hc. unfold crc_32. rewrite av_fold by assumption.
  rewrite <- (bswap_inv c Hc) at 1. rewrite <- spec_bytes by (auto; apply bswap_w). apply bswap_inv. apply crc_bits_w, bswap_w.
Qed.

(** residue and error detection *)
Lemma iter_0 k : iter k bit_step 0 = 0.
Proof. induction k; [reflexivity|]. cbn [iter]. exact IHk. Qed.
Lemma be32_bits v : w32 v -> bits_val (bytes_bits (be32 v)) = v /\ length (bytes_bits (be32 v)) = 32%nat.
Proof.
  intros Hv. split; [|rewrite bytes_bits_length; reflexivity].
  unfold be32, w32 in *. cbn [bytes_bits flat_map]. rewrite app_nil_r, !bits_val_app.
  assert (B : forall y, bits_val (byte_bits (y mod 256)) = y mod 256) by (intros y; apply bits_val_byte; unfold is_byte; apply Z.mod_pos_bound; lia).
  rewrite !B, !app_length. change (length (byte_bits _)) with 8%nat. change (Z.of_nat (8 + (8 + 8))) with 24. change (Z.of_nat (8 + 8)) with 16. change (Z.of_nat 8) with 8.
  Z.div_mod_to_equations. lia.
Qed.
Lemma residue r l : w32 r -> crc_bits r (bytes_bits (l ++ be32 (crc_bits r (bytes_bits l)))) = 0.
Proof.
  intros Hr. rewrite bytes_bits_app, crc_bits_app. set (v := crc_bits r (bytes_bits l)).
  assert (Hv : w32 v) by (apply crc_bits_w, Hr). destruct (be32_bits v Hv) as [E L].
  rewrite feed by (auto; lia). rewrite E, L. change (32 - Z.of_nat 32) with 0. rewrite Z.pow_0_r, Z.mul_1_r, Z.lxor_nilpotent. apply iter_0.
Qed.
Lemma bits_val_inj a : forall b, length a = length b -> bits_val a = bits_val b -> a = b.
Proof.
  induction a as [|x a IH]; intros [|y b] L E; try discriminate; [reflexivity|]. injection L as L.
  rewrite !Crc_proofs.bits_val_cons in E. pose proof (bits_val_bound a). pose proof (bits_val_bound b). rewrite L in *.
  destruct x, y; try lia; f_equal; apply IH; auto; lia.
Qed.
Lemma crc_bits_inj bs : forall r r', w32 r -> w32 r' -> crc_bits r bs = crc_bits r' bs -> r = r'.
Proof.
  induction bs as [|b bs IH]; intros r r' H H' E; [exact E|]. cbn in E. apply IH in E; [|apply crc_bit_w; auto|apply crc_bit_w; auto].
  rewrite !crc_bit_eq in E by assumption.
  apply (iter_inj 1) in E; [|apply w32_lxor; auto; apply w32_pow31|apply w32_lxor; auto; apply w32_pow31].
  apply (f_equal (fun x => Z.lxor x (if b then 2 ^ 31 else 0))) in E. rewrite !Z.lxor_assoc, Z.lxor_nilpotent, !Z.lxor_0_r in E. exact E.
Qed.
Lemma burst r pre w w' post : w32 r -> length w = length w' -> (length w <= 32)%nat -> w <> w' ->
  crc_bits r (pre ++ w ++ post) <> crc_bits r (pre ++ w' ++ post).
Proof.
  intros Hr L Lw Hne E. rewrite !crc_bits_app in E. set (q := crc_bits r pre) in *. assert (Hq : w32 q) by (apply crc_bits_w, Hr).
  apply crc_bits_inj in E; try (apply crc_bits_w, Hq).
  rewrite !feed in E by (auto; lia). rewrite <- L in E.
  pose proof (bits_val_bound w) as B1. pose proof (bits_val_bound w') as B2. rewrite <- L in B2. set (k := Z.of_nat (length w)) in *.
  assert (P : 2 ^ k * 2 ^ (32 - k) = 2 ^ 32) by (rewrite <- Z.pow_add_r by lia; f_equal; lia).
  assert (0 < 2 ^ (32 - k)) by lia.
  assert (W : forall v, 0 <= v < 2 ^ k -> w32 (v * 2 ^ (32 - k))). { intros v Hv. unfold w32. rewrite <- P. nia. }
  apply iter_inj in E; [|apply w32_lxor; auto|apply w32_lxor; auto].
  apply (f_equal (Z.lxor q)) in E. rewrite <- !Z.lxor_assoc, Z.lxor_nilpotent, !Z.lxor_0_l in E.
  apply Z.mul_reg_r in E; [|lia]. apply Hne, bits_val_inj; auto.
Qed.
