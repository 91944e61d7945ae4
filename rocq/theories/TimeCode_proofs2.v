(** Lemmas about TimeCode_model: the receiver of linear time code. *)
From Verif Require Import Util SampleTab_model RangeMap_model TimeTab_model TimeCode_model TimeCode_proofs.
From Coq Require Import ZifyNat.
Local Open Scope Z_scope.
Local Ltac Zify.zify_post_hook ::= Z.div_mod_to_equations.

Definition val (A : Z) (l : list bool) : Z := fold_left (fun a b => 2 * a + Z.b2z b) l A.
Lemma val_app A l r : val A (l ++ r) = val (val A l) r. Proof. apply fold_left_app. Qed.
Lemma val_nonneg l : forall A, 0 <= A -> 0 <= val A l.
Proof. induction l as [|b l IH]; intros A H; [exact H|]. apply IH. destruct b; cbn [Z.b2z]; lia. Qed.
Lemma val_split l : forall A, val A l = A * 2 ^ zlen l + val 0 l.
Proof.
  induction l as [|b l IH]; intros A; [unfold val, zlen; cbn [fold_left length]; change (2 ^ Z.of_nat 0) with 1; lia|]. rewrite zlen_cons. change (val A (b :: l)) with (val (2 * A + Z.b2z b) l). change (val 0 (b :: l)) with (val (2 * 0 + Z.b2z b) l).
  rewrite IH, (IH (2 * 0 + _)). rewrite Z.pow_add_r by (pose proof (zlen_nonneg l); lia). change (2 ^ 1) with 2. ring.
Qed.
Lemma val_bound l : 0 <= val 0 l < 2 ^ zlen l.
Proof.
  induction l as [|b l IH]; [unfold val, zlen; cbn [fold_left length]; change (2 ^ Z.of_nat 0) with 1; lia|]. change (val 0 (b :: l)) with (val (2 * 0 + Z.b2z b) l). rewrite val_split, zlen_cons, Z.pow_add_r by (pose proof (zlen_nonneg l); lia).
  change (2 ^ 1) with 2. destruct b; cbn [Z.b2z]; lia.
Qed.
Lemma val_field pre f post A : (val A (pre ++ f ++ post) / 2 ^ zlen post) mod 2 ^ zlen f = val 0 f.
Proof.
  rewrite !val_app. rewrite (val_split post), Z.div_add_l by (apply Z.pow_nonzero; pose proof (zlen_nonneg post); lia). rewrite (Z.div_small (val 0 post)) by apply val_bound. rewrite Z.add_0_r.
  rewrite (val_split f), Z.add_comm, Z_mod_plus_full. apply Z.mod_small. apply val_bound.
Qed.
Lemma val_testbit l : forall i, (i < length l)%nat -> Z.testbit (val 0 l) (Z.of_nat i) = nth (length l - 1 - i) l false.
Proof.
  induction l as [|b l IH]; intros i H; [cbn [length] in H; lia|]. change (val 0 (b :: l)) with (val (2 * 0 + Z.b2z b) l). rewrite val_split. cbn [length] in *. pose proof (val_bound l) as B.
  destruct (Nat.eq_dec i (length l)) as [Q|Q].
  - subst i. replace (S (length l) - 1 - length l)%nat with 0%nat by lia. cbn [nth]. unfold zlen in *.
    apply Z.b2z_inj. rewrite Z.testbit_spec' by lia. rewrite Z.div_add_l by (apply Z.pow_nonzero; lia). rewrite Z.div_small by lia. destruct b; reflexivity.
  - replace (S (length l) - 1 - i)%nat with (S (length l - 1 - i)) by lia. cbn [nth]. rewrite <- IH by lia. unfold zlen.
    apply Z.b2z_inj. rewrite !Z.testbit_spec' by lia. replace (2 ^ Z.of_nat (length l)) with (2 ^ (Z.of_nat (length l) - Z.of_nat i - 1) * 2 * 2 ^ Z.of_nat i).
    2:{ rewrite <- (Z.pow_1_r 2) at 2. rewrite <- !Z.pow_add_r by lia. f_equal. lia. }
    rewrite Z.mul_assoc, Z.div_add_l by (apply Z.pow_nonzero; lia). rewrite Z.mul_assoc. rewrite Z.add_comm, Z_mod_plus_full. reflexivity.
Qed.
Lemma val_testbit_out l i : (length l <= i)%nat -> Z.testbit (val 0 l) (Z.of_nat i) = false.
Proof.
  intros H. pose proof (val_bound l) as B. unfold zlen in B. destruct (Z.eq_dec (val 0 l) 0) as [E|E]; [rewrite E; apply Z.bits_0|]. apply Z.bits_above_log2; [lia|].
  apply Z.log2_lt_pow2; [lia|]. apply Z.lt_le_trans with (2 ^ Z.of_nat (length l)); [lia|]. apply Z.pow_le_mono_r; lia.
Qed.

(** ** the register *)
Definition wide (lw : Z) : Prop := lw = 32 \/ lw = 64.
Definition reg (lw A : Z) : shift := mkSh (A / 2 ^ 48 mod 2 ^ lw) (A / 2 ^ 16 mod 2 ^ lw) (A mod 2 ^ 16).
Lemma bit_test x k : 0 <= k -> negb (Z.land (2 ^ k) x =? 0) = Z.testbit x k.
Proof.
  intros H. destruct (Z.testbit x k) eqn:E.
  - apply negb_true_iff. apply Z.eqb_neq. intros Q. assert (T : Z.testbit (Z.land (2 ^ k) x) k = false) by (rewrite Q; apply Z.bits_0). rewrite Z.land_spec, E, Z.pow2_bits_true in T by lia. discriminate.
  - apply negb_false_iff. apply Z.eqb_eq. apply Z.bits_inj'. intros i Hi. rewrite Z.land_spec, Z.bits_0. destruct (Z.eq_dec k i) as [<-|N]; [rewrite E; apply andb_false_r|]. rewrite Z.pow2_bits_false by lia. reflexivity.
Qed.
Lemma lor_bit x b : 0 <= x -> Z.lor (2 * x) (if b : bool then 1 else 0) = 2 * x + Z.b2z b.
Proof. intros H. destruct b; cbn [Z.b2z]; [|rewrite Z.lor_0_r; lia]. destruct x; [reflexivity|reflexivity|lia]. Qed.
Lemma shifted m x b : 0 < m -> Z.lor (Z.shiftl x 1 mod 2 ^ m) (if b : bool then 1 else 0) = (2 * x + Z.b2z b) mod 2 ^ m.
Proof.
  intros H. rewrite Z.shiftl_mul_pow2 by lia. change (2 ^ 1) with 2. replace m with (1 + (m - 1)) by lia. rewrite Z.pow_add_r by lia. change (2 ^ 1) with 2. rewrite (Z.mul_comm x). rewrite Z.mul_mod_distr_l by (try apply Z.pow_nonzero; lia).
  rewrite lor_bit by (apply Z.mod_pos_bound, Z.pow_pos_nonneg; lia). assert (P : 0 < 2 ^ (m - 1)) by (apply Z.pow_pos_nonneg; lia). set (p := 2 ^ (m - 1)) in *. clearbody p.
  apply Z.mod_unique_pos with (q := x / p). { pose proof (Z.mod_pos_bound x p P). destruct b; cbn [Z.b2z]; lia. }
  rewrite (Z.div_mod x p) at 1 by lia. ring.
Qed.
Lemma push_reg lw A b : wide lw -> 0 <= A -> sh_push lw (reg lw A) b = reg lw (2 * A + Z.b2z b).
Proof.
  intros W H. assert (L : 32 <= lw) by (destruct W; lia). unfold sh_push, reg. cbn [sh_one sh_two sh_check]. change 2147483648 with (2 ^ 31). change 32768 with (2 ^ 15). rewrite !bit_test by lia. cbv zeta. rewrite !shifted by lia.
  rewrite !Z.mod_pow2_bits_low by lia. rewrite <- !Z.shiftr_div_pow2 by lia. rewrite Z.shiftr_spec by lia. rewrite !Z.shiftr_div_pow2 by lia.
  rewrite !Z.testbit_spec' by lia. change (31 + 16) with 47.
  assert (E : forall k, 0 <= k -> (2 * A + Z.b2z b) / 2 ^ (k + 1) = 2 * (A / 2 ^ (k + 1)) + A / 2 ^ k mod 2).
  { intros k K. rewrite Z.pow_add_r by lia. change (2 ^ 1) with 2. rewrite (Z.mul_comm (2 ^ k)). rewrite <- Z.div_div by (try apply Z.pow_pos_nonneg; lia). replace ((2 * A + Z.b2z b) / 2) with A by (destruct b; cbn [Z.b2z]; lia). rewrite (Z.mul_comm 2 (2 ^ k)). rewrite <- Z.div_div by (try apply Z.pow_pos_nonneg; lia). set (q := A / 2 ^ k). clearbody q. lia. }
  f_equal.
  - change (2 ^ 48) with (2 ^ (47 + 1)). rewrite E by lia.  rewrite Z.add_mod by (apply Z.pow_nonzero; lia). rewrite Z.mul_mod_idemp_r by (apply Z.pow_nonzero; lia). rewrite <- Z.add_mod by (apply Z.pow_nonzero; lia). reflexivity.
  - change (2 ^ 16) with (2 ^ (15 + 1)). rewrite E by lia. rewrite Z.add_mod by (apply Z.pow_nonzero; lia). rewrite Z.mul_mod_idemp_r by (apply Z.pow_nonzero; lia). rewrite <- Z.add_mod by (apply Z.pow_nonzero; lia). reflexivity.
  - rewrite Z.add_mod by lia. rewrite Z.mul_mod_idemp_r by lia. rewrite <- Z.add_mod by lia. reflexivity.
Qed.
Lemma pushes_reg lw l : wide lw -> forall A, 0 <= A -> fold_left (sh_push lw) l (reg lw A) = reg lw (val A l).
Proof.
  intros W. induction l as [|b l IH]; intros A H; [reflexivity|]. cbn [fold_left]. rewrite push_reg by assumption. rewrite IH by (destruct b; cbn [Z.b2z]; lia). reflexivity.
Qed.
Lemma init_reg lw : wide lw -> sh_init = reg lw 0. Proof. intros [-> | ->]; reflexivity. Qed.

(** ** decoding *)
Lemma masked lw A k n off : wide lw -> 0 <= A -> 0 <= k -> 0 < n -> k + n <= 32 -> 0 <= off -> Z.shiftr (Z.land (Z.ones n * 2 ^ k) (A / 2 ^ off mod 2 ^ lw)) k = (A / 2 ^ (off + k)) mod 2 ^ n.
Proof.
  intros W HA K N L O. assert (L' : 32 <= lw) by (destruct W; lia). rewrite Z.shiftr_land. rewrite (Z.shiftr_div_pow2 (Z.ones n * 2 ^ k)), Z.div_mul by (try apply Z.pow_nonzero; lia). rewrite Z.land_comm, Z.land_ones by lia.
  rewrite Z.pow_add_r by lia. rewrite <- Z.div_div by (try apply Z.pow_nonzero; try apply Z.pow_pos_nonneg; lia). set (x := A / 2 ^ off). clearbody x. apply Z.bits_inj'. intros i Hi.
  destruct (Z.ltb_spec i n) as [I1|I1]; [|rewrite !Z.mod_pow2_bits_high by lia; reflexivity]. rewrite !Z.mod_pow2_bits_low by lia. rewrite Z.shiftr_spec by lia. rewrite Z.mod_pow2_bits_low by lia. rewrite <- Z.shiftr_div_pow2, Z.shiftr_spec by lia. reflexivity.
Qed.
Lemma rev4 d : 0 <= d < 16 -> decode_units (val 0 (lsb_first 4 d)) = d.
Proof. intros H. apply Z.eqb_eq. apply (sweep (fun d => decode_units (val 0 (lsb_first 4 d)) =? d) 0 16); [vm_compute; reflexivity|lia]. Qed.
Lemma rev3 d : 0 <= d < 8 -> decode_6tens (val 0 (lsb_first 3 d)) = d.
Proof. intros H. apply Z.eqb_eq. apply (sweep (fun d => decode_6tens (val 0 (lsb_first 3 d)) =? d) 0 8); [vm_compute; reflexivity|lia]. Qed.
Lemma rev2 d : 0 <= d < 4 -> decode_3tens (val 0 (lsb_first 2 d)) = d.
Proof. intros H. apply Z.eqb_eq. apply (sweep (fun d => decode_3tens (val 0 (lsb_first 2 d)) =? d) 0 4); [vm_compute; reflexivity|lia]. Qed.
Lemma four_len u : zlen (four u) = 4. Proof. destruct u as [[[a b] c] d]. reflexivity. Qed.
Lemma lsb_len n x : zlen (lsb_first n x) = Z.of_nat n. Proof. unfold zlen, lsb_first. rewrite map_length. f_equal. clear. generalize 0 as a. induction n; intros; [reflexivity|]. cbn [zseq length]. rewrite IHn. reflexivity. Qed.
Lemma ltc_field pre f post A off k n l : val A l = val A (pre ++ f ++ post) -> zlen post = off + k -> zlen f = n -> 0 <= A -> forall lw, wide lw -> 0 <= k -> 0 < n -> k + n <= 32 -> 0 <= off ->
  Z.shiftr (Z.land (Z.ones n * 2 ^ k) (val A l / 2 ^ off mod 2 ^ lw)) k = val 0 f.
Proof. intros E P F HA lw W K N L O. rewrite masked by (try apply val_nonneg; assumption). rewrite <- P, <- F, E. apply val_field. Qed.
Local Ltac lens := rewrite ?zlen_app, ?four_len, ?lsb_len; reflexivity.
Local Ltac same := f_equal; rewrite <- !app_assoc; reflexivity.
Lemma ltc_received lw A l n : wide lw -> 0 <= A -> proper n (lf_clock l) -> n <= 40 -> sh_valid (reg lw (val A (ltc_bits l))) = true /\ sh_time_code (reg lw (val A (ltc_bits l))) = tc_is 25 (lf_clock l).
Proof.
  intros W HA (P1 & P2 & P3 & P4) N. destruct l as [c u1 u2 u3 u4 u5 u6 u7 u8 d1 d2 d3 d4 d5 d6]. unfold ltc_bits. cbn [lf_clock lf_u1 lf_u2 lf_u3 lf_u4 lf_u5 lf_u6 lf_u7 lf_u8 lf_drop lf_color lf_27 lf_43 lf_58 lf_59] in *. cbv zeta.
  set (w0 := lsb_first 4 (ck_f c mod 10)). set (w1 := lsb_first 2 (ck_f c / 10)). set (w2 := lsb_first 4 (ck_s c mod 10)). set (w3 := lsb_first 3 (ck_s c / 10)).
  set (w4 := lsb_first 4 (ck_m c mod 10)). set (w5 := lsb_first 3 (ck_m c / 10)). set (w6 := lsb_first 4 (ck_h c mod 10)). set (w7 := lsb_first 2 (ck_h c / 10)).
  set (L := w0 ++ _). split.
  - unfold sh_valid, reg. cbn [sh_check]. apply Z.eqb_eq.
    pose proof (val_field (w0 ++ four u1 ++ w1 ++ [d1; d2] ++ four u2 ++ w2 ++ four u3 ++ w3 ++ [d3] ++ four u4 ++ w4 ++ four u5 ++ w5 ++ [d4] ++ four u6 ++ w6 ++ four u7 ++ w7 ++ [d5; d6] ++ four u8) sync_word [] A) as F.
    rewrite zlen_nil in F. change (2 ^ 0) with 1 in F. rewrite Z.div_1_r in F. change (zlen sync_word) with 16 in F. rewrite app_nil_r in F. rewrite <- !app_assoc in F. fold L in F. rewrite F. reflexivity.
  - unfold sh_time_code, reg, tc_of, tc_is, frame_tens, frame_unit, secs_tens, secs_unit, mins_tens, mins_unit, hours_tens, hours_unit. cbn [sh_one sh_two].
    change 4026531840 with (Z.ones 4 * 2 ^ 28). change 12582912 with (Z.ones 2 * 2 ^ 22). change 61440 with (Z.ones 4 * 2 ^ 12). change 224 with (Z.ones 3 * 2 ^ 5). change 14680064 with (Z.ones 3 * 2 ^ 21). change 192 with (Z.ones 2 * 2 ^ 6).
    rewrite (ltc_field [] w0 (four u1 ++ w1 ++ [d1; d2] ++ four u2 ++ w2 ++ four u3 ++ w3 ++ [d3] ++ four u4 ++ w4 ++ four u5 ++ w5 ++ [d4] ++ four u6 ++ w6 ++ four u7 ++ w7 ++ [d5; d6] ++ four u8 ++ sync_word) A 48 28 4); [|reflexivity|subst w1 w2 w3 w4 w5 w6 w7; lens|apply lsb_len|assumption|assumption|lia|lia|lia|lia].
    rewrite (ltc_field (w0 ++ four u1) w1 ([d1; d2] ++ four u2 ++ w2 ++ four u3 ++ w3 ++ [d3] ++ four u4 ++ w4 ++ four u5 ++ w5 ++ [d4] ++ four u6 ++ w6 ++ four u7 ++ w7 ++ [d5; d6] ++ four u8 ++ sync_word) A 48 22 2); [|same|subst w1 w2 w3 w4 w5 w6 w7; lens|apply lsb_len|assumption|assumption|lia|lia|lia|lia].
    rewrite (ltc_field (w0 ++ four u1 ++ w1 ++ [d1; d2] ++ four u2) w2 (four u3 ++ w3 ++ [d3] ++ four u4 ++ w4 ++ four u5 ++ w5 ++ [d4] ++ four u6 ++ w6 ++ four u7 ++ w7 ++ [d5; d6] ++ four u8 ++ sync_word) A 48 12 4); [|same|subst w1 w2 w3 w4 w5 w6 w7; lens|apply lsb_len|assumption|assumption|lia|lia|lia|lia].
    rewrite (ltc_field (w0 ++ four u1 ++ w1 ++ [d1; d2] ++ four u2 ++ w2 ++ four u3) w3 ([d3] ++ four u4 ++ w4 ++ four u5 ++ w5 ++ [d4] ++ four u6 ++ w6 ++ four u7 ++ w7 ++ [d5; d6] ++ four u8 ++ sync_word) A 48 5 3); [|same|subst w1 w2 w3 w4 w5 w6 w7; lens|apply lsb_len|assumption|assumption|lia|lia|lia|lia].
    rewrite (ltc_field (w0 ++ four u1 ++ w1 ++ [d1; d2] ++ four u2 ++ w2 ++ four u3 ++ w3 ++ [d3] ++ four u4) w4 (four u5 ++ w5 ++ [d4] ++ four u6 ++ w6 ++ four u7 ++ w7 ++ [d5; d6] ++ four u8 ++ sync_word) A 16 28 4); [|same|subst w1 w2 w3 w4 w5 w6 w7; lens|apply lsb_len|assumption|assumption|lia|lia|lia|lia].
    rewrite (ltc_field (w0 ++ four u1 ++ w1 ++ [d1; d2] ++ four u2 ++ w2 ++ four u3 ++ w3 ++ [d3] ++ four u4 ++ w4 ++ four u5) w5 ([d4] ++ four u6 ++ w6 ++ four u7 ++ w7 ++ [d5; d6] ++ four u8 ++ sync_word) A 16 21 3); [|same|subst w1 w2 w3 w4 w5 w6 w7; lens|apply lsb_len|assumption|assumption|lia|lia|lia|lia].
    rewrite (ltc_field (w0 ++ four u1 ++ w1 ++ [d1; d2] ++ four u2 ++ w2 ++ four u3 ++ w3 ++ [d3] ++ four u4 ++ w4 ++ four u5 ++ w5 ++ [d4] ++ four u6) w6 (four u7 ++ w7 ++ [d5; d6] ++ four u8 ++ sync_word) A 16 12 4); [|same|subst w1 w2 w3 w4 w5 w6 w7; lens|apply lsb_len|assumption|assumption|lia|lia|lia|lia].
    rewrite (ltc_field (w0 ++ four u1 ++ w1 ++ [d1; d2] ++ four u2 ++ w2 ++ four u3 ++ w3 ++ [d3] ++ four u4 ++ w4 ++ four u5 ++ w5 ++ [d4] ++ four u6 ++ w6 ++ four u7) w7 ([d5; d6] ++ four u8 ++ sync_word) A 16 6 2); [|same|subst w1 w2 w3 w4 w5 w6 w7; lens|apply lsb_len|assumption|assumption|lia|lia|lia|lia].
    unfold w0, w1, w2, w3, w4, w5, w6, w7. rewrite !rev4, !rev3, !rev2 by lia. f_equal; lia.
Qed.

(** ** no other sync word *)
Lemma ltc_len l : length (ltc_bits l) = 80%nat.
Proof. apply Nat2Z.inj. change (zlen (ltc_bits l) = 80). unfold ltc_bits. cbv zeta. lens. Qed.
Lemma nth_part (pre f post : list bool) i p : zlen pre = p -> (i < length f)%nat -> nth (Z.to_nat p + i) (pre ++ f ++ post) false = nth i f false.
Proof. intros <- H. unfold zlen. rewrite Nat2Z.id, app_nth2_plus, app_nth1 by assumption. reflexivity. Qed.
Lemma units_zero d : 0 <= d < 10 -> exists i, (i < 4)%nat /\ nth i (lsb_first 4 d) false = false.
Proof.
  intros H. assert (Q : existsb (fun i => negb (nth i (lsb_first 4 d) false)) (seq 0 4) = true) by (apply (sweep (fun d => existsb (fun i => negb (nth i (lsb_first 4 d) false)) (seq 0 4)) 0 10); [vm_compute; reflexivity|lia]).
  apply existsb_exists in Q. destruct Q as (i & I1 & I2). apply in_seq in I1. exists i. split; [lia|]. apply negb_true_iff. assumption.
Qed.
Lemma tens_zero n d : (n = 2%nat /\ 0 <= d < 3) \/ (n = 3%nat /\ 0 <= d < 6) -> exists i, (i < n)%nat /\ nth i (lsb_first n d) false = false.
Proof.
  intros [(-> & H) | (-> & H)].
  - assert (Q : existsb (fun i => negb (nth i (lsb_first 2 d) false)) (seq 0 2) = true) by (apply (sweep (fun d => existsb (fun i => negb (nth i (lsb_first 2 d) false)) (seq 0 2)) 0 3); [vm_compute; reflexivity|lia]).
    apply existsb_exists in Q. destruct Q as (i & I1 & I2). apply in_seq in I1. exists i. split; [lia|]. apply negb_true_iff. assumption.
  - assert (Q : existsb (fun i => negb (nth i (lsb_first 3 d) false)) (seq 0 3) = true) by (apply (sweep (fun d => existsb (fun i => negb (nth i (lsb_first 3 d) false)) (seq 0 3)) 0 6); [vm_compute; reflexivity|lia]).
    apply existsb_exists in Q. destruct Q as (i & I1 & I2). apply in_seq in I1. exists i. split; [lia|]. apply negb_true_iff. assumption.
Qed.
(** each byte of the 8 begins with a nibble with a zero *)
Lemma nibble_zero l n m : proper n (lf_clock l) -> n <= 30 -> (m < 8)%nat -> exists r, (8 * m <= r < 8 * m + 4)%nat /\ nth r (ltc_bits l) false = false.
Proof.
  intros (P1 & P2 & P3 & P4) N M. destruct l as [c u1 u2 u3 u4 u5 u6 u7 u8 d1 d2 d3 d4 d5 d6]. unfold ltc_bits. cbn [lf_clock lf_u1 lf_u2 lf_u3 lf_u4 lf_u5 lf_u6 lf_u7 lf_u8 lf_drop lf_color lf_27 lf_43 lf_58 lf_59] in *. cbv zeta.
  set (w0 := lsb_first 4 (ck_f c mod 10)). set (w1 := lsb_first 2 (ck_f c / 10)). set (w2 := lsb_first 4 (ck_s c mod 10)). set (w3 := lsb_first 3 (ck_s c / 10)).
  set (w4 := lsb_first 4 (ck_m c mod 10)). set (w5 := lsb_first 3 (ck_m c / 10)). set (w6 := lsb_first 4 (ck_h c mod 10)). set (w7 := lsb_first 2 (ck_h c / 10)).
  assert (LL : forall k x, length (lsb_first k x) = k) by (intros k x; apply Nat2Z.inj; apply lsb_len).
  set (L := w0 ++ _).
  assert (G : forall pre f post i p, L = pre ++ f ++ post -> zlen pre = p -> (i < length f)%nat -> nth i f false = false -> nth (Z.to_nat p + i) L false = false) by (intros pre f post i p -> E I F; rewrite nth_part by assumption; exact F).
  destruct m as [|[|[|[|[|[|[|[|]]]]]]]]; [| | | | | | | |exfalso; lia].
  - destruct (units_zero (ck_f c mod 10) ltac:(lia)) as (i & I1 & I2). exists i. split; [lia|]. apply (G [] w0 _ i 0 eq_refl eq_refl); [unfold w0; rewrite LL; lia|exact I2].
  - destruct (tens_zero 2 (ck_f c / 10)) as (i & I1 & I2); [lia|]. exists (Z.to_nat 8 + i)%nat. split; [lia|]. apply (G (w0 ++ four u1) w1 ([d1; d2] ++ four u2 ++ w2 ++ four u3 ++ w3 ++ [d3] ++ four u4 ++ w4 ++ four u5 ++ w5 ++ [d4] ++ four u6 ++ w6 ++ four u7 ++ w7 ++ [d5; d6] ++ four u8 ++ sync_word) i 8); [unfold L; rewrite <- !app_assoc; reflexivity|subst w0 w1 w2 w3 w4 w5 w6 w7; lens|unfold w1; rewrite LL; lia|exact I2].
  - destruct (units_zero (ck_s c mod 10) ltac:(lia)) as (i & I1 & I2). exists (Z.to_nat 16 + i)%nat. split; [lia|]. apply (G (w0 ++ four u1 ++ w1 ++ [d1; d2] ++ four u2) w2 (four u3 ++ w3 ++ [d3] ++ four u4 ++ w4 ++ four u5 ++ w5 ++ [d4] ++ four u6 ++ w6 ++ four u7 ++ w7 ++ [d5; d6] ++ four u8 ++ sync_word) i 16); [unfold L; rewrite <- !app_assoc; reflexivity|subst w0 w1 w2 w3 w4 w5 w6 w7; lens|unfold w2; rewrite LL; lia|exact I2].
  - destruct (tens_zero 3 (ck_s c / 10)) as (i & I1 & I2); [lia|]. exists (Z.to_nat 24 + i)%nat. split; [lia|]. apply (G (w0 ++ four u1 ++ w1 ++ [d1; d2] ++ four u2 ++ w2 ++ four u3) w3 ([d3] ++ four u4 ++ w4 ++ four u5 ++ w5 ++ [d4] ++ four u6 ++ w6 ++ four u7 ++ w7 ++ [d5; d6] ++ four u8 ++ sync_word) i 24); [unfold L; rewrite <- !app_assoc; reflexivity|subst w0 w1 w2 w3 w4 w5 w6 w7; lens|unfold w3; rewrite LL; lia|exact I2].
  - destruct (units_zero (ck_m c mod 10) ltac:(lia)) as (i & I1 & I2). exists (Z.to_nat 32 + i)%nat. split; [lia|]. apply (G (w0 ++ four u1 ++ w1 ++ [d1; d2] ++ four u2 ++ w2 ++ four u3 ++ w3 ++ [d3] ++ four u4) w4 (four u5 ++ w5 ++ [d4] ++ four u6 ++ w6 ++ four u7 ++ w7 ++ [d5; d6] ++ four u8 ++ sync_word) i 32); [unfold L; rewrite <- !app_assoc; reflexivity|subst w0 w1 w2 w3 w4 w5 w6 w7; lens|unfold w4; rewrite LL; lia|exact I2].
  - destruct (tens_zero 3 (ck_m c / 10)) as (i & I1 & I2); [lia|]. exists (Z.to_nat 40 + i)%nat. split; [lia|]. apply (G (w0 ++ four u1 ++ w1 ++ [d1; d2] ++ four u2 ++ w2 ++ four u3 ++ w3 ++ [d3] ++ four u4 ++ w4 ++ four u5) w5 ([d4] ++ four u6 ++ w6 ++ four u7 ++ w7 ++ [d5; d6] ++ four u8 ++ sync_word) i 40); [unfold L; rewrite <- !app_assoc; reflexivity|subst w0 w1 w2 w3 w4 w5 w6 w7; lens|unfold w5; rewrite LL; lia|exact I2].
  - destruct (units_zero (ck_h c mod 10) ltac:(lia)) as (i & I1 & I2). exists (Z.to_nat 48 + i)%nat. split; [lia|]. apply (G (w0 ++ four u1 ++ w1 ++ [d1; d2] ++ four u2 ++ w2 ++ four u3 ++ w3 ++ [d3] ++ four u4 ++ w4 ++ four u5 ++ w5 ++ [d4] ++ four u6) w6 (four u7 ++ w7 ++ [d5; d6] ++ four u8 ++ sync_word) i 48); [unfold L; rewrite <- !app_assoc; reflexivity|subst w0 w1 w2 w3 w4 w5 w6 w7; lens|unfold w6; rewrite LL; lia|exact I2].
  - destruct (tens_zero 2 (ck_h c / 10)) as (i & I1 & I2); [lia|]. exists (Z.to_nat 56 + i)%nat. split; [lia|]. apply (G (w0 ++ four u1 ++ w1 ++ [d1; d2] ++ four u2 ++ w2 ++ four u3 ++ w3 ++ [d3] ++ four u4 ++ w4 ++ four u5 ++ w5 ++ [d4] ++ four u6 ++ w6 ++ four u7) w7 ([d5; d6] ++ four u8 ++ sync_word) i 56); [unfold L; rewrite <- !app_assoc; reflexivity|subst w0 w1 w2 w3 w4 w5 w6 w7; lens|unfold w7; rewrite LL; lia|exact I2].
Qed.
Lemma sync_bits l i : (i < 16)%nat -> nth (64 + i) (ltc_bits l) false = nth i sync_word false.
Proof.
  intros H. unfold ltc_bits. cbv zeta. rewrite !app_assoc. rewrite <- (app_nil_r sync_word) at 1. change 64%nat with (Z.to_nat 64). rewrite nth_part; [reflexivity|lens|exact H].
Qed.
Lemma sent_len fs : length (sent fs) = (80 * length fs)%nat.
Proof. unfold sent. induction fs as [|f fs IH]; [reflexivity|]. cbn [map concat length]. rewrite app_length, ltc_len, IH. lia. Qed.
Lemma sent_nth fs : forall q r f, nth_error fs q = Some f -> (r < 80)%nat -> nth (80 * q + r) (sent fs) false = nth r (ltc_bits f) false.
Proof.
  induction fs as [|g fs IH]; intros q r f E R; [destruct q; discriminate|]. unfold sent. cbn [map concat]. destruct q as [|q].
  - cbn [nth_error] in E. assert (g = f) by congruence. subst g. rewrite Nat.mul_0_r, Nat.add_0_l, app_nth1 by (rewrite ltc_len; exact R). reflexivity.
  - cbn [nth_error] in E. rewrite app_nth2 by (rewrite ltc_len; lia). rewrite ltc_len. replace (80 * S q + r - 80)%nat with (80 * q + r)%nat by lia. apply IH; assumption.
Qed.
Lemma zero_soon fs n : Forall (fun f => proper n (lf_clock f)) fs -> n <= 30 -> forall q r, (r < 80)%nat -> r <> 66%nat -> exists i, (80 * q + r <= i < 80 * q + r + 12)%nat /\ nth i (sent fs) false = false.
Proof.
  intros F N q r R NE.
  assert (Z0 : forall p s, (s < 80)%nat -> (forall f, nth_error fs p = Some f -> nth s (ltc_bits f) false = false) -> nth (80 * p + s) (sent fs) false = false).
  { intros p s Hs Hf. destruct (nth_error fs p) as [f|] eqn:E; [rewrite (sent_nth fs p s f E Hs); apply Hf; reflexivity|]. apply nth_overflow. rewrite sent_len. apply nth_error_None in E. lia. }
  assert (ZN : forall p m, (m < 8)%nat -> exists s, (8 * m <= s < 8 * m + 4)%nat /\ nth (80 * p + s) (sent fs) false = false).
  { intros p m Hm. destruct (nth_error fs p) as [f|] eqn:E.
    - assert (P : proper n (lf_clock f)) by (apply nth_error_In in E; rewrite Forall_forall in F; apply F; exact E). destruct (nibble_zero f n m P N Hm) as (s & S1 & S2). exists s. split; [exact S1|]. rewrite (sent_nth fs p s f E) by lia. exact S2.
    - exists (8 * m)%nat. split; [lia|]. apply nth_overflow. rewrite sent_len. apply nth_error_None in E. lia. }
  assert (ZS : forall p s, s = 0%nat \/ s = 1%nat \/ s = 14%nat -> nth (80 * p + (64 + s)) (sent fs) false = false).
  { intros p s Hs. apply Z0; [lia|]. intros f _. rewrite sync_bits by lia. destruct Hs as [-> | [-> | ->]]; reflexivity. }
  destruct (Nat.le_gt_cases r 56) as [C|C].
  - destruct (ZN q ((r + 7) / 8)%nat ltac:(lia)) as (s & S1 & S2). exists (80 * q + s)%nat. split; [lia|exact S2].
  - destruct (Nat.le_gt_cases r 64) as [C1|C1]; [exists (80 * q + (64 + 0))%nat; split; [lia|apply ZS; auto]|].
    destruct (Nat.eq_dec r 65) as [C2|C2]; [exists (80 * q + (64 + 1))%nat; split; [lia|apply ZS; auto]|].
    destruct (Nat.le_gt_cases r 78) as [C3|C3]; [exists (80 * q + (64 + 14))%nat; split; [lia|apply ZS; auto]|].
    destruct (ZN (S q) 0%nat ltac:(lia)) as (s & S1 & S2). exists (80 * S q + s)%nat. split; [lia|exact S2].
Qed.
Lemma nth_firstn' : forall (l : list bool) k i, (i < k)%nat -> nth i (firstn k l) false = nth i l false.
Proof. induction l as [|b l IH]; intros k i H; [rewrite firstn_nil; reflexivity|]. destruct k; [lia|]. destruct i; [reflexivity|]. cbn [firstn nth]. apply IH. lia. Qed.
Lemma sync_only fs n k lw : wide lw -> Forall (fun f => proper n (lf_clock f)) fs -> n <= 30 -> (k <= length (sent fs))%nat ->
  (sh_valid (fold_left (sh_push lw) (firstn k (sent fs)) sh_init) = true <-> exists q, (0 < q)%nat /\ k = (80 * q)%nat).
Proof.
  intros W F N K. rewrite (init_reg lw W), pushes_reg by (try assumption; lia). unfold sh_valid, reg. cbn [sh_check]. rewrite Z.eqb_eq.
  set (L := firstn k (sent fs)). assert (LL : length L = k) by (unfold L; rewrite firstn_length; lia).
  split.
  - intros E.
    assert (B : forall i, (2 <= i <= 13)%nat -> Z.testbit (val 0 L) (Z.of_nat i) = true).
    { intros i Hi. rewrite <- (Z.mod_pow2_bits_low (val 0 L) 16) by lia. rewrite <- E. assert (Q : forallb (fun i => Z.testbit 16381 (Z.of_nat i)) (seq 2 12) = true) by reflexivity. rewrite forallb_forall in Q. apply Q. apply in_seq. lia. }
    assert (K14 : (14 <= k)%nat). { destruct (Nat.le_gt_cases 14 k) as [C|C]; [exact C|]. pose proof (B 13%nat ltac:(lia)) as T. rewrite val_testbit_out in T by lia. discriminate. }
    set (j := (k - 14)%nat). assert (O : forall i, (j <= i < j + 12)%nat -> nth i (sent fs) false = true).
    { intros i Hi. pose proof (B (k - 1 - i)%nat ltac:(lia)) as T. rewrite val_testbit in T by lia. rewrite LL in T. replace (k - 1 - (k - 1 - i))%nat with i in T by lia. unfold L in T. rewrite nth_firstn' in T by lia. exact T. }
    destruct (Nat.eq_dec (j mod 80) 66) as [Q|Q].
    + exists (S (j / 80)). split; [lia|]. lia.
    + exfalso. destruct (zero_soon fs n F N (j / 80) (j mod 80) ltac:(lia) Q) as (i & I1 & I2). rewrite O in I2 by lia. discriminate.
  - intros (q & Hq & ->). rewrite sent_len in K. destruct q as [|q]; [lia|]. destruct (nth_error fs q) as [f|] eqn:E; [|apply nth_error_None in E; lia].
    assert (EL : L = sent (firstn q fs) ++ ltc_bits f).
    { clear -E K. unfold L, sent. clear L. revert q E K. induction fs as [|g fs IH]; intros q E K; [destruct q; discriminate|]. destruct q as [|q].
      - cbn [nth_error] in E. assert (g = f) by congruence. subst g. cbn [map concat firstn app]. rewrite firstn_app, ltc_len. rewrite firstn_all2 by (rewrite ltc_len; lia). replace (80 * 1 - 80)%nat with 0%nat by lia. rewrite firstn_O, app_nil_r. reflexivity.
      - cbn [nth_error] in E. cbn [map concat firstn length] in *. rewrite firstn_app, ltc_len, firstn_all2 by (rewrite ltc_len; lia). rewrite <- app_assoc. f_equal. replace (80 * S (S q) - 80)%nat with (80 * S q)%nat by lia. apply IH; [exact E|lia]. }
    rewrite EL, val_app. assert (P : proper n (lf_clock f)) by (apply nth_error_In in E; rewrite Forall_forall in F; apply F; exact E).
    destruct (ltc_received lw (val 0 (sent (firstn q fs))) f n W ltac:(apply val_nonneg; lia) P ltac:(lia)) as (V & _). unfold sh_valid, reg in V. cbn [sh_check] in V. apply Z.eqb_eq in V. exact V.
Qed.
