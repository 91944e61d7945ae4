(** Lemmas about TimeCode_model: time codes as numbers. *)
From Verif Require Import Util SampleTab_model RangeMap_model TimeTab_model Cenc_proofs TimeCode_model.
Local Open Scope Z_scope.
Local Ltac Zify.zify_post_hook ::= Z.div_mod_to_equations.

Lemma u32_small x : 0 <= x < 2 ^ 32 -> SampleTab_model.u32 x = x.
Proof. intros. unfold SampleTab_model.u32. apply Z.mod_small. assumption. Qed.
Local Notation u32 := SampleTab_model.u32.

(** ** clocks and counts *)
Definition secs (c : clock) : Z := (ck_h c * 60 + ck_m c) * 60 + ck_s c.
Lemma count_secs n c : count n c = secs c * n + ck_f c. Proof. reflexivity. Qed.
Lemma count_bound n c : proper n c -> 0 <= count n c < day n.
Proof.
  intros (H1 & H2 & H3 & H4). rewrite count_secs. assert (0 <= secs c <= 86399) by (unfold secs; lia). unfold day. split; nia.
Qed.
Lemma at_count_of n c K : proper n c -> count n c = K mod day n -> at_count n K = c.
Proof.
  intros P E. pose proof P as (H1 & H2 & H3 & H4). unfold at_count. rewrite <- E. clear E. assert (Hn : 0 < n) by lia.
  assert (D1 : count n c / n = secs c). { rewrite count_secs. symmetry. apply (Z.div_unique _ _ _ (ck_f c)); [lia|ring]. }
  assert (M1 : count n c mod n = ck_f c). { rewrite count_secs. rewrite Z.add_comm, Z_mod_plus_full. apply Z.mod_small. lia. }
  rewrite (Z.mul_comm 60 n), (Z.mul_comm 3600 n), <- !Z.div_div, D1, M1 by lia. destruct c as [h m s f]. unfold secs in *. cbn [ck_h ck_m ck_s ck_f] in *. f_equal; lia.
Qed.
Lemma at_count_id n c : proper n c -> at_count n (count n c) = c.
Proof. intros P. apply at_count_of; [assumption|]. symmetry. apply Z.mod_small. apply count_bound. assumption. Qed.
Lemma at_count_proper n K : 0 < n -> proper n (at_count n K) /\ count n (at_count n K) = K mod day n.
Proof.
  intros Hn. unfold at_count. pose proof (Z.mod_pos_bound K (day n) ltac:(unfold day; lia)) as B. set (k := K mod day n) in *. clearbody k. unfold day in B.
  assert (E : k = n * (k / n) + k mod n) by (apply Z.div_mod; lia). pose proof (Z.mod_pos_bound k n Hn).
  assert (0 <= k / n < 86400) by (split; [apply Z.div_pos; lia|apply Z.div_lt_upper_bound; lia]).
  rewrite (Z.mul_comm 60 n), (Z.mul_comm 3600 n), <- !Z.div_div by lia. unfold proper, count. cbn [ck_h ck_m ck_s ck_f]. set (q := k / n) in *. clearbody q.
  split; [lia|]. replace ((q / 3600 * 60 + q / 60 mod 60) * 60 + q mod 60) with q by lia. lia.
Qed.
Lemma count_inj n a b : proper n a -> proper n b -> count n a = count n b -> a = b.
Proof. intros A B E. rewrite <- (at_count_id n a A), <- (at_count_id n b B), E. reflexivity. Qed.

(** ** packed words *)
Lemma nibble w k : 0 <= k -> Z.shiftr (Z.land (15 * 2 ^ k) w) k = w / 2 ^ k mod 16.
Proof.
  intros H. rewrite Z.shiftr_land, !Z.shiftr_div_pow2, Z.div_mul by (try apply Z.pow_nonzero; lia). rewrite Z.land_comm. change 15 with (Z.ones 4). apply Z.land_ones. lia.
Qed.
Lemma unpack_ok w : 0 <= w < 2 ^ 32 ->
  tc_unpack w = mkTC 25 (w / 16 mod 16 * 10 + w mod 16 mod 10) (w / 4096 mod 16 * 10 + w / 256 mod 16 mod 10) (w / 1048576 mod 16 * 10 + w / 65536 mod 16 mod 10) (w / 268435456 mod 16 * 10 + w / 16777216 mod 16 mod 10).
Proof.
  intros H. unfold tc_unpack. cbv zeta.
  pose proof (nibble w 0 ltac:(lia)) as N0. pose proof (nibble w 4 ltac:(lia)) as N1. pose proof (nibble w 8 ltac:(lia)) as N2. pose proof (nibble w 12 ltac:(lia)) as N3.
  pose proof (nibble w 16 ltac:(lia)) as N4. pose proof (nibble w 20 ltac:(lia)) as N5. pose proof (nibble w 24 ltac:(lia)) as N6. pose proof (nibble w 28 ltac:(lia)) as N7.
  change (15 * 2 ^ 0) with 15 in N0. change (15 * 2 ^ 4) with 240 in N1. change (15 * 2 ^ 8) with 3840 in N2. change (15 * 2 ^ 12) with 61440 in N3.
  change (15 * 2 ^ 16) with 983040 in N4. change (15 * 2 ^ 20) with 15728640 in N5. change (15 * 2 ^ 24) with 251658240 in N6. change (15 * 2 ^ 28) with 4026531840 in N7.
  change (2 ^ 0) with 1 in N0. change (2 ^ 4) with 16 in N1. change (2 ^ 8) with 256 in N2. change (2 ^ 12) with 4096 in N3. change (2 ^ 16) with 65536 in N4. change (2 ^ 20) with 1048576 in N5. change (2 ^ 24) with 16777216 in N6. change (2 ^ 28) with 268435456 in N7.
  rewrite N0, N1, N2, N3, N4, N5, N6, N7, Z.div_1_r. rewrite !u32_small by lia. rewrite !Z.mod_mod by lia. reflexivity.
Qed.
Lemma part_pack x k : 0 <= x < 160 -> 0 <= k <= 24 -> Z.lor (u32 (Z.shiftl (x / 10) (k + 4))) (u32 (Z.shiftl (x mod 10) k)) = digits2 x * 2 ^ k.
Proof.
  intros H K. rewrite !Z.shiftl_mul_pow2 by lia. rewrite Z.pow_add_r by lia. change (2 ^ 4) with 16.
  assert (P : 0 < 2 ^ k <= 2 ^ 24) by (split; [apply Z.pow_pos_nonneg; lia|apply Z.pow_le_mono_r; lia]). change (2 ^ 24) with 16777216 in P.
  set (p := 2 ^ k) in *. assert (0 <= x / 10 <= 15) by lia. assert (0 <= x mod 10 <= 9) by lia.
  rewrite !u32_small by (change (2 ^ 32) with 4294967296; nia). unfold digits2. subst p.
  assert (E : forall a b, 0 <= b < 16 -> Z.lor (a * (2 ^ k * 16)) (b * 2 ^ k) = (16 * a + b) * 2 ^ k).
  { intros a b Hb. rewrite <- !Z.shiftl_mul_pow2 by lia. replace (a * (2 ^ k * 16)) with (a * 2 ^ 4 * 2 ^ k) by (change (2 ^ 4) with 16; ring). rewrite <- Z.shiftl_mul_pow2 by lia. rewrite <- Z.shiftl_lor. rewrite lor_add' by lia. f_equal. lia. }
  apply E. lia.
Qed.
Lemma pack_digits n f s m h : 0 <= f < 160 -> 0 <= s < 160 -> 0 <= m < 160 -> 0 <= h < 160 -> tc_pack (mkTC n f s m h) = bcd (mkClock h m s f).
Proof.
  intros F S' M H. unfold tc_pack, bcd. cbv zeta. cbn [frames seconds minutes hours ck_h ck_m ck_s ck_f].
  pose proof (part_pack f 0 F ltac:(lia)) as P0. pose proof (part_pack s 8 S' ltac:(lia)) as P1. pose proof (part_pack m 16 M ltac:(lia)) as P2. pose proof (part_pack h 24 H ltac:(lia)) as P3.
  change (0 + 4) with 4 in P0. change (8 + 4) with 12 in P1. change (16 + 4) with 20 in P2. change (24 + 4) with 28 in P3. rewrite P0, P1, P2, P3. clear P0 P1 P2 P3.
  assert (D : forall x, 0 <= x < 160 -> 0 <= digits2 x < 256) by (intros; unfold digits2; lia).
  pose proof (D f F). pose proof (D s S'). pose proof (D m M). pose proof (D h H). change (2 ^ 0) with 1. rewrite Z.mul_1_r.
  rewrite (Z.lor_comm (digits2 f)), lor_add' by lia. rewrite (Z.lor_comm (_ + digits2 f)), lor_add' by lia. rewrite (Z.lor_comm (_ + (_ + digits2 f))), lor_add' by lia. lia.
Qed.
Lemma pack_is n c : small c -> tc_pack (tc_is n c) = bcd c.
Proof. intros (H1 & H2 & H3 & H4). unfold tc_is. rewrite pack_digits by lia. destruct c; reflexivity. Qed.
Lemma bcd_bound c : small c -> 0 <= bcd c < 2 ^ 32.
Proof. intros (H1 & H2 & H3 & H4). unfold bcd, digits2. change (2 ^ 32) with 4294967296. lia. Qed.
Lemma unpack_bcd c : small c -> tc_unpack (bcd c) = tc_is 25 c.
Proof.
  intros P. rewrite unpack_ok by (apply bcd_bound; assumption). destruct P as (H1 & H2 & H3 & H4). destruct c as [h m s f]. unfold tc_is, bcd, digits2. cbn [ck_h ck_m ck_s ck_f] in *.
  set (f1 := f / 10). set (f0 := f mod 10). set (s1 := s / 10). set (s0 := s mod 10). set (m1 := m / 10). set (m0 := m mod 10). set (h1 := h / 10). set (h0 := h mod 10).
  assert (f = 10 * f1 + f0 /\ 0 <= f0 < 10 /\ 0 <= f1 < 10) as (Ef & ? & ?) by (unfold f0, f1; lia). assert (s = 10 * s1 + s0 /\ 0 <= s0 < 10 /\ 0 <= s1 < 10) as (Es & ? & ?) by (unfold s0, s1; lia).
  assert (m = 10 * m1 + m0 /\ 0 <= m0 < 10 /\ 0 <= m1 < 10) as (Em & ? & ?) by (unfold m0, m1; lia). assert (h = 10 * h1 + h0 /\ 0 <= h0 < 10 /\ 0 <= h1 < 10) as (Eh & ? & ?) by (unfold h0, h1; lia).
  clearbody f0 f1 s0 s1 m0 m1 h0 h1. rewrite Ef, Es, Em, Eh. clear Ef Es Em Eh. f_equal.
  - replace (_ / 16 mod 16) with f1 by lia. replace (_ mod 16 mod 10) with f0 by lia. lia.
  - replace (_ / 4096 mod 16) with s1 by lia. replace (_ / 256 mod 16 mod 10) with s0 by lia. lia.
  - replace (_ / 1048576 mod 16) with m1 by lia. replace (_ / 65536 mod 16 mod 10) with m0 by lia. lia.
  - replace (_ / 268435456 mod 16) with h1 by lia. replace (_ / 16777216 mod 16 mod 10) with h0 by lia. lia.
Qed.
Lemma words_back w : 0 <= w < 2 ^ 32 -> (tc_pack (tc_unpack w) = w <-> (w mod 16 <= 9 /\ w / 256 mod 16 <= 9 /\ w / 65536 mod 16 <= 9 /\ w / 16777216 mod 16 <= 9)).
Proof.
  intros H. rewrite unpack_ok by assumption. rewrite pack_digits by lia. unfold bcd, digits2. cbn [ck_h ck_m ck_s ck_f].
  change (2 ^ 32) with 4294967296 in H.
  set (f1 := w / 16 mod 16). set (f0 := w mod 16). set (s1 := w / 4096 mod 16). set (s0 := w / 256 mod 16). set (m1 := w / 1048576 mod 16). set (m0 := w / 65536 mod 16). set (h1 := w / 268435456 mod 16). set (h0 := w / 16777216 mod 16).
  assert (E : w = (((16 * h1 + h0) * 256 + (16 * m1 + m0)) * 256 + (16 * s1 + s0)) * 256 + (16 * f1 + f0)) by (unfold f0, f1, s0, s1, m0, m1, h0, h1; lia).
  assert (B : forall x, 0 <= x mod 16 < 16) by (intros; apply Z.mod_pos_bound; lia).
  assert (Bf1 : 0 <= f1 < 16) by apply B. assert (Bf0 : 0 <= f0 < 16) by apply B. assert (Bs1 : 0 <= s1 < 16) by apply B. assert (Bs0 : 0 <= s0 < 16) by apply B.
  assert (Bm1 : 0 <= m1 < 16) by apply B. assert (Bm0 : 0 <= m0 < 16) by apply B. assert (Bh1 : 0 <= h1 < 16) by apply B. assert (Bh0 : 0 <= h0 < 16) by apply B.
  clearbody f0 f1 s0 s1 m0 m1 h0 h1. assert (D : forall a b, 0 <= b < 16 -> 16 * ((a * 10 + b mod 10) / 10) + (a * 10 + b mod 10) mod 10 = 16 * a + b mod 10) by (intros; lia).
  rewrite !D by assumption. rewrite E. clear D B E H. assert (M : forall b, 0 <= b < 16 -> (b mod 10 = b <-> b <= 9)) by (intros; lia).
  split.
  - intros Q. lia.
  - intros (A1 & A2 & A3 & A4). rewrite !Z.mod_small by lia. reflexivity.
Qed.
Lemma copied_is n c : small c -> tc_copied (tc_is n c) = tc_is 25 c.
Proof. intros H. unfold tc_copied. rewrite pack_is by assumption. apply unpack_bcd. assumption. Qed.

(** ** from a time *)
Lemma of_time_ok t : 0 <= t < 10000000 * 2 ^ 32 -> exists c, tc_of_time t = tc_is 25 c /\ loose 25 c /\ count 25 c = t / 400000.
Proof.
  change (10000000 * 2 ^ 32) with 42949672960000000. intros H. exists (mkClock (t / 600000000 / 60) (t / 600000000 mod 60) (t / 10000000 mod 60) (t / 10000 mod 1000 / 40)).
  split; [|split].
  - unfold tc_of_time, tc_is. cbn [ck_h ck_m ck_s ck_f]. rewrite !Z.quot_div_nonneg by lia. rewrite Z.rem_mod_nonneg by lia. rewrite !u32_small by (change (2 ^ 32) with 4294967296; lia). reflexivity.
  - unfold loose. cbn [ck_h ck_m ck_s ck_f]. change (2 ^ 31) with 2147483648. lia.
  - unfold count. cbn [ck_h ck_m ck_s ck_f]. replace (t / 600000000) with (t / 10000000 / 60) by (rewrite Z.div_div by lia; reflexivity). replace (t / 10000000) with (t / 10000 / 1000) by (rewrite Z.div_div by lia; reflexivity). replace (t / 400000) with (t / 10000 / 40) by (rewrite Z.div_div by lia; reflexivity).
    set (q := t / 10000). clearbody q. replace (q / 40) with (q / 1000 * 25 + q mod 1000 / 40) by lia. set (p := q / 1000). clearbody p. lia.
Qed.
Lemma of_time_day t : 0 <= t < 864000000000 -> tc_of_time t = tc_is 25 (at_count 25 (t / 400000)).
Proof.
  intros H. destruct (of_time_ok t ltac:(change (10000000 * 2 ^ 32) with 42949672960000000; lia)) as (c & E & L & C). rewrite E. f_equal. symmetry. rewrite <- C. apply at_count_id.
  unfold loose in L. unfold proper. repeat split; try lia. unfold count in C. lia.
Qed.

(** ** addition *)
Lemma add_ok n k a b : 0 < n < 2 ^ 31 -> proper n a -> loose n b -> tc_add (tc_is n a) (tc_is k b) = tc_is 25 (at_count n (count n a + count n b)).
Proof.
  intros Hn (A1 & A2 & A3 & A4) (B1 & B2 & B3 & B4). unfold tc_add, tc_is. cbn [frames seconds minutes hours n_frames]. cbv zeta. change (2 ^ 31) with 2147483648 in *.
  rewrite (u32_small (ck_f a + ck_f b)) by (change (2 ^ 32) with 4294967296; lia).
  set (F := ck_f a + ck_f b) in *. assert (EF : F = n * (F / n) + F mod n) by (apply Z.div_mod; lia). pose proof (Z.mod_pos_bound F n ltac:(lia)) as MF.
  assert (QF : 0 <= F / n <= 1). { split; [apply Z.div_pos; lia|]. apply Z.lt_succ_r. apply Z.div_lt_upper_bound; unfold F; lia. }
  set (q := F / n) in *. set (r := F mod n) in *. clearbody q r.
  rewrite !(u32_small (ck_s a + ck_s b + q)) by (change (2 ^ 32) with 4294967296; lia).
  rewrite !(u32_small (ck_m a + ck_m b + _)) by (change (2 ^ 32) with 4294967296; lia).
  rewrite !(u32_small (ck_h a + ck_h b + _)) by (change (2 ^ 32) with 4294967296; lia).
  set (S' := ck_s a + ck_s b + q). set (M := ck_m a + ck_m b + S' / 60). set (H := ck_h a + ck_h b + M / 60).
  assert (E : at_count n (count n a + count n b) = mkClock (H mod 24) (M mod 60) (S' mod 60) r).
  { apply at_count_of; [unfold proper; cbn [ck_h ck_m ck_s ck_f]; lia|]. unfold count at 1. cbn [ck_h ck_m ck_s ck_f].
    apply Z.mod_unique_pos with (q := H / 24).
    - assert (0 <= (H mod 24 * 60 + M mod 60) * 60 + S' mod 60 <= 86399) by lia. unfold day. nia.
    - rewrite !count_secs. assert (Q : secs a + secs b + q = 86400 * (H / 24) + ((H mod 24 * 60 + M mod 60) * 60 + S' mod 60)) by (unfold secs, H, M, S'; lia).
      unfold day. replace (secs a * n + ck_f a + (secs b * n + ck_f b)) with ((secs a + secs b) * n + F) by (unfold F; ring). rewrite EF. replace ((secs a + secs b) * n + (n * q + r)) with ((secs a + secs b + q) * n + r) by ring. rewrite Q. ring. }
  rewrite E. cbn [ck_h ck_m ck_s ck_f]. reflexivity.
Qed.
Lemma proper_loose n c : proper n c -> loose n c.
Proof. unfold proper, loose. change (2 ^ 31) with 2147483648. lia. Qed.
Lemma proper_small n c : n <= 100 -> proper n c -> small c.
Proof. unfold proper, small. lia. Qed.
Lemma next_ok n c : 1 < n <= 100 -> proper n c -> tc_next (tc_is n c) = tc_is n (at_count n (count n c + 1)).
Proof.
  intros Hn P. unfold tc_next. change (tc_of 1 0 0 0) with (tc_is 25 (mkClock 0 0 0 1)). rewrite add_ok; [|change (2 ^ 31) with 2147483648; lia|assumption|].
  2:{ unfold loose. cbn [ck_h ck_m ck_s ck_f]. change (2 ^ 31) with 2147483648. lia. }
  rewrite copied_is. 2:{ apply (proper_small n); [lia|]. apply at_count_proper. lia. }
  replace (count n (mkClock 0 0 0 1)) with 1 by (unfold count; cbn [ck_h ck_m ck_s ck_f]; lia). reflexivity.
Qed.
Lemma sum_ok c t : proper 25 c -> 0 <= t < 10000000 * 2 ^ 32 -> tc_sum_hnano (tc_is 25 c) t = tc_is 25 (at_count 25 (count 25 c + t / 400000)).
Proof.
  intros P H. destruct (of_time_ok t H) as (d & E & L & C). unfold tc_sum_hnano.
  assert (Q : tc_of (u32 (Z.quot (Z.rem (Z.quot t 10000) 1000) (1000 / 25))) (u32 (Z.rem (Z.quot t 10000000) 60)) (u32 (Z.rem (Z.quot t 600000000) 60)) (u32 (Z.quot (Z.quot t 600000000) 60)) = tc_of_time t).
  { change (10000000 * 2 ^ 32) with 42949672960000000 in H. unfold tc_of, tc_of_time. change (1000 / 25) with 40. rewrite !(Z.quot_div_nonneg t) by lia. rewrite !Z.rem_mod_nonneg by lia. rewrite !Z.quot_div_nonneg by lia. rewrite !u32_small by (change (2 ^ 32) with 4294967296; lia). reflexivity. }
  rewrite Q, E, add_ok; [|change (2 ^ 31) with 2147483648; lia|assumption|assumption]. rewrite C. apply copied_is. apply (proper_small 25); [lia|]. apply at_count_proper. lia.
Qed.

(** ** subtraction *)
Lemma borrow64 base cb x : 0 <= x < 2 ^ 32 -> tc_borrow 64 base cb x = (x, 0).
Proof. intros H. unfold tc_borrow, as_long. change (64 =? 32) with false. cbn [andb]. destruct (Z.ltb_spec x 0); [lia|]. rewrite u32_small by assumption. reflexivity. Qed.
Lemma u32_range x : 0 <= u32 x < 2 ^ 32. Proof. apply Z.mod_pos_bound. lia. Qed.
Lemma sub64_raw n k a b : tc_sub 64 (tc_is n a) (tc_is k b) = mkTC 25 (u32 (ck_f a - ck_f b)) (u32 (ck_s a - ck_s b)) (u32 (ck_m a - ck_m b)) (u32 (ck_h a - ck_h b)).
Proof.
  unfold tc_sub, tc_is. cbn [frames seconds minutes hours n_frames]. do 3 (rewrite borrow64 by apply u32_range; cbv beta iota; rewrite Z.sub_0_r).
  unfold as_long. change (64 =? 32) with false. cbn [andb]. pose proof (u32_range (ck_h a - ck_h b)). destruct (Z.ltb_spec (u32 (ck_h a - ck_h b)) 0); [lia|]. rewrite (u32_small (u32 _)) by assumption. reflexivity.
Qed.
Lemma sub_covered n k a b : 0 < n -> proper n a -> proper n b -> covers a b -> n < 2 ^ 31 -> tc_sub 64 (tc_is n a) (tc_is k b) = tc_is 25 (at_count n (count n a - count n b)).
Proof.
  intros Hn (A1 & A2 & A3 & A4) (B1 & B2 & B3 & B4) (C1 & C2 & C3 & C4) H. change (2 ^ 31) with 2147483648 in H. rewrite sub64_raw. rewrite !u32_small by (change (2 ^ 32) with 4294967296; lia).
  rewrite (at_count_of n (mkClock (ck_h a - ck_h b) (ck_m a - ck_m b) (ck_s a - ck_s b) (ck_f a - ck_f b))); [reflexivity|unfold proper; cbn [ck_h ck_m ck_s ck_f]; lia|].
  assert (P : proper n (mkClock (ck_h a - ck_h b) (ck_m a - ck_m b) (ck_s a - ck_s b) (ck_f a - ck_f b))) by (unfold proper; cbn [ck_h ck_m ck_s ck_f]; lia).
  assert (E : count n (mkClock (ck_h a - ck_h b) (ck_m a - ck_m b) (ck_s a - ck_s b) (ck_f a - ck_f b)) = count n a - count n b) by (unfold count; cbn [ck_h ck_m ck_s ck_f]; ring).
  rewrite <- E. symmetry. apply Z.mod_small. apply count_bound. assumption.
Qed.
Lemma sub_uncovered a b : proper 25 a -> proper 25 b -> ~ covers a b -> tc_valid (tc_sub 64 (tc_is 25 a) (tc_is 25 b)) = false.
Proof.
  intros (A1 & A2 & A3 & A4) (B1 & B2 & B3 & B4) N. rewrite sub64_raw. unfold tc_valid. cbn [frames seconds minutes hours n_frames]. unfold SampleTab_model.u32. change (2 ^ 32) with 4294967296.
  apply not_true_is_false. intros Q. apply N. rewrite !andb_true_iff, !Z.ltb_lt in Q. unfold covers. lia.
Qed.
Lemma borrow32 base cb x y : 0 < base -> 0 < cb -> - base < x < 2 ^ 31 -> base < 2 ^ 31 -> y = (if x <? 0 then (base + x, - x / cb + 1) else (x, 0)) -> tc_borrow 32 base cb (u32 x) = y.
Proof.
  intros Hb Hc H H2 ->. change (2 ^ 31) with 2147483648 in *. unfold tc_borrow, as_long. change (32 =? 32) with true. cbn [andb]. change (2 ^ 31) with 2147483648.
  destruct (Z.ltb_spec x 0).
  - assert (E : u32 x = x + 4294967296) by (unfold SampleTab_model.u32; change (2 ^ 32) with 4294967296; lia). rewrite E. destruct (Z.leb_spec 2147483648 (x + 4294967296)); [|lia]. change (2 ^ 32) with 4294967296. replace (x + 4294967296 - 4294967296) with x by lia.
    destruct (Z.ltb_spec x 0); [|lia]. change (Z.opp x) with (- x). rewrite (Z.mod_small (- x)) by lia. rewrite !u32_small; [f_equal; lia| |change (2 ^ 32) with 4294967296; lia]. change (2 ^ 32) with 4294967296. assert (0 <= - x / cb) by (apply Z.div_pos; lia). assert (- x / cb <= - x) by (apply Z.div_le_upper_bound; nia). lia.
  - rewrite (u32_small x) by (change (2 ^ 32) with 4294967296; lia). destruct (Z.leb_spec 2147483648 x); [lia|]. destruct (Z.ltb_spec x 0); [lia|]. rewrite u32_small by (change (2 ^ 32) with 4294967296; lia). reflexivity.
Qed.
Lemma sub32 a b : proper 25 a -> proper 25 b -> count 25 b <= count 25 a -> ~ exact_minute a b -> tc_sub 32 (tc_is 25 a) (tc_is 25 b) = tc_is 25 (at_count 25 (count 25 a - count 25 b)).
Proof.
  intros PA PB L N. pose proof PA as (A1 & A2 & A3 & A4). pose proof PB as (B1 & B2 & B3 & B4). unfold exact_minute in N. unfold tc_sub, tc_is. cbn [frames seconds minutes hours n_frames].
  assert (L' : ck_f b - ck_f a <= 25 * (secs a - secs b)) by (rewrite !count_secs in L; lia).
  assert (LS : secs b <= secs a) by lia.
  rewrite (borrow32 _ _ _ (if ck_f a - ck_f b <? 0 then (25 + (ck_f a - ck_f b), 1) else (ck_f a - ck_f b, 0))); [|lia|lia|change (2 ^ 31) with 2147483648; lia|change (2 ^ 31) with 2147483648; lia|].
  2:{ destruct (Z.ltb_spec (ck_f a - ck_f b) 0); [|reflexivity]. f_equal. lia. }
  set (fr := if ck_f a - ck_f b <? 0 then 1 else 0).
  replace (if ck_f a - ck_f b <? 0 then (25 + (ck_f a - ck_f b), 1) else (ck_f a - ck_f b, 0)) with (ck_f a - ck_f b + 25 * fr, fr) by (unfold fr; destruct (Z.ltb_spec (ck_f a - ck_f b) 0); f_equal; lia).
  assert (Bfr : (fr = 0 /\ ck_f b <= ck_f a) \/ (fr = 1 /\ ck_f a < ck_f b)) by (unfold fr; destruct (Z.ltb_spec (ck_f a - ck_f b) 0); lia). clearbody fr. cbv beta iota.
  set (x := ck_s a - ck_s b - fr). assert (X : -60 < x < 60) by (unfold x; lia).
  rewrite (borrow32 60 60 x (if x <? 0 then (60 + x, 1) else (x, 0))); [|lia|lia|change (2 ^ 31) with 2147483648; lia|change (2 ^ 31) with 2147483648; lia|].
  2:{ destruct (Z.ltb_spec x 0); [|reflexivity]. f_equal. lia. }
  set (sr := if x <? 0 then 1 else 0).
  replace (if x <? 0 then (60 + x, 1) else (x, 0)) with (x + 60 * sr, sr) by (unfold sr; destruct (Z.ltb_spec x 0); f_equal; lia).
  assert (Bsr : (sr = 0 /\ 0 <= x) \/ (sr = 1 /\ x < 0)) by (unfold sr; destruct (Z.ltb_spec x 0); lia). clearbody sr. cbv beta iota.
  set (y := ck_m a - ck_m b - sr). assert (Y : -60 < y < 60) by (unfold y, x in *; lia).
  rewrite (borrow32 60 60 y (if y <? 0 then (60 + y, 1) else (y, 0))); [|lia|lia|change (2 ^ 31) with 2147483648; lia|change (2 ^ 31) with 2147483648; lia|].
  2:{ destruct (Z.ltb_spec y 0); [|reflexivity]. f_equal. lia. }
  set (mr := if y <? 0 then 1 else 0).
  replace (if y <? 0 then (60 + y, 1) else (y, 0)) with (y + 60 * mr, mr) by (unfold mr; destruct (Z.ltb_spec y 0); f_equal; lia).
  assert (Bmr : (mr = 0 /\ 0 <= y) \/ (mr = 1 /\ y < 0)) by (unfold mr; destruct (Z.ltb_spec y 0); lia). clearbody mr. cbv beta iota.
  set (z := ck_h a - ck_h b - mr).
  assert (Z0 : 0 <= z). { unfold secs in L', LS. unfold z, y, x in *. lia. }
  assert (E : as_long 32 (u32 z) = z). { unfold as_long. change (32 =? 32) with true. cbn [andb]. change (2 ^ 31) with 2147483648. rewrite u32_small by (change (2 ^ 32) with 4294967296; lia). destruct (Z.leb_spec 2147483648 z); [lia|reflexivity]. }
  rewrite E. destruct (Z.ltb_spec z 0); [lia|]. rewrite u32_small by (change (2 ^ 32) with 4294967296; lia).
  assert (P : proper 25 (mkClock z (y + 60 * mr) (x + 60 * sr) (ck_f a - ck_f b + 25 * fr))) by (unfold proper; cbn [ck_h ck_m ck_s ck_f]; unfold z; lia).
  rewrite (at_count_of 25 _ _ P); [reflexivity|]. rewrite Z.mod_small.
  - unfold count. cbn [ck_h ck_m ck_s ck_f]. unfold z, y, x. ring.
  - pose proof (count_bound 25 _ PA). pose proof (count_bound 25 _ PB). lia.
Qed.
