From Verif Require Import Util Bits_lemmas TsTime_model.
Local Open Scope Z_scope.
Local Ltac Zify.zify_post_hook ::= idtac.

Lemma rne_spec N D : 0 < D -> 2 * Z.abs (rne N D * D - N) <= D.
Proof.
  intros HD. unfold rne. pose proof (Z.div_mod N D ltac:(lia)) as E. pose proof (Z.mod_pos_bound N D HD) as B.
  set (q := N / D) in *. set (r := N mod D) in *.
  destruct (Z.ltb_spec (2 * r) D); [rewrite E; replace (q * D - (D * q + r)) with (- r) by ring; lia|].
  assert (F : forall q', q' = q + 1 -> q' * D - N = D - r) by (intros q' ->; rewrite E; ring).
  assert (F0 : q * D - N = - r) by (rewrite E; ring).
  destruct (Z.ltb_spec D (2 * r)); [rewrite F by reflexivity; lia|].
  destruct (Z.even q); [rewrite F0; lia|rewrite F by reflexivity; lia].
Qed.
Lemma rne_near N D q : 0 < D -> 2 * Z.abs (N - q * D) < D -> rne N D = q.
Proof. intros HD H. pose proof (rne_spec N D HD) as E. assert (Z.abs (rne N D * D - q * D) < D) by lia.
  replace (rne N D * D - q * D) with ((rne N D - q) * D) in H0 by ring. rewrite Z.abs_mul, (Z.abs_eq D) in H0 by lia.
  assert (Z.abs (rne N D - q) < 1) by nia. lia. Qed.
Lemma rne_exact q D : 0 < D -> rne (q * D) D = q.
Proof. intros. apply rne_near; [assumption|]. rewrite Z.sub_diag. cbn. lia. Qed.

Lemma num_at_nn k N : 0 <= k -> num_at k N = N * 2 ^ k.
Proof. intros. unfold num_at. destruct (Z.leb_spec 0 k); [reflexivity|lia]. Qed.
Lemma den_at_nn k D : 0 <= k -> den_at k D = D.
Proof. intros. unfold den_at. destruct (Z.leb_spec 0 k); [reflexivity|lia]. Qed.
Lemma num_at_neg k N : 0 < k -> num_at (- k) N = N.
Proof. intros. unfold num_at. destruct (Z.leb_spec 0 (- k)); [lia|reflexivity]. Qed.
Lemma den_at_neg k D : 0 < k -> den_at (- k) D = D * 2 ^ k.
Proof. intros. unfold den_at. destruct (Z.leb_spec 0 (- k)); [lia|rewrite Z.opp_involutive; reflexivity]. Qed.
(** the exponent found by [rnd] *)
Lemma rnd_spec N D : 0 < N -> 0 < D -> N <= D * 2 ^ 50 -> exists k m, rnd N D = (m, k) /\ 0 <= k /\
  2 ^ 52 * D <= N * 2 ^ k < 2 ^ 53 * D /\ m = rne (N * 2 ^ k) D.
Proof.
  intros HN HD HB. unfold rnd. destruct (Z.eqb_spec N 0); [lia|].
  pose proof (Z.log2_spec N HN) as LN. pose proof (Z.log2_spec D HD) as LD. rewrite !Z.pow_succ_r in * by apply Z.log2_nonneg.
  pose proof (Z.log2_nonneg N). pose proof (Z.log2_nonneg D).
  set (ln := Z.log2 N) in *. set (ld := Z.log2 D) in *.
  assert (Hk : 0 <= 52 + ld - ln).
  { assert (ln < ld + 51 + 1); [|lia]. apply (Z.pow_lt_mono_r_iff 2); [lia|lia|]. replace (ld + 51 + 1) with (1 + ld + 51) by lia.
    rewrite !Z.pow_add_r by lia. change (2 ^ 51) with (2 * 2 ^ 50). change (2 ^ 1) with 2. nia. }
  set (k0 := 52 + ld - ln) in *. cbv zeta.
  assert (P : 2 ^ k0 * 2 ^ ln = 2 ^ 52 * 2 ^ ld) by (rewrite <- !Z.pow_add_r by lia; f_equal; lia).
  assert (Q : 0 < 2 ^ k0) by (apply Z.pow_pos_nonneg; lia).
  rewrite (num_at_nn k0), (den_at_nn k0) by lia.
  assert (Lo : 2 ^ 51 * D < N * 2 ^ k0).
  { assert (2 ^ 51 * D < 2 ^ 52 * 2 ^ ld) by (change (2 ^ 52) with (2 ^ 51 * 2); lia). assert (2 ^ ln * 2 ^ k0 <= N * 2 ^ k0) by nia. lia. }
  assert (Hi : N * 2 ^ k0 < 2 ^ 53 * D).
  { assert (N * 2 ^ k0 < 2 * 2 ^ ln * 2 ^ k0) by nia. assert (2 * (2 ^ 52 * 2 ^ ld) <= 2 ^ 53 * D) by (change (2 ^ 53) with (2 * 2 ^ 52); lia). lia. }
  destruct (Z.ltb_spec (N * 2 ^ k0) (2 ^ 52 * D)).
  - exists (k0 + 1), (rne (N * 2 ^ (k0 + 1)) D). rewrite num_at_nn, den_at_nn by lia.
    split; [reflexivity|]. split; [lia|]. split; [|reflexivity]. rewrite Z.pow_add_r by lia. change (2 ^ 1) with 2.
    change (2 ^ 52) with (2 * 2 ^ 51) in *. change (2 ^ 53) with (2 * (2 * 2 ^ 51)) in *. lia.
  - exists k0, (rne (N * 2 ^ k0) D). rewrite num_at_nn, den_at_nn by lia. split; [reflexivity|]. split; [lia|]. split; [lia|reflexivity].
Qed.

(** * the time conversion *)
Definition conv (a : Z) : Z := dbl_trunc (dbl_mul (dbl_div a 27000) 10000).

Lemma conv_0 : conv 0 = 0.
Proof. reflexivity. Qed.

Lemma conv_facts a : 0 < a < 2 ^ 42 -> exists m m2 B c, conv a = m2 / B /\ (c = 8192 \/ c = 16384) /\ 2 ^ 11 <= B /\ (2 | B) /\
  m = rne (a * (c * B)) 27000 /\ m2 = rne (10000 * m) c.
Proof.
  intros Ha. unfold conv, dbl_div.
  destruct (rnd_spec a 27000 ltac:(lia) ltac:(lia) ltac:(lia)) as (k & m & E & Hk & Hr & Em). rewrite E.
  assert (Pk : 0 < 2 ^ k) by (apply Z.pow_pos_nonneg; lia).
  pose proof (rne_spec (a * 2 ^ k) 27000 ltac:(lia)) as R1. rewrite <- Em in R1.
  assert (Bm : 2 ^ 52 <= m <= 2 ^ 53) by lia.
  assert (k24 : 24 < k). { apply (Z.pow_lt_mono_r_iff 2); [lia|lia|]. nia. }
  unfold dbl_mul. cbn [fst snd]. rewrite num_at_neg, den_at_neg, Z.mul_1_l by lia.
  assert (HD : m * 10000 <= 2 ^ k * 2 ^ 50).
  { assert (2 ^ 25 <= 2 ^ k) by (apply Z.pow_le_mono_r; lia). nia. }
  destruct (rnd_spec (m * 10000) (2 ^ k) ltac:(lia) Pk HD) as (k2 & m2 & E2 & Hk2 & Hr2 & Em2). rewrite E2.
  assert (P2 : 0 < 2 ^ k2) by (apply Z.pow_pos_nonneg; lia).
  assert (K1 : k2 <= k).
  { destruct (Z.le_gt_cases k2 k); [assumption|]. exfalso. assert (2 ^ k <= 2 ^ k2) by (apply Z.pow_le_mono_r; lia). nia. }
  assert (EK : 2 ^ k = 2 ^ (k - k2) * 2 ^ k2) by (rewrite <- Z.pow_add_r by lia; f_equal; lia).
  set (B := 2 ^ k2) in *. set (c := 2 ^ (k - k2)) in *. assert (Pc : 0 < c) by (apply Z.pow_pos_nonneg; lia).
  assert (C1 : c <= 20000). { rewrite EK in Hr2. nia. }
  assert (C2 : 5000 < c). { rewrite EK in Hr2. nia. }
  assert (D : k - k2 = 13 \/ k - k2 = 14).
  { assert (k - k2 < 15); [apply (Z.pow_lt_mono_r_iff 2); [lia|lia|fold c; lia]|].
    assert (12 < k - k2); [apply (Z.pow_lt_mono_r_iff 2); [lia|lia|fold c; lia]|]. lia. }
  assert (Cc : c = 8192 \/ c = 16384) by (unfold c; destruct D as [-> | ->]; [left|right]; reflexivity).
  assert (K2 : 11 <= k2) by lia.
  exists m, m2, B, c. split.
  { unfold dbl_trunc. cbn [fst snd]. rewrite num_at_neg, den_at_neg, Z.mul_1_l by lia. reflexivity. }
  split; [exact Cc|]. split; [change (2 ^ 11 <= 2 ^ k2); apply Z.pow_le_mono_r; lia|].
  split; [exists (2 ^ (k2 - 1)); unfold B; replace k2 with (1 + (k2 - 1)) at 1 by lia; rewrite Z.pow_add_r by lia; change (2 ^ 1) with 2; ring|].
  split; [rewrite <- EK; exact Em|]. rewrite Em2, EK.
  (* scaling numerator and denominator by B *)
  clear -P2 Pc. unfold rne. replace (m * 10000 * B) with (10000 * m * B) by ring.
  rewrite Z.div_mul_cancel_r, Z.mul_mod_distr_r by lia.
  set (r := (10000 * m) mod c). set (q := 10000 * m / c).
  destruct (Z.ltb_spec (2 * (r * B)) (c * B)), (Z.ltb_spec (2 * r) c); try nia; try reflexivity.
  destruct (Z.ltb_spec (c * B) (2 * (r * B))), (Z.ltb_spec c (2 * r)); try nia; reflexivity.
Qed.

Lemma conv_near a : 0 <= a < 2 ^ 42 ->
  conv a = 10 * a / 27 \/ (10 * a mod 27 = 0 /\ conv a = 10 * a / 27 - 1).
Proof.
  intros Ha. destruct (Z.eq_dec a 0) as [->|N]; [left; reflexivity|].
  destruct (conv_facts a ltac:(lia)) as (m & m2 & B & c & -> & Cc & HB & _ & Em & Em2).
  pose proof (rne_spec (a * (c * B)) 27000 ltac:(lia)) as R1. rewrite <- Em in R1.
  pose proof (rne_spec (10000 * m) c ltac:(lia)) as R2. rewrite <- Em2 in R2.
  pose proof (Z.div_mod (10 * a) 27 ltac:(lia)) as F. pose proof (Z.mod_pos_bound (10 * a) 27 ltac:(lia)) as G.
  set (f := 10 * a / 27) in *. set (g := 10 * a mod 27) in *.
  set (d1 := m * 27000 - a * (c * B)) in *. set (d2 := m2 * c - 10000 * m) in *.
  assert (HE : 27 * m2 * c * 1000 = 10 * a * (c * B) * 1000 + 10000 * d1 + 27000 * d2) by (unfold d1, d2; ring).
  assert (Hup : 27 * m2 <= 10 * a * B + 44 /\ 10 * a * B - 44 <= 27 * m2).
  { destruct Cc as [-> | ->]; split; nia. }
  rewrite F in Hup.
  destruct (Z.eq_dec g 0) as [G0|G0].
  - rewrite G0 in *. destruct (Z.le_gt_cases (f * B) m2).
    + left. symmetry. apply (Z.div_unique m2 B f (m2 - f * B)); [|ring]. left. split; [lia|]. nia.
    + right. split; [reflexivity|]. symmetry. apply (Z.div_unique m2 B (f - 1) (m2 - (f - 1) * B)); [|ring]. left. nia.
  - left. symmetry. apply (Z.div_unique m2 B f (m2 - f * B)); [|ring]. left. nia.
Qed.

Lemma conv_base b : 0 <= b < 2 ^ 33 -> conv (300 * b) = 1000 * b / 9.
Proof.
  intros Hb. destruct (conv_near (300 * b) ltac:(lia)) as [E|[E1 E2]].
  - rewrite E. replace (10 * (300 * b)) with (3 * (1000 * b)) by ring. change 27 with (3 * 9). apply Z.div_mul_cancel_l; lia.
  - destruct (Z.eq_dec b 0) as [->|Nb]; [reflexivity|]. exfalso.
    assert (exists j, b = 9 * j) as (j & ->).
    { exists (b / 9). pose proof (Z.div_mod b 9 ltac:(lia)). pose proof (Z.mod_pos_bound b 9 ltac:(lia)).
      pose proof (Z.div_mod (10 * (300 * b)) 27 ltac:(lia)). rewrite E1 in *. lia. }
    destruct (conv_facts (300 * (9 * j)) ltac:(lia)) as (m & m2 & B & c & Ec & Cc & HB & (B' & HB2) & Em & Em2).
    pose proof (rne_spec (300 * (9 * j) * (c * B)) 27000 ltac:(lia)) as R1. rewrite <- Em in R1.
    replace (m * 27000 - 300 * (9 * j) * (c * B)) with (2700 * (10 * m - j * (c * B))) in R1 by ring. rewrite Z.abs_mul in R1.
    change (Z.abs 2700) with 2700 in R1.
    assert (R3 : Z.abs (10 * m - j * (c * B)) <= 4). { rewrite HB2 in *. replace (10 * m - j * (c * (B' * 2))) with (2 * (5 * m - j * (c * B'))) in * by ring. rewrite Z.abs_mul in *. change (Z.abs 2) with 2 in *. lia. }
    assert (m2 = 1000 * j * B).
    { rewrite Em2. apply rne_near; [lia|]. replace (10000 * m - 1000 * j * B * c) with (1000 * (10 * m - j * (c * B))) by ring.
      rewrite Z.abs_mul. change (Z.abs 1000) with 1000. lia. }
    rewrite H, Z.div_mul in Ec by lia. rewrite Ec in E2. replace (10 * (300 * (9 * j))) with (1000 * j * 27) in E2 by ring. rewrite Z.div_mul in E2 by lia. lia.
Qed.

(** * the three fields *)
Definition base_of (a b c : Z) : Z := a * 2 ^ 30 + b * 2 ^ 15 + c.
Lemma lor_add a b n : 0 <= n -> 0 <= b < 2 ^ n -> Z.lor (a * 2 ^ n) b = a * 2 ^ n + b.
Proof.
  intros Hn Hb. rewrite <- Z.shiftl_mul_pow2 by lia. symmetry. rewrite Z.add_nocarry_lxor; [apply Z.lxor_lor|]; 
  (apply Z.bits_inj'; intros i Hi; rewrite Z.land_spec, Z.bits_0, Z.shiftl_spec by lia;
   destruct (Z.lt_ge_cases i n); [rewrite Z.testbit_neg_r by lia; reflexivity|];
   assert (Z.testbit b i = false) as ->; [|apply andb_false_r];
   apply (testbit_high b n); lia).
Qed.
Lemma Time_conv a b c e : 0 <= a < 8 -> 0 <= b < 2 ^ 15 -> 0 <= c < 2 ^ 15 -> Time a b c e = conv (300 * base_of a b c + e).
Proof.
  intros Ha Hb Hc. unfold Time, conv. rewrite !Z.shiftl_mul_pow2 by lia. rewrite (Z.mod_small (b * 2 ^ 15)) by lia.
  rewrite lor_add by lia. replace (a * 2 ^ 30 + b * 2 ^ 15) with ((a * 2 ^ 15 + b) * 2 ^ 15) by ring. rewrite lor_add by lia.
  unfold base_of. do 3 f_equal. ring.
Qed.
(** what the clock fields are once cut to 3, 15, 15 and 9 bits *)
Lemma ToMpegTime_fields t : 0 <= t -> t / 10000 * 27000 < 2 ^ 64 ->
  let c := ToMpegTime t in let b := t / 10000 * 90 in
  c32_30 c mod 2 ^ 3 = b / 2 ^ 30 mod 8 /\ c29_15 c mod 2 ^ 15 = b / 2 ^ 15 mod 2 ^ 15 /\ c14_0 c mod 2 ^ 15 = b mod 2 ^ 15 /\ cext c mod 2 ^ 9 = 0.
Proof.
  intros H0 H1. unfold ToMpegTime. cbn [c32_30 c29_15 c14_0 cext]. assert (0 <= t / 10000) by (apply Z.div_pos; lia).
  rewrite (Z.mod_small (t / 10000 * 27000)) by lia.
  replace (t / 10000 * 27000) with (t / 10000 * 90 * 300) by ring. rewrite Z.div_mul, Z.mod_mul by lia.
  set (b := t / 10000 * 90) in *. rewrite !Z.shiftr_div_pow2 by lia.
  split; [|split; [|split]].
  - symmetry. change (2 ^ 3) with 8. apply Znumtheory.Zmod_div_mod; [lia|lia|]. exists (2 ^ 29). reflexivity.
  - rewrite <- (Z.land_ones (Z.land _ _)), <- (Z.land_ones (b / 2 ^ 15)) by lia. rewrite <- Z.land_assoc. f_equal.
  - change 0x7FFF with (Z.ones 15). rewrite Z.land_ones by lia. apply Z.mod_mod. lia.
  - reflexivity.
Qed.
Lemma fields_base b : 0 <= b -> base_of (b / 2 ^ 30 mod 8) (b / 2 ^ 15 mod 2 ^ 15) (b mod 2 ^ 15) = b mod 2 ^ 33.
Proof.
  intros H. unfold base_of. change (2 ^ 33) with (2 ^ 15 * (2 ^ 15 * 8)). rewrite (Z.rem_mul_r b (2 ^ 15)) by lia. rewrite Z.rem_mul_r by lia.
  rewrite Z.div_div by lia. change (2 ^ 15 * 2 ^ 15) with (2 ^ 30). ring.
Qed.
