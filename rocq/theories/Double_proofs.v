From Coq Require Import ZArith Lia Reals Lra.
From Flocq Require Import Core BinarySingleNaN Relative.
From Verif Require Import Double_model TimeTab_model.
Local Open Scope R_scope.
Local Notation rnd := (round radix2 (FLT_exp (3 - 1024 - 53) 53) (round_mode mode_NE)).
Lemma rnd_int : forall z : Z, (Z.abs z <= 2 ^ 53)%Z -> rnd (IZR z) = IZR z.
Proof.
  intros z H. apply round_generic; [apply valid_rnd_round_mode|]. destruct (Z.eq_dec (Z.abs z) (2 ^ 53)) as [E|N].
  - replace z with (if (z <? 0)%Z then (- 2 ^ 53)%Z else (2 ^ 53)%Z) by (destruct (Z.ltb_spec z 0); lia).
    assert (G : generic_format radix2 (FLT_exp (3 - 1024 - 53) 53) (IZR (2 ^ 53))).
    { change (IZR (2 ^ 53)) with (bpow radix2 53). apply generic_format_bpow. unfold FLT_exp. lia. }
    destruct (z <? 0)%Z; [|exact G]. rewrite opp_IZR. apply generic_format_opp. exact G.
  - apply generic_format_FLT. exists (Float radix2 z 0); [unfold F2R; cbn; ring| cbn [Fnum]; change (radix2 ^ 53)%Z with (2 ^ 53)%Z; lia | cbn; lia].
Qed.
Lemma lt_emax : forall x, Rabs x <= bpow radix2 200 -> Rlt_bool (Rabs (rnd x)) (bpow radix2 1024) = true.
Proof.
  intros x H. apply Rlt_bool_true. apply Rle_lt_trans with (bpow radix2 200); [|apply bpow_lt; lia].
  apply abs_round_le_generic; [apply FLT_exp_valid; reflexivity|apply valid_rnd_round_mode|apply generic_format_bpow; unfold FLT_exp; lia|exact H].
Qed.
Lemma bp200 : bpow radix2 200 = IZR (2 ^ 200). Proof. reflexivity. Qed.
Lemma dbl_ok : forall z, (Z.abs z <= 2 ^ 53)%Z -> B2R (dbl z) = IZR z /\ is_finite (dbl z) = true.
Proof.
  intros z H. unfold dbl. pose proof (binary_normalize_correct 53 1024 prec53 prec53_1024 mode_NE z 0 false) as C. cbv zeta in C.
  assert (E : F2R (Float radix2 z 0) = IZR z) by (unfold F2R; cbn; ring). rewrite E in C. change (SpecFloat.fexp 53 1024) with (FLT_exp (3 - 1024 - 53) 53) in C. rewrite lt_emax in C.
  - destruct C as (C1 & C2 & _). rewrite (rnd_int z H) in C1. split; assumption.
  - rewrite bp200, <- abs_IZR. apply IZR_le. lia.
Qed.
Lemma rel : forall x, 0 < x -> bpow radix2 (-900) <= x -> exists e, Rabs e <= / IZR (2 ^ 53) /\ rnd x = x * (1 + e).
Proof.
  intros x Hx Hl. destruct (relative_error_N_FLT_ex radix2 (3 - 1024 - 53) 53 eq_refl (fun x => negb (Z.even x)) x) as (e & E1 & E2).
  - rewrite Rabs_pos_eq by lra. eapply Rle_trans; [|exact Hl]. apply bpow_le. lia.
  - exists e. split; [|exact E2]. eapply Rle_trans; [exact E1|]. apply Req_le. change (IZR (2 ^ 53)) with (bpow radix2 53). rewrite <- bpow_opp. change (/ 2) with (bpow radix2 (-1)). rewrite <- bpow_plus. reflexivity.
Qed.
Lemma muldiv : forall a b c, (0 <= a <= 2 ^ 53)%Z -> (1 <= b <= 2 ^ 53)%Z -> (1 <= c <= 2 ^ 53)%Z -> (a * c <= 2 ^ 51)%Z ->
  let T := dtrunc (dmul (ddiv (dbl a) (dbl b)) (dbl c)) in (0 <= T /\ b * T <= a * c <= b * (T + 1))%Z.
Proof.
  intros a b c Ha Hb Hc Hac T. destruct (dbl_ok a ltac:(lia)) as [A1 A2]. destruct (dbl_ok b ltac:(lia)) as [B1 B2]. destruct (dbl_ok c ltac:(lia)) as [C1 C2].
  assert (Rb : 1 <= IZR b <= IZR (2 ^ 53)) by (split; apply IZR_le; lia). assert (Rc : 1 <= IZR c <= IZR (2 ^ 53)) by (split; apply IZR_le; lia). assert (Ra : 0 <= IZR a <= IZR (2 ^ 53)) by (split; apply IZR_le; lia).
  pose proof (Bdiv_correct 53 1024 prec53 prec53_1024 mode_NE (dbl a) (dbl b)) as D. rewrite A1, B1 in D. specialize (D ltac:(lra)). change (SpecFloat.fexp 53 1024) with (FLT_exp (3 - 1024 - 53) 53) in D.
  assert (Hq : 0 <= IZR a / IZR b <= IZR (2 ^ 53)).
  { split; [apply Rmult_le_pos; [lra|]; left; apply Rinv_0_lt_compat; lra|]. apply Rmult_le_reg_r with (IZR b); [lra|]. unfold Rdiv. rewrite Rmult_assoc, Rinv_l by lra. apply Rle_trans with (IZR (2 ^ 53) * 1); [lra|]. apply Rmult_le_compat_l; lra. }
  rewrite lt_emax in D by (rewrite Rabs_pos_eq by lra; apply Rle_trans with (IZR (2 ^ 53)); [lra|]; rewrite bp200; apply IZR_le; lia). destruct D as (D1 & D2 & _). fold (ddiv (dbl a) (dbl b)) in D1, D2.
  pose proof (Bmult_correct 53 1024 prec53 prec53_1024 mode_NE (ddiv (dbl a) (dbl b)) (dbl c)) as M. rewrite D1, C1 in M. change (SpecFloat.fexp 53 1024) with (FLT_exp (3 - 1024 - 53) 53) in M.
  assert (Hs : 0 <= rnd (IZR a / IZR b) <= IZR (2 ^ 53)).
  { split; [apply round_ge_generic; [apply FLT_exp_valid; reflexivity|apply valid_rnd_round_mode|apply generic_format_0|lra]|]. apply round_le_generic; [apply FLT_exp_valid; reflexivity|apply valid_rnd_round_mode| |lra]. change (IZR (2 ^ 53)) with (bpow radix2 53). apply generic_format_bpow. unfold FLT_exp. lia. }
  rewrite lt_emax in M.
  2:{ rewrite Rabs_pos_eq by (apply Rmult_le_pos; lra). rewrite bp200. apply Rle_trans with (IZR (2 ^ 53) * IZR (2 ^ 53)); [apply Rmult_le_compat; lra|]. rewrite <- mult_IZR. apply IZR_le. lia. }
  destruct M as (M1 & M2 & _). fold (dmul (ddiv (dbl a) (dbl b)) (dbl c)) in M1.
  pose proof (Btrunc_correct 53 1024 eq_refl (dmul (ddiv (dbl a) (dbl b)) (dbl c))) as Tr. fold T in Tr. change (@Btrunc 53 1024 (dmul (ddiv (dbl a) (dbl b)) (dbl c))) with T in Tr. rewrite M1 in Tr.
  set (t := rnd (rnd (IZR a / IZR b) * IZR c)) in *.
  assert (Ht : 0 <= t). { apply round_ge_generic; [apply FLT_exp_valid; reflexivity|apply valid_rnd_round_mode|apply generic_format_0|apply Rmult_le_pos; lra]. }
  assert (ET : T = Zfloor t). { rewrite round_FIX_IZR in Tr. apply eq_IZR in Tr. rewrite Tr. apply Ztrunc_floor. exact Ht. }
  destruct (Z.eq_dec a 0) as [->|Na].
  { assert (t = 0). { unfold t. unfold Rdiv. rewrite Rmult_0_l. rewrite round_0 by apply valid_rnd_round_mode. rewrite Rmult_0_l. apply round_0. apply valid_rnd_round_mode. } rewrite ET, H. rewrite Zfloor_IZR. lia. }
  assert (Ra1 : 1 <= IZR a) by (apply IZR_le; lia). set (v := IZR a * IZR c / IZR b).
  set (u := / IZR (2 ^ 53)). assert (Hu : 0 < u) by (apply Rinv_0_lt_compat; apply IZR_lt; lia).
  assert (Hiv : u <= / IZR b) by (apply Rinv_le; lra).
  assert (Bp : bpow radix2 (-900) <= u / 4).
  { unfold u. change (IZR (2 ^ 53)) with (bpow radix2 53). rewrite <- bpow_opp. replace (/ 4) with (bpow radix2 (-2)) by (cbn; lra). unfold Rdiv. replace (/ 4) with (bpow radix2 (-2)) by (cbn; lra). rewrite <- bpow_plus. apply bpow_le. lia. }
  assert (Hq1 : / IZR b <= IZR a / IZR b). { unfold Rdiv. rewrite <- (Rmult_1_l (/ IZR b)) at 1. apply Rmult_le_compat_r; [left; apply Rinv_0_lt_compat; lra|lra]. }
  destruct (rel (IZR a / IZR b)) as (e1 & E1 & E1'); [lra|lra|]. fold u in E1.
  assert (Us : u <= / 8). { unfold u. apply Rinv_le; [lra|]. apply IZR_le. lia. }
  apply Rabs_le_inv in E1.
  assert (Hs1 : u / 4 <= rnd (IZR a / IZR b) * IZR c). { rewrite E1'. apply Rle_trans with (/ IZR b * / 4 * 1); [lra|]. apply Rmult_le_compat; [|lra| |lra]; [apply Rmult_le_pos; lra|]. apply Rmult_le_compat; [lra|lra|lra|lra]. }
  destruct (rel (rnd (IZR a / IZR b) * IZR c)) as (e2 & E2 & E2'); [lra|lra|]. fold u in E2. apply Rabs_le_inv in E2.
  assert (Ev : t = v * ((1 + e1) * (1 + e2))). { unfold t. rewrite E2', E1'. unfold v, Rdiv. ring. }
  assert (Hv0 : 0 <= v) by (unfold v, Rdiv; apply Rmult_le_pos; [apply Rmult_le_pos; lra|lra]).
  assert (Hbv : IZR b * v = IZR (a * c)). { unfold v. rewrite mult_IZR. field. lra. }
  assert (Hk : IZR (a * c) <= IZR (2 ^ 51)) by (apply IZR_le; exact Hac).
  assert (Hu51 : IZR (2 ^ 51) = / (4 * u)). { unfold u. rewrite Rinv_mult, Rinv_inv. change (IZR (2 ^ 53)) with (IZR (4 * 2 ^ 51)). rewrite mult_IZR. field. }
  assert (Hee : - (3 * u) <= e1 + e2 + e1 * e2 <= 3 * u).
  { assert (- (u * u) <= e1 * e2 <= u * u). { split; nra. } nra. }
  assert (Hd : Rabs (IZR b * t - IZR (a * c)) < 1).
  { rewrite Ev. replace (IZR b * (v * ((1 + e1) * (1 + e2))) - IZR (a * c)) with (IZR b * v * (e1 + e2 + e1 * e2)) by (rewrite <- Hbv; ring). rewrite Hbv. set (w := IZR (a * c)) in *.
    assert (0 <= w) by (rewrite <- Hbv; apply Rmult_le_pos; lra). assert (w * (4 * u) <= 1). { rewrite Hu51 in Hk. apply Rmult_le_reg_r with (/ (4 * u)); [apply Rinv_0_lt_compat; lra|]. rewrite Rmult_assoc, Rinv_r by lra. lra. }
    apply Rabs_def1; nra. }
  apply Rabs_def2 in Hd. pose proof (Zfloor_lb t) as F1. pose proof (Zfloor_ub t) as F2. rewrite <- ET in F1, F2.
  assert (G1 : IZR (b * T) < IZR (a * c + 1)). { rewrite mult_IZR, plus_IZR. assert (IZR b * IZR T <= IZR b * t) by (apply Rmult_le_compat_l; lra). lra. }
  assert (G2 : IZR (a * c - 1) < IZR (b * (T + 1))). { rewrite mult_IZR, minus_IZR, plus_IZR. assert (IZR b * t <= IZR b * (IZR T + 1)) by (apply Rmult_le_compat_l; lra). lra. }
  apply lt_IZR in G1, G2. split; [rewrite ET; apply Zfloor_lub; exact Ht|lia].
Qed.
Lemma double_conversion : forall ts h, (0 < ts <= 2 ^ 32)%Z -> (h <= 2 ^ 53)%Z -> (ts * h <= 2 ^ 51)%Z -> conversion ts h (time_scale ts) (get_hnano ts).
Proof.
  intros ts h Hts Hh Hb. split; [lia|]. split.
  - intros t Ht. unfold time_scale. pose proof (muldiv t 10000000 ts) as M. cbv zeta in M. destruct M as (M1 & M2 & M3); [lia|lia|lia|nia|]. lia.
  - intros t Ht Hl. unfold get_hnano. pose proof (muldiv t ts 10000000) as M. cbv zeta in M. destruct M as (M1 & M2 & M3); [lia|lia|lia|lia|]. lia.
Qed.
