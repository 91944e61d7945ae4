From Verif Require Import Util Dec_spec.
Local Open Scope Z_scope.
Local Ltac Zify.zify_post_hook ::= Z.div_mod_to_equations.

Lemma undec_snoc l c : undec (l ++ [c]) = 10 * undec l + (c - 48).
Proof. unfold undec. rewrite fold_left_app. reflexivity. Qed.

Lemma log2_div10 n : 10 <= n -> Z.log2 (n / 10) < Z.log2 n.
Proof.
  intros H. assert (0 < n / 10) by lia.
  assert (Z.succ (Z.log2 (n / 10)) <= Z.log2 n); [|lia].
  rewrite <- Z.log2_double by lia. apply Z.log2_le_mono. lia.
Qed.
Lemma dec_fuel_ok f : forall n, 0 <= n -> (Z.to_nat (Z.log2 n) < f)%nat ->
  undec (dec_fuel f n) = n /\ Forall is_digit (dec_fuel f n) /\ dec_fuel f n <> [].
Proof.
  induction f as [|f IH]; intros n Hn Hf; [lia|]. cbn [dec_fuel].
  destruct (Z.ltb_spec n 10) as [H|H].
  - cbn [app]. repeat split; [unfold undec; cbn [fold_left]; lia| |discriminate]. constructor; [unfold is_digit; lia|constructor].
  - pose proof (log2_div10 n H). pose proof (Z.log2_nonneg (n/10)). destruct (IH (n / 10) ltac:(lia) ltac:(lia)) as (A & B & C).
    rewrite undec_snoc, A. repeat split; [lia| |intros E; apply app_eq_nil in E; destruct E; discriminate].
    apply Forall_app. split; [exact B|]. constructor; [unfold is_digit; lia|constructor].
Qed.
Lemma dec_ok n : 0 <= n -> undec (dec n) = n /\ Forall is_digit (dec n) /\ dec n <> [].
Proof. intros H. apply dec_fuel_ok; [exact H|]. lia. Qed.
Lemma undec_dec n : 0 <= n -> undec (dec n) = n.
Proof. intros H. apply dec_ok, H. Qed.
Lemma dec_digits n : 0 <= n -> Forall is_digit (dec n).
Proof. intros H. apply dec_ok, H. Qed.
Lemma dec_inj a b : 0 <= a -> 0 <= b -> dec a = dec b -> a = b.
Proof. intros A B E. rewrite <- (undec_dec a A), <- (undec_dec b B), E. reflexivity. Qed.

Lemma dec_unfold n : 0 <= n -> dec n = (if n <? 10 then [] else dec (n / 10)) ++ [48 + n mod 10].
Proof.
  intros Hn. unfold dec at 1. cbn [dec_fuel]. f_equal. destruct (Z.ltb_spec n 10) as [H|H]; [reflexivity|].
  (* fuel independence *)
  assert (G : forall f g m, 0 <= m -> (Z.to_nat (Z.log2 m) < f)%nat -> (Z.to_nat (Z.log2 m) < g)%nat -> dec_fuel f m = dec_fuel g m).
  { clear. induction f as [|f IH]; intros g m Hm Hf Hg; [lia|]. destruct g as [|g]; [lia|]. cbn [dec_fuel]. f_equal.
    destruct (Z.ltb_spec m 10); [reflexivity|]. pose proof (log2_div10 m H). pose proof (Z.log2_nonneg (m/10)). apply IH; lia. }
  pose proof (log2_div10 n H). pose proof (Z.log2_nonneg (n/10)). apply G; lia.
Qed.
Lemma dec_1 n : 0 <= n < 10 -> dec n = [48 + n].
Proof. intros H. rewrite dec_unfold by lia. destruct (Z.ltb_spec n 10); [|lia]. cbn [app]. f_equal. lia. Qed.
Lemma dec_2 n : 10 <= n < 100 -> dec n = [48 + n / 10; 48 + n mod 10].
Proof. intros H. rewrite dec_unfold by lia. destruct (Z.ltb_spec n 10); [lia|]. rewrite dec_1 by lia. reflexivity. Qed.
Lemma dec_3 n : 100 <= n < 1000 -> dec n = [48 + n / 100; 48 + n / 10 mod 10; 48 + n mod 10].
Proof.
  intros H. rewrite dec_unfold by lia. destruct (Z.ltb_spec n 10); [lia|]. rewrite dec_2 by lia.
  cbn [app]. replace (n / 10 / 10) with (n / 100) by lia. reflexivity.
Qed.
Lemma undec_zero_lead l : undec (48 :: l) = undec l.
Proof. reflexivity. Qed.
Lemma dec_length2 n : 10 <= n -> (2 <= length (dec n))%nat.
Proof.
  intros H. rewrite dec_unfold by lia. destruct (Z.ltb_spec n 10); [lia|]. rewrite app_length. cbn [length].
  destruct (dec_ok (n/10) ltac:(lia)) as (_ & _ & N). destruct (dec (n / 10)); [congruence|cbn [length]; lia].
Qed.
(** a non-digit character ends a digit run *)
Lemma digit_not c l : ~ is_digit c -> Forall is_digit l -> ~ In c l.
Proof. intros H F I. rewrite Forall_forall in F. apply H, F, I. Qed.
