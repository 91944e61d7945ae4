(** Proofs about the AAC time correction, exact arithmetic (AacFix_model). *)
From Coq Require Import ZArith List Lia Bool ZifyNat ZifyBool.
From Verif Require Import Util AacFix_model.
Import ListNotations.
Local Open Scope Z_scope.

Section Exact.
Variable rate : Z.
Hypothesis HR : 0 < rate <= 10000000.
Notation NEVER := (2147483647 * rate).
Notation FR := 10240000000.
Notation MX := 10250000000.
Notation D := 10000000.
Definition efix := fix_time Z Z.add Z.sub Z.leb Z.ltb Z.eqb NEVER 0.
Definition eall := fix_all Z Z.add Z.sub Z.leb Z.ltb Z.eqb NEVER 0.
Lemma eall_cons : forall s t l, eall s (t :: l) = fst (efix s t) :: eall (snd (efix s t)) l.
Proof. intros. unfold eall, efix. cbn [fix_all]. destruct (fix_time _ _ _ _ _ _ _ _ s t). reflexivity. Qed.
Notation st prev err := (mkF FR MX prev err).
(** one step, in exact arithmetic *)
Lemma efix_first : forall err t, efix (st NEVER err) t = (t, st t 0).
Proof. intros. unfold efix, fix_time. cbn [f_prev f_min f_max f_err]. rewrite Z.eqb_refl. reflexivity. Qed.
Definition stepped (prev err t : Z) : Z * Z :=
  let p := t - prev - FR in
  let '(o, e) := if D <=? p then (prev + MX, err + p - D) else if D <=? err + p then (prev + MX, err + p - D) else (prev + FR, err + p) in
  (if MX <? t - o then t else o, e).
Lemma efix_next : forall prev err t, prev <> NEVER -> efix (st prev err) t = (fst (stepped prev err t), st (fst (stepped prev err t)) (snd (stepped prev err t))).
Proof.
  intros prev err t N. unfold efix, fix_time. cbn [f_prev f_min f_max f_err]. destruct (Z.eqb_spec NEVER prev) as [Q|NE]; [congruence|].
  unfold stepped. cbv zeta.
  replace (MX <=? t - prev) with (D <=? t - prev - FR) by lia.
  destruct (D <=? t - prev - FR) eqn:B1.
  - replace (err + (t - prev - MX)) with (err + (t - prev - FR) - D) by lia.
    destruct (Z.ltb_spec MX (t - (prev + MX))); destruct (Z.ltb_spec MX (prev + MX - t)); cbn [orb]; try reflexivity; destruct (Z.ltb_spec (prev + MX) t); try reflexivity; lia.
  - change (MX - FR) with D.
    destruct (D <=? err + (t - prev - FR)) eqn:B2.
    + replace (prev + FR + D) with (prev + MX) by lia.
      destruct (Z.ltb_spec MX (t - (prev + MX))); destruct (Z.ltb_spec MX (prev + MX - t)); cbn [orb fst snd]; try reflexivity; destruct (Z.ltb_spec (prev + MX) t); try reflexivity; lia.
    + destruct (Z.ltb_spec MX (t - (prev + FR))); destruct (Z.ltb_spec MX (prev + FR - t)); cbn [orb fst snd]; try reflexivity; destruct (Z.ltb_spec (prev + FR) t); try reflexivity; lia.
Qed.
(** ** Frames at the rate of the stream *)
Definition rest (k : Z) : Z := (k * 1024 * 10000000) mod rate.
Lemma rest_ok : forall k, 0 <= rest k < rate. Proof. intro k. unfold rest. apply Z.mod_pos_bound. lia. Qed.
Lemma frame_scaled : forall t0 k, rate * frame rate t0 k = rate * t0 + k * FR - rest k.
Proof. intros. unfold frame, rest. pose proof (Z.div_mod (k * 1024 * 10000000) rate ltac:(lia)). lia. Qed.
Lemma frame_floor : forall t0 k, (rate * t0 + k * FR) / rate = frame rate t0 k.
Proof. intros. unfold frame. rewrite (Z.mul_comm rate t0). rewrite Z.div_add_l by lia. f_equal. f_equal. lia. Qed.
Lemma regular_run : forall n t0 k err, err <= 0 -> (forall i, k - 1 <= i < k + Z.of_nat n -> rate * t0 + i * FR <> NEVER) ->
  map (fun t => t / rate) (eall (st (rate * t0 + (k - 1) * FR) err) (map (Z.mul rate) (frames rate t0 k n))) = frames rate t0 k n.
Proof.
  induction n as [|n IH]; intros t0 k err E N; [reflexivity|]. cbn [frames map]. rewrite eall_cons. rewrite efix_next by (apply N; lia).
  rewrite frame_scaled. pose proof (rest_ok k).
  assert (Q : stepped (rate * t0 + (k - 1) * FR) err (rate * t0 + k * FR - rest k) = (rate * t0 + k * FR, err - rest k)).
  { unfold stepped. cbv zeta. replace (rate * t0 + k * FR - rest k - (rate * t0 + (k - 1) * FR) - FR) with (- rest k) by lia.
    destruct (Z.leb_spec D (- rest k)); [lia|]. destruct (Z.leb_spec D (err + - rest k)); [lia|].
    replace (rate * t0 + (k - 1) * FR + FR) with (rate * t0 + k * FR) by lia. destruct (Z.ltb_spec MX (rate * t0 + k * FR - rest k - (rate * t0 + k * FR))); [lia|]. f_equal. }
  rewrite Q. cbn [fst snd map]. f_equal; [apply frame_floor|]. replace (rate * t0 + k * FR) with (rate * t0 + (k + 1 - 1) * FR) at 1 by lia. apply IH; [lia|]. intros i Hi. apply N. lia.
Qed.
Lemma regular : forall t0 n, (forall i, 0 <= i < Z.of_nat n -> rate * t0 + i * FR <> NEVER) -> exact rate (frames rate t0 0 n) = frames rate t0 0 n.
Proof.
  intros t0 n N. destruct n as [|n]; [reflexivity|]. unfold exact. change (start Z NEVER FR MX) with (st NEVER NEVER). fold eall. cbn [frames map]. rewrite eall_cons, efix_first. cbn [fst snd map].
  assert (F0 : rate * frame rate t0 0 = rate * t0) by (rewrite frame_scaled; unfold rest; rewrite Z.mod_0_l by lia; lia).
  rewrite F0. f_equal.
  - rewrite <- F0. rewrite Z.mul_comm, Z.div_mul by lia. reflexivity.
  - pose proof (regular_run n t0 1 0 ltac:(lia)) as R. replace (rate * t0 + (1 - 1) * FR) with (rate * t0) in R by lia. apply R. intros i Hi. apply N. lia.
Qed.
(** ** Jitter *)
Section Jitter.
Variables (t0 J : Z).
Hypothesis HJ : 0 <= J.
(** before sample [k]: [b] = how far the time before is ahead of the nominal one plus [J] (all times rate) *)
Notation JJ := (J * rate).
Definition Inv (prev err k : Z) : Prop :=
  let b := prev - (rate * t0 + (k - 1) * FR) - JJ in -2 * JJ <= b <= 2 * JJ + D /\ 2 * D * err + b * b <= 2 * D * D + 4 * JJ * JJ.
Lemma inv_first : forall k j, - JJ <= j <= JJ -> Inv (rate * t0 + (k - 1) * FR + j) 0 k.
Proof. intros k j H. unfold Inv. cbv zeta. replace (rate * t0 + (k - 1) * FR + j - (rate * t0 + (k - 1) * FR) - JJ) with (j - JJ) by lia. set (b := j - JJ) in *. assert (-2 * JJ <= b <= 0) by lia. split; [lia|]. nia. Qed.
Lemma inv_step : forall k j prev err, - JJ <= j <= JJ -> Inv prev err k ->
  let r := stepped prev err (rate * t0 + k * FR + j) in Inv (fst r) (snd r) (k + 1).
Proof.
  intros k j prev err Hj [B E]. set (b := prev - (rate * t0 + (k - 1) * FR) - JJ) in *. cbv zeta. unfold stepped.
  set (q := j - JJ) in *. assert (Hq : -2 * JJ <= q <= 0) by lia.
  assert (P : rate * t0 + k * FR + j - prev - FR = q - b) by (unfold b, q; lia). rewrite P. cbv zeta.
  assert (T : forall o e, (let b' := o - (rate * t0 + k * FR) - JJ in (-2 * JJ <= b' <= 2 * JJ + D /\ 2 * D * e + b' * b' <= 2 * D * D + 4 * JJ * JJ)) ->
    Inv (fst (if MX <? rate * t0 + k * FR + j - o then rate * t0 + k * FR + j else o, e)) (snd (if MX <? rate * t0 + k * FR + j - o then rate * t0 + k * FR + j else o, e)) (k + 1)).
  { intros o e [T1 T2]. cbn [fst snd]. unfold Inv. cbv zeta. replace (k + 1 - 1) with k by lia. destruct (Z.ltb_spec MX (rate * t0 + k * FR + j - o)) as [G|G]; [|split; assumption].
    replace (rate * t0 + k * FR + j - (rate * t0 + k * FR) - JJ) with q by (unfold q; lia). set (b' := o - (rate * t0 + k * FR) - JJ) in *. assert (b' <= q) by (unfold b', q; lia). split; [lia|]. nia. }
  assert (BX : prev + MX - (rate * t0 + k * FR) - JJ = b + D) by (unfold b; lia).
  assert (BF : prev + FR - (rate * t0 + k * FR) - JJ = b) by (unfold b; lia).
  assert (M0 : 0 <= JJ * JJ) by nia.
  destruct (Z.leb_spec D (q - b)) as [A|A].
  - apply T. cbv zeta. rewrite BX. split; [lia|]. nia.
  - destruct (Z.leb_spec D (err + (q - b))) as [C|C].
    + apply T. cbv zeta. rewrite BX.
      assert (X : 2 * D * (err + (q - b) - D) + (b + D) * (b + D) <= 2 * D * D + 4 * JJ * JJ) by nia.
      split; [|exact X]. split; [lia|]. assert (Y : (b + D) * (b + D) <= 2 * D * D + 4 * JJ * JJ - D * D) by nia. assert (Z0 : (b + D) * (b + D) <= (2 * JJ + D) * (2 * JJ + D)) by nia. apply Z.square_le_simpl_nonneg in Z0; lia.
    + apply T. cbv zeta. rewrite BF. split; [lia|]. destruct (Z.le_gt_cases b 0); nia.
Qed.
Lemma inv_bound : forall prev err k, Inv prev err k -> rate * t0 + (k - 1) * FR - JJ <= prev <= rate * t0 + (k - 1) * FR + 3 * JJ + D.
Proof. intros prev err k [B _]. lia. Qed.
Lemma lag : forall prev err t, t - fst (stepped prev err t) <= MX.
Proof. intros. unfold stepped. cbv zeta. match goal with |- context [let '(_, _) := ?x in _] => destruct x as [o e] end. cbn [fst]. destruct (Z.ltb_spec MX (t - o)); lia. Qed.
Lemma jitter_run : forall l k prev err, Inv prev err k ->
  (forall i t, nth_error l i = Some t -> - JJ <= rate * t - (rate * t0 + (k + Z.of_nat i) * FR) <= JJ) ->
  Forall2 (fun t o => rate * t - MX <= o <= rate * t + 4 * JJ + D) l (eall (st prev err) (map (Z.mul rate) l)).
Proof.
  induction l as [|t l IH]; intros k prev err I H; [constructor|]. cbn [map]. rewrite eall_cons.
  pose proof (H 0%nat t eq_refl) as Ht. rewrite Z.add_0_r in Ht.
  assert (Hl : forall i t, nth_error l i = Some t -> - JJ <= rate * t - (rate * t0 + (k + 1 + Z.of_nat i) * FR) <= JJ).
  { intros i t' E. specialize (H (S i) t' E). rewrite Nat2Z.inj_succ in H. replace (k + 1 + Z.of_nat i) with (k + Z.succ (Z.of_nat i)) by lia. exact H. }
  set (j := rate * t - (rate * t0 + k * FR)) in *. assert (TJ : rate * t = rate * t0 + k * FR + j) by (unfold j; lia).
  destruct (Z.eq_dec prev NEVER) as [->|NE].
  - rewrite efix_first. cbn [fst snd]. constructor; [lia|]. apply (IH (k + 1)); [|exact Hl]. rewrite TJ. replace (rate * t0 + k * FR) with (rate * t0 + (k + 1 - 1) * FR) by lia. apply inv_first. exact Ht.
  - rewrite efix_next by exact NE. cbn [fst snd]. pose proof (inv_step k j prev err Ht I) as I'. cbv zeta in I'. rewrite <- TJ in I'. pose proof (inv_bound _ _ _ I') as B. pose proof (lag prev err (rate * t)) as L.
    constructor; [lia|]. apply (IH (k + 1)); assumption.
Qed.
Lemma jitter : forall l, (forall i t, nth_error l i = Some t -> - JJ <= rate * t - (rate * t0 + Z.of_nat i * FR) <= JJ) ->
  Forall2 (fun t o => rate * t - MX <= o <= rate * t + 4 * JJ + D) l (eall (st NEVER NEVER) (map (Z.mul rate) l)).
Proof.
  intros [|t l] H; [constructor|]. cbn [map]. rewrite eall_cons, efix_first. cbn [fst snd]. pose proof (H 0%nat t eq_refl) as Ht. change (Z.of_nat 0) with 0 in Ht. constructor; [lia|].
  apply (jitter_run l 1).
  - replace (rate * t) with (rate * t0 + (1 - 1) * FR + (rate * t - rate * t0)) by lia. apply inv_first. lia.
  - intros i t' E. specialize (H (S i) t' E). rewrite Nat2Z.inj_succ in H. replace (1 + Z.of_nat i) with (Z.succ (Z.of_nat i)) by lia. exact H.
Qed.
End Jitter.
(** ** A gap *)
Lemma step_up : forall prev err t, prev + FR <= fst (stepped prev err t).
Proof.
  intros. unfold stepped. cbv zeta. destruct (D <=? t - prev - FR); [|destruct (D <=? err + (t - prev - FR))]; cbn [fst]; match goal with |- context [if ?x <? ?y then _ else _] => destruct (Z.ltb_spec x y) end; lia.
Qed.
Lemma cruise : forall m t0 k prev err A, rate * t0 > NEVER -> 0 <= k -> 0 <= A -> rate * t0 + k * FR + A <= prev ->
  forall i o, nth_error (eall (st prev err) (map (Z.mul rate) (frames rate t0 (k + 1) m))) i = Some o -> rate * t0 + (k + 1 + Z.of_nat i) * FR + A <= o.
Proof.
  induction m as [|m IH]; intros t0 k prev err A T K HA P i o H; [destruct i; discriminate|]. cbn [frames map] in H. rewrite eall_cons in H. rewrite efix_next in H by lia. cbn [fst snd] in H.
  pose proof (step_up prev err (rate * frame rate t0 (k + 1))) as U. destruct i as [|i].
  - cbn [nth_error] in H. assert (o = fst (stepped prev err (rate * frame rate t0 (k + 1)))) by congruence. lia.
  - cbn [nth_error] in H. assert (X : rate * t0 + (k + 1 + 1 + Z.of_nat i) * FR + A <= o) by (refine (IH t0 (k + 1) _ _ A T _ HA _ i o H); lia). lia.
Qed.
Lemma climb : forall n m t0 k prev err, rate * t0 > NEVER -> 0 <= k -> prev = rate * t0 + k * FR + k * D ->
  2 * Z.of_nat n * (k * D + rate) + D * Z.of_nat n * (Z.of_nat n + 1) <= 2 * err ->
  forall i o, (n <= S i)%nat -> nth_error (eall (st prev err) (map (Z.mul rate) (frames rate t0 (k + 1) m))) i = Some o -> rate * t0 + (k + 1 + Z.of_nat i) * FR + (k + Z.of_nat n) * D <= o.
Proof.
  induction n as [|n IH]; intros m t0 k prev err T K P E i o I H.
  - change (Z.of_nat 0) with 0. rewrite Z.add_0_r. apply (cruise m t0 k prev err (k * D)); try assumption; lia.
  - destruct m as [|m]; [destruct i; discriminate|]. cbn [frames map] in H. rewrite eall_cons in H. rewrite efix_next in H by lia. rewrite frame_scaled in H. pose proof (rest_ok (k + 1)) as R.
    assert (Q : stepped prev err (rate * t0 + (k + 1) * FR - rest (k + 1)) = (rate * t0 + (k + 1) * FR + (k + 1) * D, err - k * D - rest (k + 1) - D)).
    { unfold stepped. cbv zeta. replace (rate * t0 + (k + 1) * FR - rest (k + 1) - prev - FR) with (- rest (k + 1) - k * D) by lia.
      destruct (Z.leb_spec D (- rest (k + 1) - k * D)); [lia|]. rewrite Nat2Z.inj_succ in E. destruct (Z.leb_spec D (err + (- rest (k + 1) - k * D))) as [Y|Y]; [|exfalso; nia].
      replace (prev + MX) with (rate * t0 + (k + 1) * FR + (k + 1) * D) by lia. match goal with |- context [if ?x <? ?y then _ else _] => destruct (Z.ltb_spec x y) end; [lia|]. f_equal. lia. }
    rewrite Q in H. cbn [fst snd] in H. destruct i as [|i].
    + cbn [nth_error] in H. assert (o = rate * t0 + (k + 1) * FR + (k + 1) * D) by congruence. assert (n = 0%nat) by lia. subst n. lia.
    + cbn [nth_error] in H. assert (X : rate * t0 + (k + 1 + 1 + Z.of_nat i) * FR + (k + 1 + Z.of_nat n) * D <= o) by (refine (IH m t0 (k + 1) _ _ T _ eq_refl _ i o _ H); [lia|rewrite Nat2Z.inj_succ in E; nia|lia]). lia.
Qed.
Lemma gap : forall s0 t0 n m i o, 2147483647 < s0 -> rate * (t0 - s0) > 2 * MX ->
  2 * MX + D * Z.of_nat n * (Z.of_nat n + 1) + 2 * Z.of_nat n * rate <= 2 * (rate * (t0 - s0)) -> (n <= i)%nat ->
  nth_error (exact rate (s0 :: frames rate t0 0 m)) (S i) = Some o -> Z.of_nat n * D <= rate * (o - frame rate t0 (Z.of_nat i) + 1).
Proof.
  intros s0 t0 n m i o S0 G E I H. unfold exact in H. change (start Z NEVER FR MX) with (st NEVER NEVER) in H. fold eall in H. cbn [map] in H. rewrite eall_cons, efix_first in H. cbn [fst snd map nth_error] in H.
  destruct m as [|m]; [destruct i; discriminate|]. cbn [frames map] in H. rewrite eall_cons in H. rewrite efix_next in H by nia.
  assert (F0 : rate * frame rate t0 0 = rate * t0) by (rewrite frame_scaled; unfold rest; rewrite Z.mod_0_l by lia; lia).
  rewrite F0 in H.
  assert (Q : stepped (rate * s0) 0 (rate * t0) = (rate * t0, rate * (t0 - s0) - MX)).
  { unfold stepped. cbv zeta. destruct (Z.leb_spec D (rate * t0 - rate * s0 - FR)); [|lia]. match goal with |- context [if ?x <? ?y then _ else _] => destruct (Z.ltb_spec x y) end; [f_equal; lia|lia]. }
  rewrite Q in H. cbn [fst snd map nth_error] in H. pose proof (frame_scaled t0 (Z.of_nat i)) as FS. pose proof (rest_ok (Z.of_nat i)) as R.
  destruct i as [|i].
  - cbn [nth_error] in H. assert (O : o = rate * t0 / rate) by congruence. rewrite Z.mul_comm, Z.div_mul in O by lia. assert (n = 0%nat) by lia. subst n o. change (Z.of_nat 0) with 0 in *. nia.
  - cbn [nth_error] in H. rewrite nth_error_map in H. destruct (nth_error (eall (st (rate * t0) (rate * (t0 - s0) - MX)) (map (Z.mul rate) (frames rate t0 (0 + 1) m))) i) as [x|] eqn:X; [|discriminate]. cbn [option_map] in H. assert (O : o = x / rate) by congruence.
    assert (Y : rate * t0 + (0 + 1 + Z.of_nat i) * FR + (0 + Z.of_nat n) * D <= x).
    { refine (climb n m t0 0 (rate * t0) (rate * (t0 - s0) - MX) _ _ _ _ i x I X); [nia|lia|lia|lia]. }
    pose proof (Z.div_mod x rate ltac:(lia)) as DM. pose proof (Z.mod_pos_bound x rate ltac:(lia)) as MB. rewrite <- O in DM. rewrite Nat2Z.inj_succ in *. lia.
Qed.
End Exact.
