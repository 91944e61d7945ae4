(** Lemmas about TrackTimes_model. *)
From Coq Require Import Permutation Sorted ZifyNat.
From Verif Require Import Util SampleTab_model SampleTab_proofs RangeMap_model TimeTab_model TimeTab_proofs TimeTab_proofs2 TimeTab_proofs3 TimeTab_proofs4 TrackTimes_model.
Local Open Scope Z_scope.
Local Ltac Zify.zify_post_hook ::= Z.div_mod_to_equations.

(** ** with a composition table *)
Lemma sorted_ends : forall (l : list (Z * Z)) x, StronglySorted leT (x :: l) -> (forall y, In y (x :: l) -> fst x <= fst y) /\ (forall y, In y (x :: l) -> fst y <= fst (last (x :: l) (0, 0))).
Proof.
  induction l as [|z l IH]; intros x S'.
  - split; intros y [<-|[]]; cbn [last]; lia.
  - inversion S' as [|? ? S2 F E]; subst. destruct (IH z S2) as (A & B). split.
    + intros y [<-|Hy]; [lia|]. rewrite Forall_forall in F. apply F. exact Hy.
    + intros y [<-|Hy]; [|apply B; exact Hy]. change (last (x :: z :: l) (0, 0)) with (last (z :: l) (0, 0)). transitivity (fst z); [rewrite Forall_forall in F; apply F; left; reflexivity|]. apply B. left. reflexivity.
Qed.
Lemma last_nth : forall (l : list (Z * Z)) x, nth_error (x :: l) (length l) = Some (last (x :: l) (0, 0)).
Proof. induction l as [|z l IH]; intros x; [reflexivity|]. cbn [length nth_error]. change (last (x :: z :: l) (0, 0)) with (last (z :: l) (0, 0)). apply IH. Qed.
Lemma ctts_span : forall t comps, t_has_ctts t = true -> comps <> [] -> length comps = length (t_times t) -> StronglySorted leT (t_order t) -> Permutation (combine comps (zseq 0 (length comps))) (t_order t) -> Forall (fun d => 0 <= snd d) (t_times t) ->
  exists s e j, start_ticks t = Some s /\ least s comps /\ end_ticks t = Some e /\ greatest e comps /\ (j < length comps)%nat /\ nth j comps 0 = e /\ end_duration_ticks t = Some (u64 (e + snd (nth j (t_times t) (0, 0)))).
Proof.
  intros t comps H N L S' P F.
  assert (LZ : forall n a, length (zseq a n) = n) by (induction n; intros; [reflexivity|cbn [zseq length]; rewrite IHn; reflexivity]).
  assert (LO : length (t_order t) = length comps). { rewrite <- (Permutation_length P), combine_length, LZ. lia. }
  destruct (t_order t) as [|x l] eqn:E; [destruct comps; [contradiction|discriminate]|]. destruct (sorted_ends l x S') as (A & B).
  assert (IN : forall y, In y (x :: l) -> exists j, (j < length comps)%nat /\ y = (nth j comps 0, Z.of_nat j)).
  { intros y Hy. apply (Permutation_in _ (Permutation_sym P)) in Hy. destruct (In_nth _ _ (0, 0) Hy) as (j & J1 & J2). rewrite combine_length, LZ, Nat.min_id in J1. exists j. split; [exact J1|].
    rewrite <- J2, combine_nth by (rewrite LZ; reflexivity). f_equal. rewrite zseq_nth by lia. lia. }
  assert (OUT : forall j, (j < length comps)%nat -> In (nth j comps 0, Z.of_nat j) (x :: l)).
  { intros j J. apply (Permutation_in _ P). replace (nth j comps 0, Z.of_nat j) with (nth j (combine comps (zseq 0 (length comps))) (0, 0)); [apply nth_In; rewrite combine_length, LZ; lia|]. rewrite combine_nth by (rewrite LZ; reflexivity). f_equal. rewrite zseq_nth by lia. lia. }
  assert (IL : In (last (x :: l) (0, 0)) (x :: l)). { apply (nth_error_In _ (length l)). apply last_nth. }
  destruct (IN x (or_introl eq_refl)) as (i & I1 & I2). destruct (IN _ IL) as (j & J1 & J2). set (z := last (x :: l) (0, 0)) in *.
  exists (fst x), (fst z), j. unfold start_ticks, end_duration_ticks, end_ticks. rewrite H, E.
  assert (EN : nth_error (x :: l) (Z.to_nat (sample_count t - 1)) = Some z). { replace (Z.to_nat (sample_count t - 1)) with (length l) by (unfold sample_count; cbn [length] in LO; lia). apply last_nth. }
  rewrite EN. cbn [nth_error option_map]. split; [reflexivity|]. split; [|split; [reflexivity|split; [|split; [exact J1|split]]]].
  - split; [rewrite I2; cbn [fst]; apply nth_In; exact I1|]. intros y Hy. destruct (In_nth _ _ 0 Hy) as (k & K1 & K2). specialize (A _ (OUT k K1)). cbn [fst] in A. lia.
  - split; [rewrite J2; cbn [fst]; apply nth_In; exact J1|]. intros y Hy. destruct (In_nth _ _ 0 Hy) as (k & K1 & K2). specialize (B _ (OUT k K1)). cbn [fst] in B. lia.
  - rewrite J2. reflexivity.
  - rewrite J2. cbn [fst]. unfold duration_of. destruct (Z.ltb_spec (Z.of_nat j) 0); [lia|]. rewrite Nat2Z.id, (nth_error_nth' _ (0, 0)) by lia. reflexivity.
Qed.

(** ** without *)
Definition plain (t : track) (ds : list Z) : Prop := t_has_ctts t = false /\ t_offsets t = [] /\ t_times t = times_of 0 ds.
Lemma firstn_zsum_mono : forall ds i j, Forall (fun d => 0 <= d) ds -> (i <= j)%nat -> zsum (firstn i ds) <= zsum (firstn j ds).
Proof.
  induction ds as [|d ds IH]; intros i j F H; [rewrite !firstn_nil; lia|]. inversion F; subst. destruct j; [replace i with 0%nat by lia; lia|]. destruct i.
  - cbn [firstn]. change (zsum []) with 0. change (zsum (d :: firstn j ds)) with (d + zsum (firstn j ds)). specialize (IH 0%nat j ltac:(assumption) ltac:(lia)). cbn [firstn] in IH. change (zsum []) with 0 in IH. lia.
  - cbn [firstn]. change (zsum (d :: firstn j ds)) with (d + zsum (firstn j ds)). change (zsum (d :: firstn i ds)) with (d + zsum (firstn i ds)). specialize (IH i j ltac:(assumption) ltac:(lia)). lia.
Qed.
Lemma plain_time t ds i : plain t ds -> Forall (fun d => 0 <= d) ds -> zsum ds < 2 ^ 64 -> (i < length ds)%nat -> composition_time t (Z.of_nat i) = Some (zsum (firstn i ds)).
Proof.
  intros (_ & O & T) F B H. unfold composition_time, decoding_time. rewrite O, T. destruct (Z.ltb_spec (Z.of_nat i) 0); [lia|]. rewrite Nat2Z.id. rewrite (nth_error_nth' _ (0, 0)) by (rewrite times_of_length; exact H). rewrite times_of_nth by exact H. cbn [option_map fst]. replace (nth i [] 0) with 0 by (destruct i; reflexivity).
  rewrite u64_id; [f_equal; lia|]. pose proof (firstn_zsum_mono ds 0 i F ltac:(lia)) as A. pose proof (firstn_zsum_mono ds i (length ds) F ltac:(lia)) as C. cbn [firstn] in A. change (zsum []) with 0 in A. rewrite firstn_all in C. lia.
Qed.
Lemma scan_keeps better t idx time : (forall i, In i idx -> exists c, composition_time t i = Some c /\ better c time = false) -> scan better t idx time = Some time.
Proof.
  induction idx as [|i idx IH]; intros H; [reflexivity|]. cbn [scan]. destruct (H i (or_introl eq_refl)) as (c & E & B). rewrite E, B. apply IH. intros j J. apply H. right. exact J.
Qed.
Lemma plain_span t ds : plain t ds -> Forall (fun d => 0 <= d) ds -> ds <> [] -> zsum ds < 2 ^ 64 -> start_ticks t = Some 0 /\ end_ticks t = Some (zsum (removelast ds)) /\ end_duration_ticks t = Some (zsum ds).
Proof.
  intros P F N B. pose proof P as (P1 & P2 & P3). assert (L : (0 < length ds)%nat) by (destruct ds; [contradiction|cbn [length]; lia]).
  assert (C : sample_count t = Z.of_nat (length ds)) by (unfold sample_count; rewrite P3, times_of_length; reflexivity).
  assert (G0 : forall i, 0 <= zsum (firstn i ds)). { intros i. pose proof (firstn_zsum_mono ds 0 i F ltac:(lia)) as A. cbn [firstn] in A. change (zsum []) with 0 in A. exact A. }
  assert (E1 : start_ticks t = Some 0).
  { unfold start_ticks. rewrite P1. change 0 with (Z.of_nat 0) at 1. rewrite (plain_time t ds 0 P F B L). cbn [firstn]. change (zsum []) with 0. apply scan_keeps. intros i Hi. apply zseq_In in Hi. rewrite C in Hi. unfold look_up in Hi.
    exists (zsum (firstn (Z.to_nat i) ds)). replace i with (Z.of_nat (Z.to_nat i)) at 1 by lia. split; [apply plain_time; try assumption; lia|]. apply Z.ltb_ge. apply G0. }
  assert (RL : removelast ds = firstn (length ds - 1) ds). { rewrite removelast_firstn_len. f_equal. lia. }
  assert (E2 : end_ticks t = Some (zsum (removelast ds))).
  { unfold end_ticks. rewrite P1, C. replace (Z.of_nat (length ds) - 1) with (Z.of_nat (length ds - 1)) by lia. rewrite (plain_time t ds (length ds - 1) P F B ltac:(lia)). rewrite <- RL. destruct (1 <? Z.of_nat (length ds)); [|reflexivity].
    apply scan_keeps. intros i Hi. apply in_rev in Hi. apply zseq_In in Hi. unfold look_up in Hi. exists (zsum (firstn (Z.to_nat i) ds)). replace i with (Z.of_nat (Z.to_nat i)) at 1 by lia. split; [apply plain_time; try assumption; lia|]. rewrite RL.
    rewrite Z.gtb_ltb. apply Z.ltb_ge. apply firstn_zsum_mono; [assumption|lia]. }
  split; [exact E1|]. split; [exact E2|]. unfold end_duration_ticks. rewrite E2, P1, C. unfold duration_of. destruct (Z.ltb_spec (Z.of_nat (length ds) - 1) 0); [lia|]. replace (Z.to_nat (Z.of_nat (length ds) - 1)) with (length ds - 1)%nat by lia.
  rewrite P3, (nth_error_nth' _ (0, 0)) by (rewrite times_of_length; lia). rewrite times_of_nth by lia. cbn [option_map snd]. rewrite RL.
  assert (Q : zsum ds = zsum (firstn (length ds - 1) ds) + nth (length ds - 1) ds 0).
  { clear -L. induction ds as [|d ds IH]; [cbn [length] in L; lia|]. destruct ds as [|e ds]; [change (length [d] - 1)%nat with 0%nat; cbn [firstn nth]; change (zsum [d]) with (d + 0); change (zsum []) with 0; lia|].
    assert (H : (0 < length (e :: ds))%nat) by (cbn [length]; lia). specialize (IH H). set (r := e :: ds) in *. change (length (d :: r)) with (S (length r)). replace (S (length r) - 1)%nat with (S (length r - 1)) by lia. cbn [firstn nth].
    change (zsum (d :: r)) with (d + zsum r). change (zsum (d :: firstn (length r - 1) r)) with (d + zsum (firstn (length r - 1) r)). rewrite IH at 1. ring. }
  rewrite <- Q. rewrite u64_id; [reflexivity|]. pose proof (G0 (length ds)) as A. rewrite firstn_all in A. lia.
Qed.
Lemma mean_plain ts header t ds : plain t ds -> Forall (fun d => 0 <= d) ds -> (2 <= length ds)%nat -> 0 < ts -> 10000000 * zsum ds < 2 ^ 64 -> mean_duration ts header t = Some (10000000 * zsum ds / (ts * Z.of_nat (length ds))).
Proof.
  intros P F N T B. pose proof P as (P1 & P2 & P3). assert (C : sample_count t = Z.of_nat (length ds)) by (unfold sample_count; rewrite P3, times_of_length; reflexivity).
  assert (Z0 : 0 <= zsum ds). { pose proof (firstn_zsum_mono ds 0 (length ds) F ltac:(lia)) as A. cbn [firstn] in A. change (zsum []) with 0 in A. rewrite firstn_all in A. exact A. }
  destruct (plain_span t ds P F ltac:(destruct ds; [cbn [length] in N; lia|discriminate]) ltac:(lia)) as (E1 & E2 & E3). unfold mean_duration, end_time_plus_duration, start_time. rewrite C, E1, E3. destruct (Z.ltb_spec (Z.of_nat (length ds)) 2); [lia|]. cbn [option_map].
  unfold to_hns. rewrite Z.mul_0_r. change (u64 0) with 0. rewrite Z.div_0_l by lia. rewrite Z.sub_0_r. rewrite (u64_id (10000000 * zsum ds)) by lia.
  assert (0 <= 10000000 * zsum ds / ts) by (apply Z.div_pos; lia). assert (10000000 * zsum ds / ts <= 10000000 * zsum ds) by (apply Z.div_le_upper_bound; nia). rewrite u64_id by lia. rewrite Z.div_div by lia. reflexivity.
Qed.
Lemma zsum_repeat d : forall n, zsum (repeat d n) = Z.of_nat n * d.
Proof. induction n; [reflexivity|]. cbn [repeat]. change (zsum (d :: repeat d n)) with (d + zsum (repeat d n)). rewrite IHn. lia. Qed.
Lemma mean_constant ts header t d n : plain t (repeat d n) -> 0 <= d -> (2 <= n)%nat -> 0 < ts -> 10000000 * (Z.of_nat n * d) < 2 ^ 64 -> mean_duration ts header t = Some (10000000 * d / ts).
Proof.
  intros P D N T B. rewrite (mean_plain ts header t (repeat d n) P); [|apply Forall_forall; intros x Hx; apply repeat_spec in Hx; lia|rewrite repeat_length; exact N|exact T|rewrite zsum_repeat; exact B].
  rewrite zsum_repeat, repeat_length. f_equal. replace (10000000 * (Z.of_nat n * d)) with (10000000 * d * Z.of_nat n) by ring. apply Z.div_mul_cancel_r; lia.
Qed.
Lemma bit_rate_bounds header total : 10000000 <= header -> 0 <= total -> total * 8 < 2 ^ 64 -> bit_rate header total * (header / 10000000) <= 8 * total < (bit_rate header total + 1) * (header / 10000000).
Proof.
  intros H T B. unfold bit_rate. destruct (Z.eqb_spec header 0); [lia|]. assert (0 < header / 10000000) by lia. destruct (Z.eqb_spec (header / 10000000) 0); [lia|]. rewrite u64_id by lia. set (d := header / 10000000) in *. clearbody d. pose proof (Z.div_mod (total * 8) d ltac:(lia)). pose proof (Z.mod_pos_bound (total * 8) d ltac:(lia)). nia.
Qed.

Lemma decoding_end_is m stream ts header ds ord tb keys : nth_error m stream = Some (mkST ts header (mkT (times_of 0 ds) [] false ord tb keys)) -> (length m <= length ds)%nat -> Forall (fun d => 0 <= d) ds -> 10000000 * zsum ds < 2 ^ 64 ->
  decoding_end_time m stream = Some (10000000 * zsum (firstn (length m - 1) ds) / ts).
Proof.
  intros E L F B. assert (LM : (0 < length m)%nat) by (destruct m; [destruct stream; discriminate|cbn; lia]). unfold decoding_end_time. rewrite E. cbn [st_scale st_track]. unfold decoding_time_hns, decoding_time. cbn [t_times].
  replace (Z.of_nat (length m) - 1 <? 0) with false by lia. replace (Z.to_nat (Z.of_nat (length m) - 1)) with (length m - 1)%nat by lia.
  rewrite (nth_error_nth' _ (0, 0)) by (rewrite times_of_length; lia). rewrite times_of_nth by lia. cbn [option_map fst]. unfold to_hns. rewrite Z.add_0_l. do 2 f_equal.
  apply u64_id. pose proof (firstn_zsum_mono ds (length m - 1) (length ds) F ltac:(lia)) as M. rewrite firstn_all in M.
  assert (0 <= zsum (firstn (length m - 1) ds)). { pose proof (firstn_zsum_mono ds 0 (length m - 1) F ltac:(lia)) as M0. cbn [firstn zsum] in M0. exact M0. } lia.
Qed.
