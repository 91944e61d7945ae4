(** Proofs about Gop_model. *)
From Coq Require Import ZifyNat.
From Verif Require Import Util RangeMap_model SampleTab_model SampleTab_proofs TimeTab_model TimeTab_proofs TimeTab_proofs2 TimeTab_proofs3 TimeTab_proofs4 Walk_model Walk_proofs Cut_model Cut_proofs Gop_model.
Local Open Scope Z_scope.

(** ** The key frames of a track *)
Definition key (flags : list bool) (j : nat) : Prop := nth j flags false = true.
Lemma key_lt : forall flags j, key flags j -> (j < length flags)%nat.
Proof. intros flags j H. unfold key in H. destruct (Nat.lt_ge_cases j (length flags)) as [|G]; [assumption|]. rewrite nth_overflow in H by lia. discriminate. Qed.
Lemma key_some : forall flags j, key flags j -> existsb (fun b => b) flags = true.
Proof. intros flags j H. apply existsb_exists. exists true. split; [|reflexivity]. unfold key in H. rewrite <- H. apply nth_In. exact (key_lt flags j H). Qed.
Lemma kf_nil : forall flags K, (length flags <= K)%nat -> keys_from flags K = [].
Proof. intros. unfold keys_from. replace (length flags - K)%nat with 0%nat by lia. reflexivity. Qed.
Lemma kf_step : forall flags K, (K < length flags)%nat -> keys_from flags K = if nth K flags false then K :: keys_from flags (S K) else keys_from flags (S K).
Proof. intros flags K H. unfold keys_from. replace (length flags - K)%nat with (S (length flags - S K)) by lia. cbn [seq filter]. reflexivity. Qed.
Lemma kf_key : forall flags K, key flags K -> keys_from flags K = K :: keys_from flags (S K).
Proof. intros flags K H. rewrite kf_step by (exact (key_lt _ _ H)). unfold key in H. rewrite H. reflexivity. Qed.
Lemma kf_skip : forall flags d K, (forall j, (K <= j < K + d)%nat -> nth j flags false = false) -> keys_from flags K = keys_from flags (K + d).
Proof.
  induction d as [|d IH]; intros K H; [rewrite Nat.add_0_r; reflexivity|]. destruct (Nat.lt_ge_cases K (length flags)) as [L|G]; [|rewrite !kf_nil by lia; reflexivity].
  rewrite kf_step, H by lia. rewrite (IH (S K)) by (intros; apply H; lia). f_equal. lia.
Qed.
Lemma kf_next : forall flags j y, (j < y)%nat -> key flags y -> (forall i, (j < i < y)%nat -> nth i flags false = false) -> keys_from flags (S j) = y :: keys_from flags (S y).
Proof. intros flags j y L Ky N. rewrite (kf_skip flags (y - S j)) by (intros; apply N; lia). replace (S j + (y - S j))%nat with y by lia. apply kf_key. exact Ky. Qed.
Lemma kf_none : forall flags j, (forall i, (j < i)%nat -> nth i flags false = false) -> keys_from flags (S j) = [].
Proof. intros flags j N. rewrite (kf_skip flags (length flags)) by (intros; apply N; lia). apply kf_nil. lia. Qed.
Lemma kf_In : forall flags K j, In j (keys_from flags K) -> (K <= j)%nat /\ key flags j.
Proof. intros flags K j H. unfold keys_from in H. apply filter_In in H as (H1 & H2). apply in_seq in H1. split; [lia|exact H2]. Qed.
Lemma key_dec : forall flags j, (exists i, (j < i)%nat /\ nth i flags false = true) \/ forall i, (j < i)%nat -> nth i flags false = false.
Proof.
  intros flags j. destruct (existsb (fun i => nth i flags false) (seq (S j) (length flags))) eqn:E.
  - apply existsb_exists in E as (i & H1 & H2). apply in_seq in H1. left. exists i. split; [lia|exact H2].
  - right. intros i H. destruct (nth i flags false) eqn:N; [|reflexivity]. exfalso. pose proof (key_lt flags i N). assert (existsb (fun i => nth i flags false) (seq (S j) (length flags)) = true); [|congruence].
    apply existsb_exists. exists i. split; [apply in_seq; lia|exact N].
Qed.

(** ** Searching *)
(** the limit left by the search of key frame [j]: going on leads to the next, or to [j] again *)
Definition leads (flags : list bool) (m : table Z) (lim : Z) (j : nat) : Prop :=
  exists y lim2, next_iframe m lim = Some (Z.of_nat y, lim2) /\ key flags y
    /\ ((exists i, (j < i)%nat /\ key flags i) -> (j < y)%nat /\ forall i, (j < i < y)%nat -> nth i flags false = false) /\ ((forall i, (j < i)%nat -> nth i flags false = false) -> y = j).
Lemma at_sample : forall flags k m s j, keyed flags k -> Z.of_nat (length flags) < 2 ^ 31 -> t_keys (k_track k) = Some m -> key flags j -> (j <= s < length flags)%nat -> (forall i, (j < i <= s)%nat -> nth i flags false = false) ->
  exists lim, iframe_at m (Z.of_nat s) = Some (Z.of_nat j, lim) /\ leads flags m lim j.
Proof.
  intros flags k m s j (L & m' & M1 & M2) B M KJ JS NK. rewrite M in M1. injection M1 as <-. destruct (key_search flags B (key_some _ _ KJ)) as (m2 & P & SE). rewrite P in M2. injection M2 as ->.
  destruct (SE s j ltac:(lia) ltac:(lia) KJ) as (k0 & lim & y & lim2 & E1 & E2 & E3 & E4 & E5 & E6 & E7 & E8).
  assert (k0 = j) as ->. { destruct (Nat.lt_trichotomy k0 j) as [Q|[Q|Q]]; [|exact Q|]; [unfold key in KJ; rewrite (E4 j) in KJ by lia; discriminate|]. rewrite NK in E3 by lia. discriminate. }
  exists lim. split; [exact E1|]. exists y, lim2. split; [exact E5|]. split; [exact E6|]. split.
  - intros (i & I1 & I2). assert (SI : (s < i)%nat). { destruct (Nat.le_gt_cases i s) as [Q|Q]; [|exact Q]. unfold key in I2. rewrite NK in I2 by lia. discriminate. }
    destruct E7 as (F1 & F2); [exists i; split; [exact SI|exact I2]|]. split; [lia|]. intros q Hq. destruct (Nat.le_gt_cases q s); [apply NK; lia|apply F2; lia].
  - intros N. apply E8. intros q Hq. apply N. lia.
Qed.
Lemma at_time : forall rs flags k m j time, timed rs k -> keyed flags k -> t_keys (k_track k) = Some m -> key flags j -> D k j <= of_hns (k_ts k) time < zsum (expand rs) ->
  (forall i, (j < i)%nat -> key flags i -> of_hns (k_ts k) time < D k i) -> exists lim, key_at k time = Some (Z.of_nat j, lim) /\ leads flags m lim j.
Proof.
  intros rs flags k m j time T KY M KJ QQ LATE. pose proof (timed_facts rs k T) as (LT & LP & D0 & DI & DZ & ZP & SR). pose proof (timed_count rs k T) as CT. pose proof (proj1 KY) as LF. pose proof (key_lt _ _ KJ) as JL.
  destruct (SR _ (of_hns_range (k_ts k) time)) as (s & E & S1 & S2 & S3). specialize (S2 (proj2 QQ)). unfold key_at. rewrite M, E. replace s with (Z.of_nat (Z.to_nat s)) by lia.
  apply (at_sample flags k m (Z.to_nat s) j); auto; [lia| |].
  - pose proof (proj1 (S3 j ltac:(lia)) (proj1 QQ)). lia.
  - intros i Hi. destruct (nth i flags false) eqn:N; [|reflexivity]. specialize (LATE i ltac:(lia) N). pose proof (key_lt _ _ N). pose proof (proj2 (S3 i ltac:(lia)) ltac:(lia)). lia.
Qed.

(** ** Times *)
Lemma nth_sample_eq : forall k i, (i < length (k_places k))%nat -> nth_error (samples_of k) i = Some (nth_sample k i).
Proof. intros k i H. unfold nth_sample. apply nth_error_nth'. rewrite samples_length. exact H. Qed.
Lemma shown_eq : forall rs k i, timed rs k -> offsets_ok k -> (i < length (k_places k))%nat -> shown k i = to_hns (k_ts k) (C k i) /\ decoded k i = to_hns (k_ts k) (D k i)
  /\ option_map (to_hns (k_ts k)) (composition_time (k_track k) (Z.of_nat i)) = Some (shown k i) /\ decoding_time_hns (k_ts k) (k_track k) (Z.of_nat i) = Some (decoded k i).
Proof.
  intros rs k i T O H. destruct (comp_sample rs k i _ T (nth_sample_eq k i H)) as (_ & E1 & E2). destruct (C_small rs k i T O H) as (_ & _ & E3 & _). pose proof (timed_facts rs k T) as (LT & _).
  unfold shown, decoded. rewrite E1, E2, E3. split; [reflexivity|]. split; [reflexivity|]. unfold decoding_time_hns. rewrite composition_at, decoding_at, E3 by lia. split; reflexivity.
Qed.
Lemma ends_le : forall rs k, timed rs k -> ends k <= to_hns (k_ts k) (zsum (expand rs)).
Proof.
  intros rs k T. pose proof (timed_facts rs k T) as (LT & LP & D0 & DI & DZ & ZP & SR). set (n := (length (k_places k) - 1)%nat). assert (NL : (n < length (k_places k))%nat) by lia.
  pose proof (nth_sample_eq k n NL) as E. destruct (comp_sample rs k n _ T E) as (_ & _ & E2). rewrite samples_nth in E. destruct (nth_error (k_places k) n) as [p|]; [|discriminate]. injection E as E.
  assert (E3 : s_dur (nth_sample k n) = to_hns (k_ts k) (snd (nth n (t_times (k_track k)) (0, 0)))).
  { rewrite <- E. unfold sample_at, duration_of. cbn [s_dur]. destruct (Z.ltb_spec (Z.of_nat n) 0); [lia|]. rewrite Nat2Z.id, (nth_error_nth' _ (0, 0)) by lia. reflexivity. }
  unfold ends. fold n. rewrite E2, E3. unfold D. destruct T as (F1 & F2 & N & B & P & L & TS & ZB & OB).
  destruct (any_stts rs [] (t_offsets (k_track k)) (t_has_ctts (k_track k)) (t_order (k_track k)) (t_keys (k_track k)) F1 F2 N B) as (times & tb & G1 & G2 & _). rewrite app_nil_r, P in G1. injection G1 as <- <-.
  rewrite G2, times_of_nth by (unfold n; lia). cbn [fst snd]. pose proof (expand_pos rs F2) as FX. assert (X : 0 < nth n (expand rs) 0) by (rewrite Forall_forall in FX; apply FX, nth_In; lia).
  assert (Y : zsum (expand rs) = zsum (firstn n (expand rs)) + nth n (expand rs) 0). { rewrite <- zsum_S by (unfold n; lia). rewrite firstn_all2 by (unfold n; lia). reflexivity. }
  assert (Z0 : 0 <= zsum (firstn n (expand rs))). { assert (FP : Forall (fun x => 0 < x) (expand rs)) by (eapply Forall_impl; [|exact FX]; intros x Hx; cbv beta in Hx; lia). pose proof (zsum_mono (expand rs) 0 n FP ltac:(lia)) as Q. rewrite firstn_O in Q. change (zsum []) with 0 in Q. change (0 + n)%nat with n in Q. lia. }
  rewrite Z.add_0_l. unfold to_hns. rewrite !u64_id by lia. rewrite Y, Z.mul_add_distr_l. set (a := 10000000 * zsum (firstn n (expand rs))) in *. set (b := 10000000 * nth n (expand rs) 0) in *.
  apply Z.div_le_lower_bound; [lia|]. pose proof (Z.mul_div_le a (k_ts k) ltac:(lia)). pose proof (Z.mul_div_le b (k_ts k) ltac:(lia)). lia.
Qed.
Lemma orderly_time : forall rs flags k K m j, timed rs k -> offsets_ok k -> keyed flags k -> t_keys (k_track k) = Some m -> orderly flags k K -> (K <= j)%nat -> key flags j ->
  exists lim, key_at k (shown k j) = Some (Z.of_nat j, lim) /\ leads flags m lim j.
Proof.
  intros rs flags k K m j T O KY M OR KJ KF. destruct (OR j KJ KF) as (O1 & O2 & O3). pose proof (timed_facts rs k T) as (LT & LP & D0 & DI & DZ & ZP & SR). pose proof (proj1 KY) as LF. pose proof (key_lt _ _ KF) as JL.
  destruct (shown_eq rs k j T O ltac:(lia)) as (E1 & E2 & _). destruct (C_small rs k j T O ltac:(lia)) as (C0 & CB & _ & DC). destruct (timed_small rs k j T ltac:(lia)) as (Dp & DB).
  assert (TS : 0 < k_ts k <= 10000000) by (destruct T as (_ & _ & _ & _ & _ & _ & TS & _); exact TS). assert (ZB : 10000000 * zsum (expand rs) < 2 ^ 63) by (destruct T as (_ & _ & _ & _ & _ & _ & _ & ZB & _); exact ZB).
  pose proof (back_le (k_ts k) (C k j) TS C0 CB) as UP. rewrite E1. apply (at_time rs flags k m j); auto.
  - split.
    + rewrite there_and_back by lia. destruct ((10000000 * C k j) mod k_ts k =? 0) eqn:Q; [exact DC|]. destruct O1 as [O1|O1].
      * rewrite <- Zmult_mod_idemp_l, O1, Z.mul_0_l, Zmod_0_l in Q. discriminate.
      * rewrite E1, E2 in O1. assert (D k j < C k j); [|lia]. destruct (Z.lt_ge_cases (D k j) (C k j)) as [|G]; [assumption|]. pose proof (hns_mono (k_ts k) (C k j) (D k j) ltac:(lia) ltac:(lia) ltac:(lia)). lia.
    + pose proof (ends_le rs k T) as EL. assert (C k j < zsum (expand rs)); [|lia]. destruct (Z.lt_ge_cases (C k j) (zsum (expand rs))) as [|G]; [assumption|]. pose proof (hns_mono (k_ts k) (zsum (expand rs)) (C k j) ltac:(lia) ltac:(lia) ltac:(lia)). lia.
  - intros i Hi Ki. specialize (O3 i Hi Ki). pose proof (key_lt _ _ Ki) as IL. destruct (shown_eq rs k i T O ltac:(lia)) as (_ & E4 & _). rewrite E1, E4 in O3. destruct (timed_small rs k i T ltac:(lia)) as (Dp' & DB').
    assert (C k j < D k i); [|lia]. destruct (Z.lt_ge_cases (C k j) (D k i)) as [|G]; [assumption|]. pose proof (hns_mono (k_ts k) (D k i) (C k j) ltac:(lia) ltac:(lia) ltac:(lia)). lia.
Qed.

(** ** The loop *)
Lemma gop_S : forall n k limit next time end_, gop_rows (S n) k limit next time end_ =
    if (time <? next) && (time <? end_) then
      let time := if next <? U64MAX then next else time in
      match next_key_time k limit with
      | None => None
      | Some t => match key_at k t with None => None | Some (s, lim) => match decoding_time_hns (k_ts k) (k_track k) s with None => None | Some d => option_map (cons (mkRow s t d)) (gop_rows n k lim t time end_) end end
      end
    else Some [].
Proof. reflexivity. Qed.
(** the key frames printed after [x], the one printed before it shown at [prev] *)
Fixpoint tail_rows (k : trk) (end_ prev : Z) (x : nat) (r : list nat) : list nat :=
  if prev <? end_ then match r with [] => [x] | y :: r => y :: tail_rows k end_ (shown k x) y r end else [].
Lemma leads_next : forall flags m lim j, leads flags m lim j -> exists y lim2, next_iframe m lim = Some (Z.of_nat y, lim2) /\ key flags y
  /\ ((keys_from flags (S j) = y :: keys_from flags (S y) /\ (j < y)%nat) \/ (keys_from flags (S j) = [] /\ y = j)).
Proof.
  intros flags m lim j (y & lim2 & E & KY & A & B). exists y, lim2. split; [exact E|]. split; [exact KY|]. destruct (key_dec flags j) as [Q|Q].
  - left. destruct (A Q) as (A1 & A2). split; [|exact A1]. apply kf_next; auto.
  - right. split; [apply kf_none; exact Q|apply B; exact Q].
Qed.
Lemma shown_bound : forall rs k i, timed rs k -> offsets_ok k -> (i < length (k_places k))%nat -> 0 <= shown k i < 2 ^ 64 - 1.
Proof.
  intros rs k i T O H. destruct (shown_eq rs k i T O H) as (-> & _). destruct (C_small rs k i T O H) as (C0 & CB & _). assert (TS : 0 < k_ts k) by (destruct T as (_ & _ & _ & _ & _ & _ & TS & _); lia).
  split; [apply hns_pos; exact TS|]. unfold to_hns. rewrite u64_id by lia. assert (10000000 * C k i < 2 ^ 64 - 1) by lia. pose proof (Z.div_le_upper_bound (10000000 * C k i) (k_ts k) (10000000 * C k i) TS ltac:(nia)). lia.
Qed.
Lemma gop_tail : forall rs flags k K m end_, timed rs k -> offsets_ok k -> keyed flags k -> t_keys (k_track k) = Some m -> orderly flags k K ->
  forall r n x lim prev, keys_from flags (S x) = r -> (K <= x)%nat -> key flags x -> leads flags m lim x -> prev < shown k x -> (length r + 2 <= n)%nat ->
  gop_rows n k lim (shown k x) prev end_ = Some (map (true_row k) (tail_rows k end_ prev x r)).
Proof.
  intros rs flags k K m end_ T O KY M OR. pose proof (proj1 KY) as LF. induction r as [|y r IH]; intros n x lim prev KF KX Kx LE PR Hn; (destruct n as [|n]; [lia|]); rewrite gop_S; cbn [tail_rows].
  all: pose proof (key_lt _ _ Kx) as XL; pose proof (shown_bound rs k x T O ltac:(lia)) as SB; replace (prev <? shown k x) with true by lia; cbn [andb]; destruct (prev <? end_); [|reflexivity]; cbv zeta; unfold U64MAX; replace (shown k x <? 2 ^ 64 - 1) with true by lia; unfold next_key_time; rewrite M;
    destruct (leads_next _ _ _ _ LE) as (y' & lim2 & E & Ky & [(Q & XY)|(Q & XY)]); rewrite KF in Q; try discriminate.
  - subst y'. rewrite E. destruct (shown_eq rs k x T O ltac:(lia)) as (_ & _ & -> & DT). destruct (orderly_time rs flags k K m x T O KY M OR KX Kx) as (lim' & -> & _). rewrite DT.
    destruct n as [|n]; [cbn [length] in Hn; lia|]. rewrite gop_S, Z.ltb_irrefl. reflexivity.
  - injection Q as -> Q. rewrite E. pose proof (key_lt _ _ Ky) as YL. destruct (shown_eq rs k y' T O ltac:(lia)) as (_ & _ & -> & DT). destruct (orderly_time rs flags k K m y' T O KY M OR ltac:(lia) Ky) as (lim' & -> & LE'). rewrite DT.
    assert (XYs : shown k x < shown k y').
    { destruct (OR x KX Kx) as (_ & _ & O3). specialize (O3 y' XY Ky). destruct (shown_eq rs k y' T O ltac:(lia)) as (-> & E2 & _). rewrite E2 in O3. destruct (C_small rs k y' T O ltac:(lia)) as (C0 & CB & _ & DC). destruct (timed_small rs k y' T ltac:(lia)) as (Dp' & DB').
      assert (TS : 0 < k_ts k) by (destruct T as (_ & _ & _ & _ & _ & _ & TS & _); lia). pose proof (hns_mono (k_ts k) (D k y') (C k y') TS ltac:(lia) ltac:(lia)). lia. }
    rewrite (IH n y' lim' (shown k x)); try assumption; [|symmetry; exact Q|lia|cbn [length] in Hn; lia]. reflexivity.
Qed.
(** ** What is printed *)
Lemma filt_len : forall {A} (f : A -> bool) l, (length (filter f l) <= length l)%nat.
Proof. induction l as [|x l IH]; [reflexivity|]. cbn [filter length]. destruct (f x); cbn [length]; lia. Qed.
Lemma before_cons : forall k e x l, before k e (x :: l) = if shown k x <? e then S (before k e l) else before k e l.
Proof. intros k e x l. unfold before. cbn [filter]. destruct (shown k x <? e); reflexivity. Qed.
Lemma tail_firstn : forall rs flags k K end_, timed rs k -> offsets_ok k -> keyed flags k -> orderly flags k K -> forall r prev x, keys_from flags (S x) = r -> (K <= x)%nat -> key flags x ->
  (forall y, In y (x :: r) -> prev < shown k y) ->
  tail_rows k end_ prev x r = if prev <? end_ then firstn (S (before k end_ (x :: r))) (r ++ [last (x :: r) 0%nat]) else [].
Proof.
  intros rs flags k K end_ T O KY OR. pose proof (proj1 KY) as LF. induction r as [|y r IH]; intros prev x KF KX Kx PR; cbn [tail_rows]; destruct (prev <? end_); try reflexivity.
  { cbn [app last firstn]. rewrite firstn_nil. reflexivity. }
  assert (IY : In y (keys_from flags (S x))) by (rewrite KF; left; reflexivity). apply kf_In in IY as (XY & Ky). assert (KF' : keys_from flags (S y) = r).
  { assert (G : forall d a, y = (S a + d)%nat -> keys_from flags (S a) = y :: r -> keys_from flags (S y) = r); [|apply (G (y - S x)%nat x); [lia|exact KF]].
    clear - Ky. induction d as [|d IHd]; intros a E KF.
    - replace y with (S a) in * by lia. rewrite kf_key in KF by exact Ky. injection KF as KF. exact KF.
    - pose proof (key_lt _ _ Ky) as YL. apply (IHd (S a)); [lia|]. rewrite kf_step in KF by lia. destruct (nth (S a) flags false); [injection KF as E2 _; lia|exact KF]. }
  assert (XS : forall z, In z (y :: r) -> shown k x < shown k z).
  { intros z I. rewrite <- KF in I. apply kf_In in I as (I1 & I2). destruct (OR x KX Kx) as (_ & _ & O3). specialize (O3 z ltac:(lia) I2). pose proof (key_lt _ _ I2) as ZL. destruct (shown_eq rs k z T O ltac:(lia)) as (-> & E2 & _). rewrite E2 in O3.
    destruct (C_small rs k z T O ltac:(lia)) as (C0 & CB & _ & DC). destruct (timed_small rs k z T ltac:(lia)) as (Dp' & DB'). assert (TS : 0 < k_ts k) by (destruct T as (_ & _ & _ & _ & _ & _ & TS & _); lia). pose proof (hns_mono (k_ts k) (D k z) (C k z) TS ltac:(lia) ltac:(lia)). lia. }
  rewrite (IH (shown k x) y KF' ltac:(lia) Ky XS). rewrite <- app_comm_cons. cbn [firstn]. f_equal. change (last (x :: y :: r) 0%nat) with (last (y :: r) 0%nat). rewrite (before_cons k end_ x). destruct (Z.ltb_spec (shown k x) end_) as [L|G].
  - reflexivity.
  - assert (Z0 : before k end_ (y :: r) = 0%nat); [|rewrite Z0; reflexivity]. unfold before. rewrite filter_none; [reflexivity|]. apply Forall_forall. intros z I. specialize (XS z I). apply Z.ltb_ge. lia.
Qed.
Lemma listing : forall rs flags k K n duration start end_, timed rs k -> offsets_ok k -> keyed flags k -> orderly flags k K -> key flags K ->
  (K = 0%nat \/ decoded k K < start) -> 0 <= start -> start * k_ts k < 2 ^ 64 -> start < ends k -> (forall j, (K < j)%nat -> key flags j -> start < decoded k j) -> (length flags + 2 <= n)%nat ->
  let ks := keys_from flags K in let c := before k (until duration end_) ks in
  gop_list n k duration start end_ = Some (map (true_row k) (firstn (match c with O => 1 | _ => c + 2 end)%nat (ks ++ [last ks 0%nat]))).
Proof.
  intros rs flags k K n duration start end_ T O KY OR KK S1 S0 SB SE S2 Hn ks c. pose proof KY as (LF & m & M & _). pose proof (key_lt _ _ KK) as KL. pose proof (timed_facts rs k T) as (LT & LP & D0 & DI & DZ & ZP & SR).
  assert (TS : 0 < k_ts k <= 10000000) by (destruct T as (_ & _ & _ & _ & _ & _ & TS & _); exact TS). assert (ZB : 10000000 * zsum (expand rs) < 2 ^ 63) by (destruct T as (_ & _ & _ & _ & _ & _ & _ & ZB & _); exact ZB).
  assert (OH : of_hns (k_ts k) start = start * k_ts k / 10000000) by (unfold of_hns; rewrite u64_id by lia; reflexivity).
  assert (AT : exists lim, key_at k start = Some (Z.of_nat K, lim) /\ leads flags m lim K).
  { apply (at_time rs flags k m K); auto.
    - rewrite OH. split.
      + destruct S1 as [->|S1]; [rewrite D0; apply Z.div_pos; lia|]. destruct (shown_eq rs k K T O ltac:(lia)) as (_ & E & _). rewrite E in S1. destruct (timed_small rs k K T ltac:(lia)) as (Dp & DB).
        apply Z.div_le_lower_bound; [lia|]. unfold to_hns in S1. rewrite u64_id in S1 by lia. assert (~ (start * k_ts k < 10000000 * D k K)); [|lia]. intros Q. assert (start <= 10000000 * D k K / k_ts k); [|lia]. apply Z.div_le_lower_bound; lia.
      + pose proof (ends_le rs k T) as EL. unfold to_hns in EL. rewrite u64_id in EL by lia. apply Z.div_lt_upper_bound; [lia|]. assert (H : start + 1 <= 10000000 * zsum (expand rs) / k_ts k) by lia. pose proof (Z.mul_div_le (10000000 * zsum (expand rs)) (k_ts k) ltac:(lia)). nia.
    - intros i Hi Ki. specialize (S2 i Hi Ki). pose proof (key_lt _ _ Ki) as IL. destruct (shown_eq rs k i T O ltac:(lia)) as (_ & E & _). rewrite E in S2. destruct (timed_small rs k i T ltac:(lia)) as (Dp & DB). rewrite OH. unfold to_hns in S2. rewrite u64_id in S2 by lia.
      apply Z.div_lt_upper_bound; [lia|]. assert (H : start + 1 <= 10000000 * D k i / k_ts k) by lia. pose proof (Z.mul_div_le (10000000 * D k i) (k_ts k) ltac:(lia)). nia. }
  destruct AT as (lim & AT & LE). unfold gop_list. rewrite AT. fold (until duration end_). destruct (shown_eq rs k K T O ltac:(lia)) as (_ & _ & -> & ->). set (e := until duration end_) in *.
  assert (KE : ks = K :: keys_from flags (S K)) by (apply kf_key; exact KK). set (r := keys_from flags (S K)) in *.
  assert (MONO : forall a b, (K <= a < b)%nat -> key flags a -> key flags b -> shown k a < shown k b).
  { intros a b AB Ka Kb. destruct (OR a ltac:(lia) Ka) as (_ & _ & O3). specialize (O3 b ltac:(lia) Kb). pose proof (key_lt _ _ Kb) as BL. destruct (shown_eq rs k b T O ltac:(lia)) as (-> & E2 & _). rewrite E2 in O3.
    destruct (C_small rs k b T O ltac:(lia)) as (C0 & CB & _ & DC). destruct (timed_small rs k b T ltac:(lia)) as (Dp' & DB'). pose proof (hns_mono (k_ts k) (D k b) (C k b) ltac:(lia) ltac:(lia) ltac:(lia)). lia. }
  pose proof (shown_bound rs k K T O ltac:(lia)) as SBD. assert (RL : (length r <= length flags)%nat). { unfold r, keys_from. etransitivity; [apply filt_len|]. rewrite seq_length. lia. }
  destruct n as [|n]; [lia|]. rewrite gop_S. unfold U64MAX at 1. replace (shown k K <? 2 ^ 64 - 1) with true by lia. cbn [andb]. unfold c. rewrite KE, before_cons. destruct (Z.ltb_spec (shown k K) e) as [L|G].
  2:{ unfold before. rewrite filter_none; [reflexivity|]. apply Forall_forall. intros z I. apply kf_In in I as (I1 & I2). specialize (MONO K z ltac:(lia) KK I2). apply Z.ltb_ge. lia. }
  cbv zeta. rewrite Z.ltb_irrefl. unfold next_key_time. rewrite M. destruct (leads_next _ _ _ _ LE) as (y & lim2 & E & Ky & [(Q & XY)|(Q & XY)]); rewrite E; fold r in Q.
  - pose proof (key_lt _ _ Ky) as YL. destruct (shown_eq rs k y T O ltac:(lia)) as (_ & _ & -> & DT). destruct (orderly_time rs flags k K m y T O KY M OR ltac:(lia) Ky) as (lim' & -> & LE'). rewrite DT.
    rewrite (gop_tail rs flags k K m e T O KY M OR (keys_from flags (S y)) n y lim' (shown k K)); try assumption; [|reflexivity|lia| |].
    + rewrite (tail_firstn rs flags k K e T O KY OR (keys_from flags (S y)) (shown k K) y); try assumption; [|reflexivity|lia|].
      * replace (shown k K <? e) with true by lia. rewrite Q. cbn [option_map]. f_equal. rewrite <- !app_comm_cons. set (c' := before k e (y :: keys_from flags (S y))).
        replace (S c' + 2)%nat with (S (S (S c'))) by lia. change (last (K :: y :: keys_from flags (S y)) 0%nat) with (last (y :: keys_from flags (S y)) 0%nat). cbn [firstn map]. reflexivity.
      * intros z I. destruct I as [<-|I]; [apply MONO; auto; lia|]. apply kf_In in I as (I1 & I2). apply MONO; auto. lia.
    + apply MONO; auto; lia.
    + rewrite Q in RL. cbn [length] in RL. lia.
  - subst y. destruct (shown_eq rs k K T O ltac:(lia)) as (_ & _ & -> & DT). destruct (orderly_time rs flags k K m K T O KY M OR ltac:(lia) KK) as (lim' & -> & _). rewrite DT.
    destruct n as [|n]; [lia|]. rewrite gop_S, Z.ltb_irrefl. cbn [andb option_map]. rewrite Q. reflexivity.
Qed.

(** ** Nothing is left out before the end *)
Lemma seq_sorted : forall n a, Sorted.StronglySorted lt (seq a n).
Proof. induction n as [|n IH]; intros a; cbn [seq]; constructor; [apply IH|]. apply Forall_forall. intros x H. apply in_seq in H. lia. Qed.
Lemma ssort_filter : forall {A} (R : A -> A -> Prop) f l, Sorted.StronglySorted R l -> Sorted.StronglySorted R (filter f l).
Proof.
  intros A R f l H. induction H as [|x l H IH F]; [constructor|]. cbn [filter]. destruct (f x); [|exact IH]. constructor; [exact IH|]. apply Forall_forall. intros y I. apply filter_In in I as (I & _). rewrite Forall_forall in F. apply F. exact I.
Qed.
Lemma first_shown : forall k e l, Sorted.StronglySorted (fun a b => shown k a <= shown k b) l -> firstn (before k e l) l = filter (fun j => shown k j <? e) l.
Proof.
  intros k e l H. induction H as [|x l H IH F]; [reflexivity|]. rewrite before_cons. cbn [filter]. destruct (Z.ltb_spec (shown k x) e); [cbn [firstn]; rewrite IH; reflexivity|].
  assert (Q : filter (fun j => shown k j <? e) l = []). { apply filter_none. apply Forall_forall. intros y I. rewrite Forall_forall in F. specialize (F y I). cbv beta in F. apply Z.ltb_ge. lia. }
  unfold before. rewrite Q. reflexivity.
Qed.
Lemma orderly_sorted : forall rs flags k K, timed rs k -> offsets_ok k -> keyed flags k -> orderly flags k K -> Sorted.StronglySorted (fun a b => shown k a <= shown k b) (keys_from flags K).
Proof.
  intros rs flags k K T O KY OR. assert (Ss : Sorted.StronglySorted lt (keys_from flags K)) by (apply ssort_filter, seq_sorted). assert (IN : forall x, In x (keys_from flags K) -> (K <= x)%nat /\ key flags x) by (intros; apply kf_In; assumption).
  induction Ss as [|x l Ss IH F]; constructor; [apply IH; intros; apply IN; right; assumption|]. apply Forall_forall. intros y I. rewrite Forall_forall in F. specialize (F y I). destruct (IN x (or_introl eq_refl)) as (X1 & X2). destruct (IN y (or_intror I)) as (Y1 & Y2).
  destruct (OR x X1 X2) as (_ & _ & O3). specialize (O3 y F Y2). pose proof (key_lt _ _ Y2) as YL. pose proof (proj1 KY) as LF. destruct (shown_eq rs k y T O ltac:(lia)) as (-> & E2 & _). rewrite E2 in O3.
  destruct (C_small rs k y T O ltac:(lia)) as (C0 & CB & _ & DC). destruct (timed_small rs k y T ltac:(lia)) as (Dp' & DB'). assert (TS : 0 < k_ts k) by (destruct T as (_ & _ & _ & _ & _ & _ & TS & _); lia). pose proof (hns_mono (k_ts k) (D k y) (C k y) TS ltac:(lia) ltac:(lia)). lia.
Qed.
Lemma in_firstn : forall {A} (l r : list A) a b x, (a <= b)%nat -> In x (firstn a l) -> In x (firstn b (l ++ r)).
Proof.
  induction l as [|y l IH]; intros r a b x H I; [rewrite firstn_nil in I; destruct I|]. destruct a as [|a]; [destruct I|]. destruct b as [|b]; [lia|]. cbn [firstn app] in *. destruct I as [->|I]; [left; reflexivity|right; apply (IH r a b); [lia|exact I]].
Qed.
Lemma firstn_last : forall {A} (l : list A) n d x, l <> [] -> In x (firstn n (l ++ [last l d])) -> In x l.
Proof. intros A l n d x N I. assert (J : In x (l ++ [last l d])) by (rewrite <- (firstn_skipn n (l ++ [last l d])); apply in_or_app; left; exact I). apply in_app_or in J as [J|[<-|[]]]; [exact J|]. destruct (exists_last N) as (a & z & ->). rewrite last_last. apply in_or_app. right. left. reflexivity. Qed.
Lemma listing_all : forall rs flags k K n duration start end_, timed rs k -> offsets_ok k -> keyed flags k -> orderly flags k K -> key flags K ->
  (K = 0%nat \/ decoded k K < start) -> 0 <= start -> start * k_ts k < 2 ^ 64 -> start < ends k -> (forall j, (K < j)%nat -> key flags j -> start < decoded k j) -> (length flags + 2 <= n)%nat ->
  exists rows, gop_list n k duration start end_ = Some rows /\ (forall r, In r rows -> exists j, (K <= j)%nat /\ key flags j /\ r = true_row k j)
  /\ forall j, (K <= j)%nat -> key flags j -> shown k j < until duration end_ -> In (true_row k j) rows.
Proof.
  intros rs flags k K n duration start end_ T O KY OR KK S1 S0 SB SE S2 Hn. pose proof (listing rs flags k K n duration start end_ T O KY OR KK S1 S0 SB SE S2 Hn) as E. cbv zeta in E. eexists. split; [exact E|]. set (ks := keys_from flags K) in *. set (c := before k (until duration end_) ks) in *.
  assert (KN : ks <> []) by (unfold ks; rewrite kf_key by exact KK; discriminate). split.
  - intros r I. apply in_map_iff in I as (j & <- & I). apply firstn_last in I; [|exact KN]. apply kf_In in I as (I1 & I2). exists j. auto.
  - intros j J1 J2 J3. apply in_map. assert (I : In j (filter (fun j => shown k j <? until duration end_) ks)).
    { apply filter_In. split; [|apply Z.ltb_lt; exact J3]. unfold ks, keys_from. apply filter_In. split; [|exact J2]. pose proof (key_lt _ _ J2). apply in_seq. lia. }
    rewrite <- first_shown in I by (exact (orderly_sorted rs flags k K T O KY OR)). fold c in I. apply (in_firstn ks _ c); [|exact I]. destruct c; lia.
Qed.

(** ** Times which are no whole number of ticks *)
Lemma truncated : forall rs flags k J d n duration end_, timed rs k -> offsets_ok k -> keyed flags k -> t_offsets (k_track k) = [] -> key flags 0 -> key flags J -> (0 < J)%nat -> (forall i, (0 < i < J)%nat -> nth i flags false = false) ->
  decoding_time (k_track k) (Z.of_nat J) = Some d -> (10000000 * d) mod k_ts k <> 0 -> 0 < until duration end_ -> (3 <= n)%nat ->
  gop_list n k duration 0 end_ = Some [mkRow 0 0 0; mkRow 0 (shown k J) 0; mkRow 0 (shown k J) 0].
Proof.
  intros rs flags k J d n duration end_ T O KY NO K0 KJ J0 NK DJ INX E0 Hn. pose proof KY as (LF & m & M & _). pose proof (key_lt _ _ K0) as L0. pose proof (key_lt _ _ KJ) as LJ. pose proof (timed_facts rs k T) as (LT & LP & D0 & DI & DZ & ZP & SR).
  assert (TS : 0 < k_ts k <= 10000000) by (destruct T as (_ & _ & _ & _ & _ & _ & TS & _); exact TS). assert (ZB : 10000000 * zsum (expand rs) < 2 ^ 63) by (destruct T as (_ & _ & _ & _ & _ & _ & _ & ZB & _); exact ZB).
  assert (CD : forall i, C k i = D k i) by (intros i; unfold C; rewrite NO; destruct i; cbn [nth]; lia). rewrite decoding_at in DJ by lia. injection DJ as <-.
  assert (LATE : forall i, (0 < i)%nat -> key flags i -> D k J <= D k i). { intros i I0 Ki. pose proof (key_lt _ _ Ki). destruct (Nat.lt_trichotomy i J) as [Q|[->|Q]]; [unfold key in Ki; rewrite NK in Ki by lia; discriminate|lia|]. specialize (DI J i Q ltac:(lia)). lia. }
  pose proof (DI 0%nat J J0 ltac:(lia)) as DP. rewrite D0 in DP. specialize (DZ J ltac:(lia)) as DJZ.
  destruct (shown_eq rs k 0 T O ltac:(lia)) as (S0 & S0' & S1 & S2). rewrite CD, D0 in S0. rewrite D0 in S0'. destruct (shown_eq rs k J T O ltac:(lia)) as (SJ & _ & SJ1 & _). rewrite CD in SJ.
  assert (ZZ : to_hns (k_ts k) 0 = 0) by (unfold to_hns; rewrite Z.mul_0_r, u64_id by lia; apply Z.div_0_l; lia). rewrite ZZ in S0, S0'.
  assert (ON : of_hns (k_ts k) 0 = 0) by (unfold of_hns; rewrite Z.mul_0_l, u64_id by lia; reflexivity). change (Z.of_nat 0) with 0 in *.
  destruct (at_time rs flags k m 0 0 T KY M K0) as (lim & A1 & LE1); [rewrite ON, D0; lia|intros i I0 Ki; rewrite ON; specialize (LATE i I0 Ki); lia|].
  assert (OJ : of_hns (k_ts k) (shown k J) = D k J - 1) by (rewrite SJ, there_and_back by lia; destruct (Z.eqb_spec ((10000000 * D k J) mod k_ts k) 0); [contradiction|reflexivity]).
  destruct (at_time rs flags k m 0 (shown k J) T KY M K0) as (lim2 & A2 & LE2); [rewrite OJ, D0; lia|intros i I0 Ki; rewrite OJ; specialize (LATE i I0 Ki); lia|].
  assert (NX : forall l, leads flags m l 0 -> exists l2, next_iframe m l = Some (Z.of_nat J, l2)).
  { intros l (y & l2 & E & Ky & G1 & _). exists l2. destruct G1 as (Y1 & Y2); [exists J; auto|]. assert (y = J) as <-; [|exact E]. destruct (Nat.lt_trichotomy y J) as [Q|[Q|Q]]; [|exact Q|]; [unfold key in Ky; rewrite NK in Ky by lia; discriminate|]. unfold key in KJ. rewrite Y2 in KJ by lia. discriminate. }
  assert (SP : 0 < shown k J). { rewrite SJ. unfold to_hns. rewrite u64_id by lia. assert (1 <= 10000000 * D k J / k_ts k); [|lia]. apply Z.div_le_lower_bound; lia. }
  pose proof (shown_bound rs k J T O ltac:(lia)) as SB. change (Z.of_nat 0) with 0 in *. unfold gop_list. rewrite A1. fold (until duration end_). rewrite S1, S2, S0, S0'. set (e := until duration end_) in *.
  destruct n as [|[|[|n]]]; [lia|lia|lia|]. rewrite gop_S. replace (0 <? U64MAX) with true by reflexivity. replace (0 <? e) with true by lia. cbn [andb]. rewrite Z.ltb_irrefl. cbv zeta. unfold next_key_time. rewrite M. destruct (NX _ LE1) as (l2 & ->). rewrite SJ1, A2, S2.
  rewrite gop_S. replace (0 <? shown k J) with true by lia. replace (0 <? e) with true by lia. cbn [andb]. cbv zeta. unfold U64MAX. replace (shown k J <? 2 ^ 64 - 1) with true by lia. unfold next_key_time. rewrite M. destruct (NX _ LE2) as (l3 & ->). rewrite SJ1, A2, S2.
  rewrite gop_S, Z.ltb_irrefl. cbn [andb option_map]. rewrite S0'. reflexivity.
Qed.
Lemma no_table : forall n k duration start end_ rows, t_keys (k_track k) = None -> gop_list n k duration start end_ = Some rows -> exists r, rows = [r] /\ (until duration end_ <= r_time r \/ 2 ^ 64 - 1 <= r_time r).
Proof.
  intros n k duration start end_ rows M H. unfold gop_list in H. fold (until duration end_) in H. destruct (key_at k start) as [(s, lim)|]; [|discriminate]. destruct (option_map (to_hns (k_ts k)) (composition_time (k_track k) s)) as [t|]; [|discriminate]. destruct (decoding_time_hns (k_ts k) (k_track k) s) as [d|]; [|discriminate].
  destruct n as [|n]; [discriminate|]. rewrite gop_S in H. destruct (Z.ltb_spec t U64MAX); [destruct (Z.ltb_spec t (until duration end_))|]; cbn [andb] in H.
  - cbv zeta in H. unfold next_key_time in H. rewrite M in H. discriminate.
  - injection H as <-. eexists. split; [reflexivity|]. left. exact H1.
  - injection H as <-. eexists. split; [reflexivity|]. right. exact H0.
Qed.
