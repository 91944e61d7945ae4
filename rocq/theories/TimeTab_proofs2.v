(** Lemmas about TimeTab_model: accuracy, order, searches, key frames. *)
From Coq Require Import ZifyNat Permutation Sorted.
From Verif Require Import Util RangeMap_model RangeMap_proofs SampleTab_model SampleTab_proofs TimeTab_model TimeTab_proofs.
Local Open Scope Z_scope.

(** ** Accuracy of the decoding times *)
Lemma floor_conversion : forall ts h, 0 < ts -> conversion ts h (floor_scale ts) (floor_unscale ts).
Proof.
  intros ts h H. split; [exact H|]. unfold floor_scale, floor_unscale. split.
  - intros t Ht. pose proof (Z.div_mod (ts * t) 10000000 ltac:(lia)). pose proof (Z.mod_pos_bound (ts * t) 10000000 ltac:(lia)). split; [apply Z.div_pos; [nia|lia]|lia].
  - intros t Ht _. pose proof (Z.div_mod (10000000 * t) ts ltac:(lia)). pose proof (Z.mod_pos_bound (10000000 * t) ts ltac:(lia)). split; [apply Z.div_pos; lia|nia].
Qed.
Definition near (ts prev last : Z) : Prop := 0 <= last <= prev /\ ts * (prev - last) <= 10000000 + ts.
Lemma near_slack : forall ts prev last, 0 < ts -> near ts prev last -> prev - last <= slack ts.
Proof. intros ts prev last H [N1 N2]. unfold slack. pose proof (Z.div_mod 10000000 ts ltac:(lia)). pose proof (Z.mod_pos_bound 10000000 ts H). nia. Qed.
Lemma one_step : forall ts h scale unscale prev last d r, conversion ts h scale unscale -> near ts prev last -> paced ts h prev (d :: r) ->
  let dl := scale (d - last) in let l1 := last + unscale dl in 0 <= dl < 2 ^ 32 /\ last <= l1 <= d /\ ts * (d - l1) <= 10000000 + ts /\ ts * (l1 - last) <= 10000000 * dl <= ts * (l1 - last) + ts.
Proof.
  intros ts h scale unscale prev last d r (C1 & C2 & C3) Hn (P1 & [F1 F2] & _) dl l1. pose proof (near_slack ts prev last C1 Hn) as Hs. destruct Hn as [Hn1 Hn2]. destruct (C2 (d - last) ltac:(lia)) as [S1 S2]. fold dl in S1, S2.
  assert (G : ts * (d - last) <= ts * (d - prev + slack ts)) by (apply Z.mul_le_mono_nonneg_l; lia).
  destruct (C3 dl S1 ltac:(nia)) as [U1 U2]. subst l1. split; [split; [lia|lia]|]. split; [split; [lia|nia]|]. split; nia.
Qed.
Lemma near_next : forall ts h scale unscale prev last d r, conversion ts h scale unscale -> near ts prev last -> paced ts h prev (d :: r) -> near ts d (last + unscale (scale (d - last))).
Proof. intros ts h scale unscale prev last d r C Hn P. destruct (one_step ts h scale unscale prev last d r C Hn P) as (A1 & A2 & A3 & A4). destruct Hn as [Hn _]. split; [lia|exact A3]. Qed.
Lemma near_0 : forall ts, 0 < ts -> near ts 0 0. Proof. intros ts H. split; lia. Qed.
Lemma tame_ok : forall ts h scale unscale ds prev last, conversion ts h scale unscale -> near ts prev last -> paced ts h prev ds -> tame scale unscale last ds.
Proof.
  induction ds as [|d ds IH]; intros prev last C Hn P; [exact I|].
  destruct (one_step ts h scale unscale prev last d ds C Hn P) as (A1 & A2 & A3 & A4). pose proof (near_next ts h scale unscale prev last d ds C Hn P) as Hn'. destruct P as (P1 & P2 & P3). destruct Hn as [Hn1 Hn2]. cbn [tame].
  split; [lia|]. split; [lia|]. split; [exact A1|]. split; [lia|]. apply (IH d); [exact C|exact Hn'|exact P3].
Qed.
Lemma ticks_length : forall scale unscale ds last, length (ticks scale unscale last ds) = length ds.
Proof. induction ds as [|d ds IH]; intros last; [reflexivity|]. cbn [ticks length]. rewrite IH. reflexivity. Qed.
Lemma ticks_err : forall ts h scale unscale ds prev last i, conversion ts h scale unscale -> near ts prev last -> paced ts h prev ds -> (i < length ds)%nat ->
  exists l, last <= l <= nth i ds 0 /\ ts * (nth i ds 0 - l) <= 10000000 + ts
    /\ ts * (l - last) <= 10000000 * zsum (firstn (S i) (ticks scale unscale last ds)) <= ts * (l - last) + ts * (Z.of_nat i + 1).
Proof.
  induction ds as [|d ds IH]; intros prev last i C Hn P Hi; [cbn in Hi; lia|].
  destruct (one_step ts h scale unscale prev last d ds C Hn P) as (A1 & A2 & A3 & A4). pose proof (near_next ts h scale unscale prev last d ds C Hn P) as Hn'. destruct P as (P1 & P2 & P3). cbn [ticks].
  set (dl := scale (d - last)) in *. set (l1 := last + unscale dl) in *. destruct i as [|i].
  - exists l1. cbn [nth firstn]. rewrite zsum_cons. change (zsum []) with 0. split; [lia|]. split; [exact A3|]. lia.
  - cbn [length] in Hi. destruct (IH d l1 i C Hn' P3) as (l & L1 & L2 & L3); [lia|].
    exists l. change (firstn (S (S i)) (dl :: ticks scale unscale l1 ds)) with (dl :: firstn (S i) (ticks scale unscale l1 ds)). rewrite zsum_cons. cbn [nth]. split; [lia|]. split; [exact L2|]. lia.
Qed.
Lemma ticks_pos : forall ts h scale unscale ds prev last, conversion ts h scale unscale -> near ts prev last -> paced ts h prev ds -> Forall (fun x => 0 <= x < 2 ^ 32) (ticks scale unscale last ds).
Proof.
  induction ds as [|d ds IH]; intros prev last C Hn P; [constructor|].
  destruct (one_step ts h scale unscale prev last d ds C Hn P) as (A1 & A2 & A3 & A4). cbn [ticks]. constructor; [exact A1|].
  apply (IH d); [exact C|exact (near_next ts h scale unscale prev last d ds C Hn P)|apply P].
Qed.
Lemma zsum_bound : forall l, Forall (fun x => 0 <= x < 2 ^ 32) l -> 0 <= zsum l <= Z.of_nat (length l) * 2 ^ 32.
Proof. induction 1; [cbn; lia|]. rewrite zsum_cons. cbn [length]. lia. Qed.
Lemma expand_forall : forall (P : Z -> Prop) rs, Forall P (expand rs) -> Forall (fun r => 0 < fst r)%nat rs -> Forall (fun r => P (snd r)) rs.
Proof.
  induction rs as [|[n c] rs IH]; intros F1 F2; [constructor|]. rewrite expand_cons in F1. apply Forall_app in F1. destruct F1 as [A B]. pose proof (Forall_inv F2) as f. cbn [fst] in f. destruct n; [lia|].
  constructor; [exact (Forall_inv A)|apply IH; [exact B|exact (Forall_inv_tail F2)]].
Qed.
(** the decoding times as read, with the running time of the writer *)
Lemma read_decoding : forall ts h scale unscale b ds, conversion ts h scale unscale -> (2 <= length ds)%nat -> Z.of_nat (length ds) < 2 ^ 31 -> paced ts h 0 ds ->
  exists times tb, parse_stts (skipn 2 (write_stts scale unscale b ds)) = Some (times, tb, []) /\ length times = length ds /\ fst (nth 0 times (0, 0)) = 0
    /\ (forall i, (S i < length ds)%nat -> fst (nth (S i) times (0, 0)) = fst (nth i times (0, 0)) + snd (nth i times (0, 0)) /\ 0 <= snd (nth i times (0, 0)))
    /\ (forall i, (0 < i < length ds)%nat -> fst (nth i times (0, 0)) = zsum (firstn i (ticks scale unscale (unscale (scale (nth 0 ds 0))) (skipn 1 ds))))
    /\ snd (nth (length ds - 1) times (0, 0)) = snd (nth (length ds - 2) times (0, 0)).
Proof.
  intros ts h scale unscale b [|d0 [|d1 ds]] C L2 B F; cbn [length] in L2; try lia. cbn [length] in B. assert (N0 : near ts 0 0) by (apply near_0; apply C).
  pose proof (tame_ok ts h scale unscale (d0 :: d1 :: ds) 0 0 C N0 F) as T.
  destruct (write_stts_spec scale unscale b d0 d1 ds ltac:(lia) T) as (rs & E1 & E2 & E3).
  destruct (one_step ts h scale unscale 0 0 d0 (d1 :: ds) C N0 F) as (A1 & A2 & A3 & A4). pose proof (near_next ts h scale unscale 0 0 d0 (d1 :: ds) C N0 F) as Nn. rewrite Z.sub_0_r, Z.add_0_l in *.
  set (l0 := unscale (scale d0)) in *.
  assert (P : Forall (fun x => 0 <= x < 2 ^ 32) (ticks scale unscale l0 (d1 :: ds))).
  { apply (ticks_pos ts h scale unscale (d1 :: ds) d0); [exact C|exact Nn|apply F]. }
  assert (Ld : length (ticks scale unscale l0 (d1 :: ds)) = S (length ds)) by (rewrite ticks_length; reflexivity).
  remember (ticks scale unscale l0 (d1 :: ds)) as tk eqn:Htk.
  assert (P2 : Forall (fun x => 0 <= x < 2 ^ 32) (expand rs)).
  { rewrite E2. apply Forall_app. split; [exact P|]. constructor; [|constructor]. rewrite Forall_forall in P. apply P. destruct tk as [|x tk]; [discriminate|]. rewrite (app_removelast_last (l := x :: tk) 0) at 2 by discriminate. apply in_or_app. right. left. reflexivity. }
  assert (Lx : length (expand rs) = S (S (length ds))) by (rewrite E2, app_length, Ld; cbn [length]; lia).
  pose proof (zsum_bound _ P2) as Bz. rewrite Lx in Bz.
  rewrite E1. unfold fullbox. cbn [skipn]. exists (times_of 0 (expand rs)), (tabd 0 0 rs).
  pose proof (parse_stts_spec rs []) as PS. rewrite app_nil_r in PS. rewrite PS; [|eapply Forall_impl; [|exact (expand_forall _ rs P2 E3)]; intros a Ha; cbv beta in Ha; lia|lia|lia]. clear PS.
  split; [reflexivity|]. rewrite times_of_length, Lx. cbn [length]. split; [reflexivity|]. split; [rewrite times_of_nth by lia; reflexivity|].
  assert (NN : forall i, (i < length (expand rs))%nat -> 0 <= nth i (expand rs) 0) by (intros i Hi; rewrite Forall_forall in P2; apply P2; apply nth_In; exact Hi).
  split.
  - intros i Hi. rewrite !times_of_nth by lia. cbn [fst snd]. split; [|apply NN; lia]. clear - Hi Lx. assert (Hj : (i < length (expand rs))%nat) by lia. clear Hi Lx. revert Hj. generalize (expand rs). intros l. revert i.
    induction l as [|x l IH]; intros i Hj; [cbn in Hj; lia|]. destruct i as [|i]; [cbn; lia|]. cbn [length] in Hj. change (firstn (S (S i)) (x :: l)) with (x :: firstn (S i) l). change (firstn (S i) (x :: l)) with (x :: firstn i l). rewrite !zsum_cons. cbn [nth]. specialize (IH i ltac:(lia)). lia.
  - split.
    + intros i Hi. rewrite times_of_nth by lia. cbn [fst nth skipn]. fold l0. rewrite <- Htk. rewrite E2, firstn_app. replace (i - length tk)%nat with 0%nat by lia. rewrite firstn_O, app_nil_r. reflexivity.
    + rewrite !times_of_nth by lia. cbn [snd]. rewrite E2. rewrite (app_nth2 tk) by lia. rewrite (app_nth1 tk) by lia. replace (S (S (length ds)) - 1 - length tk)%nat with 0%nat by lia. cbn [nth]. replace (S (S (length ds)) - 2)%nat with (length tk - 1)%nat by lia.
      destruct tk as [|x tk]; [discriminate|]. rewrite (app_removelast_last (l := x :: tk) 0) at 2 3 by discriminate. rewrite app_nth2; rewrite app_length; cbn [length]; [|lia]. match goal with |- context [nth ?k _ _] => replace k with 0%nat by lia end. reflexivity.
Qed.
(** ... within a tick and a unit of 100 ns per sample *)
Lemma decoding_accuracy : forall ts h scale unscale b ds, conversion ts h scale unscale -> (2 <= length ds)%nat -> Z.of_nat (length ds) < 2 ^ 31 -> paced ts h 0 ds ->
  exists times tb, parse_stts (skipn 2 (write_stts scale unscale b ds)) = Some (times, tb, []) /\ length times = length ds /\ fst (nth 0 times (0, 0)) = 0
    /\ (forall i, (S i < length ds)%nat -> fst (nth (S i) times (0, 0)) = fst (nth i times (0, 0)) + snd (nth i times (0, 0)) /\ 0 <= snd (nth i times (0, 0)))
    /\ forall i, (i < length ds)%nat -> - (10000000 + ts) <= 10000000 * fst (nth i times (0, 0)) - ts * (nth i ds 0 - nth 0 ds 0) <= 10000000 + ts + ts * Z.of_nat i.
Proof.
  intros ts h scale unscale b ds C L2 B F. destruct (read_decoding ts h scale unscale b ds C L2 B F) as (times & tb & E1 & E2 & E3 & E4 & E5 & E6).
  exists times, tb. split; [exact E1|]. split; [exact E2|]. split; [exact E3|]. split; [exact E4|]. pose proof C as (C0 & _). intros [|i] Hi.
  - rewrite E3. lia.
  - rewrite (E5 (S i)) by lia. destruct ds as [|d0 ds]; [cbn in Hi; lia|]. cbn [length] in Hi, L2. cbn [nth skipn].
    assert (N0 : near ts 0 0) by (apply near_0; apply C).
    destruct (one_step ts h scale unscale 0 0 d0 ds C N0 F) as (A1 & A2 & A3 & A4). pose proof (near_next ts h scale unscale 0 0 d0 ds C N0 F) as Nn. rewrite Z.sub_0_r, Z.add_0_l in *. set (l0 := unscale (scale d0)) in *.
    destruct (ticks_err ts h scale unscale ds d0 l0 i C Nn) as (l & L1 & L2' & L3); [apply F|lia|].
    nia.
Qed.
(** exact ticks do not drift *)
Lemma ticks_exact : forall k ts h ds prev last i, 0 < k -> last <= prev -> paced ts h prev ds -> (i < length ds)%nat ->
  exists l, l <= nth i ds 0 /\ nth i ds 0 - l < k /\ l - last = k * zsum (firstn (S i) (ticks (fun t => t / k) (fun t => k * t) last ds)).
Proof.
  induction ds as [|d ds IH]; intros prev last i K H1 N Hi; [cbn in Hi; lia|]. destruct N as (N1 & N2 & N3). cbn [ticks].
  pose proof (Z.div_mod (d - last) k ltac:(lia)). pose proof (Z.mod_pos_bound (d - last) k K). set (dl := (d - last) / k) in *. destruct i as [|i].
  - exists (last + k * dl). cbn [nth firstn]. rewrite zsum_cons. change (zsum []) with 0. lia.
  - cbn [length] in Hi. destruct (IH d (last + k * dl) i K) as (l & L1 & L2 & L3); [lia|exact N3|lia|].
    exists l. change (firstn (S (S i)) (dl :: ticks (fun t => t / k) (fun t => k * t) (last + k * dl) ds)) with (dl :: firstn (S i) (ticks (fun t => t / k) (fun t => k * t) (last + k * dl) ds)). rewrite zsum_cons. cbn [nth]. lia.
Qed.
Lemma ticks_ext : forall f g f' g' ds last, (forall t, f t = f' t) -> (forall t, g t = g' t) -> ticks f g last ds = ticks f' g' last ds.
Proof. induction ds as [|d ds IH]; intros last E1 E2; [reflexivity|]. cbn [ticks]. rewrite !E1, !E2. f_equal. apply IH; assumption. Qed.
Lemma decoding_no_drift : forall ts h b ds, 0 < ts -> (ts | 10000000) -> (2 <= length ds)%nat -> Z.of_nat (length ds) < 2 ^ 31 -> paced ts h 0 ds ->
  exists times tb, parse_stts (skipn 2 (write_stts (floor_scale ts) (floor_unscale ts) b ds)) = Some (times, tb, []) /\ length times = length ds
    /\ forall i, (i < length ds)%nat -> Z.abs (10000000 * fst (nth i times (0, 0)) - ts * (nth i ds 0 - nth 0 ds 0)) < 10000000.
Proof.
  intros ts h b ds Hts [k Hk] L2 B F. assert (K : 0 < k) by nia. assert (C := floor_conversion ts h Hts).
  destruct (read_decoding ts h _ _ b ds C L2 B F) as (times & tb & E1 & E2 & E3 & E4 & E5 & E6).
  exists times, tb. split; [exact E1|]. split; [exact E2|].
  assert (X1 : forall t, floor_scale ts t = t / k). { intros t. unfold floor_scale. rewrite Hk. rewrite (Z.mul_comm k ts). apply Z.div_mul_cancel_l; lia. }
  assert (X2 : forall t, floor_unscale ts t = k * t). { intros t. unfold floor_unscale. rewrite Hk. replace (k * ts * t) with (k * t * ts) by ring. apply Z.div_mul. lia. }
  intros [|i] Hi; [rewrite E3; lia|]. rewrite (E5 (S i)) by lia. destruct ds as [|d0 ds]; [cbn in Hi; lia|]. cbn [length] in Hi, L2. cbn [nth skipn].
  rewrite (ticks_ext _ _ (fun t => t / k) (fun t => k * t) _ _ X1 X2). rewrite X1, X2. pose proof (Z.div_mod d0 k ltac:(lia)). pose proof (Z.mod_pos_bound d0 k K).
  destruct (ticks_exact k ts h ds d0 (k * (d0 / k)) i K) as (l & L1 & L2' & L3); [lia|apply F|lia|].
  set (D := zsum _) in *. rewrite Hk. nia.
Qed.

(** ** Drift *)
Lemma two_ticks : forall k last i, last = 2 * i - 3 -> zsum (firstn (2 * k) (ticks (floor_scale 6000000) (floor_unscale 6000000) last (map (fun i => 2 * i) (zseq i (2 * k))))) = 3 * Z.of_nat k.
Proof.
  induction k as [|k IH]; intros last i E; [reflexivity|]. replace (2 * S k)%nat with (S (S (2 * k))) by lia. cbn [zseq map ticks firstn].
  replace (2 * i - last) with 3 by lia. change (floor_scale 6000000 3) with 1. change (floor_unscale 6000000 1) with 1.
  replace (2 * (i + 1) - (last + 1)) with 4 by lia. change (floor_scale 6000000 4) with 2. change (floor_unscale 6000000 2) with 3.
  rewrite !zsum_cons. rewrite IH by lia. lia.
Qed.
Lemma zseq_length : forall n a, length (zseq a n) = n. Proof. induction n as [|n IH]; intros a; [reflexivity|]. cbn [zseq length]. rewrite IH. reflexivity. Qed.
Lemma zseq_nth : forall n a i, (i < n)%nat -> nth i (zseq a n) 0 = a + Z.of_nat i.
Proof. induction n as [|n IH]; intros a i H; [lia|]. destruct i as [|i]; [cbn; lia|]. cbn [zseq nth]. rewrite IH by lia. lia. Qed.
Lemma two_paced : forall n a, 0 <= a -> 2 * (a + Z.of_nat n) < 2 ^ 64 -> paced 6000000 (2 ^ 32) (2 * (a - 1)) (map (fun i => 2 * i) (zseq a n)).
Proof.
  induction n as [|n IH]; intros a H B; [exact I|]. cbn [zseq map paced]. split; [lia|]. split; [change (slack 6000000) with 3; unfold fit; lia|]. replace (2 * a) with (2 * (a + 1 - 1)) by lia. apply IH; lia.
Qed.
Lemma drift : forall b k, Z.of_nat k < 2 ^ 29 -> exists times tb, parse_stts (skipn 2 (write_stts (floor_scale 6000000) (floor_unscale 6000000) b (two (2 * k + 2)))) = Some (times, tb, [])
  /\ length times = (2 * k + 2)%nat /\ fst (nth (2 * k + 1) times (0, 0)) = 3 * Z.of_nat k + 1.
Proof.
  intros b k Hk. set (n := (2 * k + 2)%nat). assert (L : length (two n) = n) by (unfold two; rewrite map_length, zseq_length; reflexivity).
  destruct (read_decoding 6000000 (2 ^ 32) _ _ b (two n) (floor_conversion 6000000 (2 ^ 32) ltac:(lia))) as (times & tb & E1 & E2 & E3 & E4 & E5 & E6); [lia|lia| |].
  { unfold two, n. replace (2 * k + 2)%nat with (S (2 * k + 1)) by lia. cbn [zseq map paced]. split; [lia|]. split; [change (slack 6000000) with 3; unfold fit; lia|]. apply (two_paced (2 * k + 1) (0 + 1)); lia. }
  exists times, tb. split; [exact E1|]. split; [lia|]. rewrite E5 by lia. unfold two, n. replace (2 * k + 2)%nat with (S (S (2 * k))) by lia. replace (2 * k + 1)%nat with (S (2 * k)) by lia.
  cbn [zseq map nth skipn ticks firstn]. change (2 * (0 + 1) - floor_unscale 6000000 (floor_scale 6000000 (2 * 0))) with 2. change (floor_scale 6000000 2) with 1. change (floor_unscale 6000000 1) with 1. change (floor_unscale 6000000 (floor_scale 6000000 (2 * 0)) + 1) with 1.
  change (0 + 1 + 1) with 2. rewrite zsum_cons, (two_ticks k 1 2) by lia. lia.
Qed.

(** ** Presentation order *)
Lemma ss_app : forall (a b : list (Z * Z)), StronglySorted leT (a ++ b) <-> StronglySorted leT a /\ StronglySorted leT b /\ forall x y, In x a -> In y b -> leT x y.
Proof.
  induction a as [|x a IH]; intros b; cbn [app].
  - split; [intros H; split; [constructor|split; [exact H|intros ? ? []]]|intros (_ & H & _); exact H].
  - split.
    + intros H. apply StronglySorted_inv in H. destruct H as [H1 H2]. apply IH in H1. destruct H1 as (A & B & D). rewrite Forall_app in H2. destruct H2 as [F1 F2].
      split; [constructor; assumption|]. split; [exact B|]. intros u v [<-|Hu] Hv; [rewrite Forall_forall in F2; apply F2; exact Hv|apply D; assumption].
    + intros (A & B & D). apply StronglySorted_inv in A. destruct A as [A1 A2]. constructor; [apply IH; split; [exact A1|split; [exact B|intros u v Hu Hv; apply D; [right; exact Hu|exact Hv]]]|].
      apply Forall_app. split; [exact A2|]. apply Forall_forall. intros v Hv. apply D; [left; reflexivity|exact Hv].
Qed.
Lemma insert_rev_some : forall r n, (exists x, In x r /\ fst x <= fst n) -> exists a x b, r = a ++ x :: b /\ (forall y, In y a -> fst n < fst y) /\ fst x <= fst n /\ insert_rev r n = Some (a ++ n :: x :: b).
Proof.
  induction r as [|y r IH]; intros n (x & Hx & Hl); [destruct Hx|]. cbn [insert_rev]. destruct (Z.ltb_spec (fst n) (fst y)) as [H|H].
  - destruct Hx as [->|Hx]; [lia|]. destruct (IH n (ex_intro _ x (conj Hx Hl))) as (a & z & b & E1 & E2 & E3 & E4). exists (y :: a), z, b. rewrite E4, E1. split; [reflexivity|]. split; [intros w [<-|Hw]; [exact H|apply E2; exact Hw]|]. split; [exact E3|reflexivity].
  - exists [], y, r. split; [reflexivity|]. split; [intros w []|]. split; [exact H|reflexivity].
Qed.
Lemma insert_rev_none : forall r n, (forall x, In x r -> fst n < fst x) -> insert_rev r n = None.
Proof. induction r as [|y r IH]; intros n H; [reflexivity|]. cbn [insert_rev]. rewrite (proj2 (Z.ltb_lt (fst n) (fst y)) (H y (or_introl eq_refl))). rewrite IH; [reflexivity|]. intros x Hx. apply H. right. exact Hx. Qed.
Lemma add_ordered_some : forall x l n, StronglySorted leT (x :: l) -> fst x <= fst n -> exists l', add_ordered (x :: l) n = Some (x :: l') /\ StronglySorted leT (x :: l') /\ Permutation (n :: x :: l) (x :: l').
Proof.
  intros x l n Ss H. unfold add_ordered. destruct (insert_rev_some (rev (x :: l)) n) as (a & z & b & E1 & E2 & E3 & E4); [exists x; split; [apply in_rev; rewrite rev_involutive; left; reflexivity|exact H]|].
  rewrite E4. assert (El : x :: l = rev b ++ z :: rev a). { rewrite <- (rev_involutive (x :: l)), E1, rev_app_distr. cbn [rev]. rewrite <- app_assoc. reflexivity. }
  assert (Er : rev (a ++ n :: z :: b) = rev b ++ z :: n :: rev a). { rewrite rev_app_distr. cbn [rev]. rewrite <- !app_assoc. reflexivity. }
  rewrite Er. assert (P : Permutation (n :: x :: l) (rev b ++ z :: n :: rev a)). { rewrite El. rewrite (Permutation_middle (rev b) (z :: rev a) n). apply Permutation_app_head. apply perm_swap. }
  assert (Sr : StronglySorted leT (rev b ++ z :: n :: rev a)).
  { rewrite El in Ss. apply ss_app in Ss. destruct Ss as (S1 & S2 & S3). apply StronglySorted_inv in S2. destruct S2 as [S4 S5]. apply ss_app. split; [exact S1|]. split.
    - constructor; [constructor; [exact S4|]|constructor; [exact E3|exact S5]]. apply Forall_forall. intros y Hy. apply in_rev in Hy. specialize (E2 y Hy). unfold leT. lia.
    - intros u v Hu [<-|[<-|Hv]]; [apply S3; [exact Hu|left; reflexivity]| |apply S3; [exact Hu|right; exact Hv]]. pose proof (S3 u z Hu (or_introl eq_refl)) as Q. unfold leT in *. lia. }
  destruct (rev b) as [|x' rb]; injection El as <- El.
  - cbn [app] in *. eexists. split; [reflexivity|]. split; [exact Sr|exact P].
  - cbn [app] in *. eexists. split; [reflexivity|]. split; [exact Sr|exact P].
Qed.
Lemma add_ordered_none : forall x l n, StronglySorted leT (x :: l) -> fst n < fst x -> add_ordered (x :: l) n = None.
Proof.
  intros x l n Ss H. unfold add_ordered. rewrite insert_rev_none; [reflexivity|]. intros y Hy. apply in_rev in Hy. destruct Hy as [<-|Hy]; [exact H|]. apply StronglySorted_inv in Ss. destruct Ss as [_ Ss]. rewrite Forall_forall in Ss. specialize (Ss y Hy). unfold leT in Ss. lia.
Qed.
(** composition time and number of the samples *)
Fixpoint numbered (num : Z) (offs : list Z) (times : list (Z * Z)) : list (Z * Z) :=
  match offs, times with o :: offs, (d, _) :: times => (d + o, num) :: numbered (num + 1) offs times | _, _ => [] end.
Lemma ctts_seq_spec : forall offs num times x l, length offs = length times -> Forall (fun d => 0 <= fst d < 2 ^ 63) times -> Forall (fun o => 0 <= o < 2 ^ 32) offs -> StronglySorted leT (x :: l) ->
  ((forall y, In y (numbered num offs times) -> fst x <= fst y) -> exists l', ctts_seq offs num times (x :: l) = Some (x :: l') /\ StronglySorted leT (x :: l') /\ Permutation (numbered num offs times ++ x :: l) (x :: l'))
  /\ ((exists y, In y (numbered num offs times) /\ fst y < fst x) -> ctts_seq offs num times (x :: l) = None).
Proof.
  induction offs as [|o offs IH]; intros num [|[d e] times] x l L F1 F2 Ss; cbn [length] in L; try discriminate.
  - cbn [numbered ctts_seq app]. split; [intros _; exists l; repeat split; [exact Ss|reflexivity]|intros (y & [] & _)].
  - cbn [numbered ctts_seq]. pose proof (Forall_inv F1) as f1. pose proof (Forall_inv F2) as f2. cbn [fst] in f1. cbv beta in f1, f2. rewrite u64_id by lia. split.
    + intros H. destruct (add_ordered_some x l (d + o, num) Ss (H _ (or_introl eq_refl))) as (l1 & E1 & E2 & E3). rewrite E1.
      destruct (IH (num + 1) times x l1 ltac:(lia) (Forall_inv_tail F1) (Forall_inv_tail F2) E2) as [I1 _]. destruct (I1 (fun y Hy => H y (or_intror Hy))) as (l2 & G1 & G2 & G3).
      exists l2. split; [exact G1|]. split; [exact G2|]. rewrite <- G3, <- E3. cbn [app]. apply (Permutation_middle (numbered (num + 1) offs times) (x :: l) (d + o, num)).
    + intros (y & [<-|Hy] & Hlt).
      * rewrite (add_ordered_none x l _ Ss Hlt). reflexivity.
      * destruct (Z.lt_ge_cases (d + o) (fst x)) as [Q|Q]; [rewrite (add_ordered_none x l (d + o, num) Ss Q); reflexivity|].
        destruct (add_ordered_some x l (d + o, num) Ss Q) as (l1 & E1 & E2 & E3). rewrite E1. destruct (IH (num + 1) times x l1 ltac:(lia) (Forall_inv_tail F1) (Forall_inv_tail F2) E2) as [_ I2]. apply I2. exists y. split; [exact Hy|exact Hlt].
Qed.
Lemma numbered_nth : forall offs num times i, length offs = length times -> (i < length times)%nat -> nth i (numbered num offs times) (0, 0) = (fst (nth i times (0, 0)) + nth i offs 0, num + Z.of_nat i).
Proof.
  induction offs as [|o offs IH]; intros num [|[d e] times] i L H; cbn [length] in *; try lia. destruct i as [|i]; [cbn; f_equal; lia|]. cbn [numbered nth]. rewrite IH by lia. f_equal. lia.
Qed.
Lemma numbered_length : forall offs num times, length offs = length times -> length (numbered num offs times) = length times.
Proof. induction offs as [|o offs IH]; intros num [|[d e] times] L; cbn [length] in *; try lia; [reflexivity|]. cbn [numbered length]. rewrite IH; lia. Qed.
Lemma read_composition : forall scale has off l times, l <> [] -> Z.of_nat (length l) < 2 ^ 31 -> ctts_tame scale off l -> has = true \/ off <> 0 -> length times = length l -> Forall (fun d => 0 <= fst d < 2 ^ 63) times ->
  let comp i := fst (nth i times (0, 0)) + scale (fst (nth i l (0, 0)) - snd (nth i l (0, 0)) + off) in
  ((forall i, (i < length l)%nat -> comp 0%nat <= comp i) -> exists ord, parse_ctts times (skipn 2 (write_ctts scale has off l)) = Some (offsets scale off l, ord, [])
     /\ Permutation (numbered 0 (offsets scale off l) times) ord /\ StronglySorted leT ord)
  /\ ((exists i, (i < length l)%nat /\ comp i < comp 0%nat) -> parse_ctts times (skipn 2 (write_ctts scale has off l)) = None).
Proof.
  intros scale has off l times N B T H Lt Ft comp. destruct (write_ctts_spec scale has off l N B T H) as (rs & E1 & E2). rewrite E1. unfold fullbox. cbn [skipn]. unfold parse_ctts. rewrite Nat2Z.id.
  assert (Lo : length (offsets scale off l) = length times) by (unfold offsets; rewrite map_length; lia).
  pose proof (ctts_read_spec rs 0 times [] []) as R. rewrite app_nil_r in R. rewrite R by (rewrite E2; lia). rewrite E2. clear R.
  assert (Fo : Forall (fun o => 0 <= o < 2 ^ 32) (offsets scale off l)). { unfold offsets. apply Forall_map. eapply Forall_impl; [|exact T]. intros s [_ Q]. exact Q. }
  assert (Hn : forall i, (i < length l)%nat -> nth i (numbered 0 (offsets scale off l) times) (0, 0) = (comp i, Z.of_nat i)).
  { intros i Hi. rewrite numbered_nth by lia. unfold comp, offsets. f_equal. f_equal.
    rewrite (nth_indep _ 0 ((fun s => scale (fst s - snd s + off)) (0, 0))) by (rewrite map_length; exact Hi). apply (map_nth (fun s => scale (fst s - snd s + off))). }
  pose proof (numbered_length (offsets scale off l) 0 times Lo) as Ln.
  remember (offsets scale off l) as os eqn:Hos. destruct os as [|o os]; [destruct l; [congruence|discriminate]|]. destruct times as [|[d e] times]; [discriminate|]. cbn [length] in Lo, Lt.
  cbn [numbered] in Hn, Ln |- *. cbn [ctts_seq add_ordered]. pose proof (Forall_inv Ft) as f1. pose proof (Forall_inv Fo) as f2. cbn [fst] in f1. cbv beta in f1, f2. rewrite u64_id by lia.
  destruct (ctts_seq_spec os (0 + 1) times (d + o, 0) [] ltac:(lia) (Forall_inv_tail Ft) (Forall_inv_tail Fo) ltac:(constructor; constructor)) as [A1 A2].
  assert (H0 : comp 0%nat = d + o). { specialize (Hn 0%nat ltac:(lia)). cbn [nth] in Hn. injection Hn as <-. reflexivity. }
  cbn [length] in Ln. split.
  - intros Hc. destruct A1 as (l' & G1 & G2 & G3).
    + intros y Hy. apply (In_nth _ _ (0, 0)) in Hy. destruct Hy as (i & Hi & <-). specialize (Hn (S i) ltac:(lia)). cbn [nth] in Hn. rewrite Hn. cbn [fst]. rewrite <- H0. apply Hc. lia.
    + exists ((d + o, 0) :: l'). rewrite G1. split; [reflexivity|]. split; [|exact G2]. rewrite <- G3. apply Permutation_cons_append.
  - intros (i & Hi & Hlt). rewrite A2; [reflexivity|]. destruct i as [|i]; [lia|]. pose proof (Hn (S i) Hi) as Q. cbn [nth] in Q. exists (nth i (numbered (0 + 1) os times) (0, 0)). split; [apply nth_In; lia|]. rewrite Q. cbn [fst]. lia.
Qed.
