(** Property C33: which segments a dynamic stream is cut into. *)
From Coq Require Import ZifyNat.
From Verif Require Import Util Publish_model Publish_proofs.
Local Open Scope Z_scope.
Local Ltac Zify.zify_post_hook ::= Z.div_mod_to_equations.

(** Key frames in presentation order before the end: the first one starts a segment, and each
    segment ends at the first key frame at least length minus tolerance later. *)
Theorem C33_video : forall len tol stop ks, 0 <= tol <= len ->
  (forall k, In k ks -> fst k < stop /\ 0 <= snd k /\ snd k + len < 2 ^ 64 - 1) -> (forall a x b, ks = a ++ x :: b -> forall y, In y b -> fst x < fst y) ->
  chosen (len - tol) ks (publish_video len tol stop ks).
Proof. exact publish_video_ok. Qed.
Print Assumptions C33_video.
Example C33_video_nonvacuous : let ks := map (fun t => (t + 3, t)) [0; 8; 19; 20; 31; 39; 60; 61] in publish_video 20 2 100 ks = map seg_of [(3, 0); (22, 19); (42, 39); (63, 60)]
  /\ (forall k, In k ks -> fst k < 100 /\ 0 <= snd k /\ snd k + 20 < 2 ^ 64 - 1).
Proof. split; [reflexivity|]. cbn. intros k H. repeat (destruct H as [<-|H]; [cbn; lia|]). destruct H. Qed.
(** Refuted when the tolerance exceeds the length plus the first time (a short length set, the
    default tolerance kept): the whole stream is one segment. *)
Theorem C33_tolerance_refuted : forall len tol stop c t ks, 0 <= len -> 0 <= t -> t + len < tol -> tol < 2 ^ 63 -> c < stop -> (forall k, In k ks -> snd k < 2 ^ 63) ->
  publish_video len tol stop ((c, t) :: ks) = [Seg c t].
Proof.
  intros len tol stop c t ks L T W B S H. unfold publish_video. cbn [publish_keys fst]. replace (c <? stop) with true by lia. cbn [andb publish_composition]. rewrite Z.eqb_refl. cbn [orb app].
  rewrite Z.mod_small by lia. rewrite publish_wrap by (try assumption; lia). reflexivity.
Qed.
Print Assumptions C33_tolerance_refuted.
Example C33_tolerance_nonvacuous : publish_video 100000 260000 (2 ^ 62) (map (fun i => (Z.of_nat i * 400000, Z.of_nat i * 400000)) (seq 0 50)) = [Seg 0 0].
Proof. vm_compute. reflexivity. Qed.

(** Audio: for any number of files of at least two segments each, read from their start, the
    segments published are the groups of n samples of all the files taken together (n = length
    divided by the sample duration): none lost, none twice, the last incomplete group kept
    back; a group that spans two files is published as a join with the times of both parts. *)
Theorem C33_audio : forall len stop n fs, 0 < n -> Forall (track_ok len stop n) fs -> exists es rep, publish_files len stop fs None = Done es rep
  /\ Z.of_nat (length es) = zlen (all_samples fs) / n
  /\ (forall k e, nth_error es k = Some e -> describes fs n (Z.of_nat k * n) e)
  /\ match rep with
     | None => zlen (all_samples fs) mod n = 0
     | Some r => r_samples r = zlen (all_samples fs) mod n /\ nth_error (all_samples fs) (Z.to_nat (zlen (all_samples fs) - r_samples r)) = Some (r_start r, r_computed r)
     end.
Proof.
  intros len stop n fs N F. destruct (files_ok len stop n fs None [] N F eq_refl) as (es & rep & pre & E & L & D & P & (A & EA & LA)). cbn [app] in *. exists es, rep. split; [exact E|]. split; [exact L|]. split; [exact D|].
  assert (Lp : zlen (all_samples fs) = zlen A + zlen pre) by (rewrite EA; apply zlen_app). pose proof (zlen_nonneg pre).
  assert (M : zlen pre < n -> zlen (all_samples fs) mod n = zlen pre) by (intros; rewrite Lp, LA, Z.add_comm, Z.mod_add by lia; apply Z.mod_small; lia).
  destruct rep as [r|]; cbn [pend_ok] in P.
  - destruct P as (P1 & P2 & P3). split; [rewrite M by lia; lia|]. rewrite EA at 1. rewrite (nth_app_right _ _ _ (zlen A) eq_refl) by lia.
    replace (zlen (all_samples fs) - r_samples r - zlen A) with 0 by lia. exact P3.
  - subst pre. rewrite M; [reflexivity|cbn; lia].
Qed.
Print Assumptions C33_audio.
Definition demo_track (n off base : Z) : track := mktrack n 1024 48000 off base.
Lemma demo_ok : forall n base, 8 <= n < 1000 -> track_ok 1000000 (2 ^ 62) 4 (demo_track n 0 base).
Proof.
  intros n base H. unfold track_ok. cbn [demo_track t_count t_delta t_scale t_off]. repeat (split; [first [lia|vm_compute; congruence]|]).
  intros p Hp. unfold comp_of, sample_time. cbn [demo_track t_count t_delta t_scale t_off] in *. lia.
Qed.
Example C33_audio_nonvacuous : publish_files 1000000 (2 ^ 62) [demo_track 11 0 0; demo_track 9 0 2346666; demo_track 10 0 4266666] None
   = Done [Seg 0 0; Seg 853333 853333; Cross 1706666 1706666 0 2346666; Seg 213333 2559999; Seg 1066666 3413332; Seg 0 4266666; Seg 853333 5119999] (Some (mkpending 1706666 5973332 2))
   /\ Forall (track_ok 1000000 (2 ^ 62) 4) [demo_track 11 0 0; demo_track 9 0 2346666; demo_track 10 0 4266666].
Proof.
  split; [reflexivity|]. repeat (apply Forall_cons; [apply demo_ok; lia|]). apply Forall_nil.
Qed.
(** Refuted for a shorter file: after the join its remaining samples, fewer than a segment, are
    published as one, and nothing is kept back for the next file. *)
Theorem C33_audio_short_refuted : forall len stop n f r, 0 < n -> 0 < t_delta f -> 0 < t_scale f -> 0 <= t_off f -> len / sample_dur f = n -> 0 < r_samples r < n ->
  n - r_samples r < t_count f < n - r_samples r + n -> (forall p, 0 <= p < t_count f -> comp_of f p < stop) ->
  publish_audio len f 0 stop (Some r) = Done [Cross (r_start r) (r_computed r) (comp_of f 0) (computed_of f 0); Seg (comp_of f (n - r_samples r)) (computed_of f (n - r_samples r))] None.
Proof.
  intros len stop n f r N D Sc O L R C St. unfold publish_audio. replace (t_off f <? 0) with false by lia. unfold sample_number. rewrite Z.mul_0_l, Z.div_0_l by lia. rewrite Z.div_0_l by lia. cbn [Z.eqb].
  replace (comp_of f 0 <? 0) with false by (symmetry; apply Z.ltb_ge; unfold comp_of, sample_time; rewrite Z.mul_0_l, Z.mul_0_r, Z.div_0_l by lia; lia).
  rewrite L, Z.add_0_l. replace (t_count f <=? n - r_samples r) with false by lia. replace (Z.to_nat (t_count f) + 1)%nat with (S (Z.to_nat (t_count f))) by lia. cbn [segments_from].
  pose proof (St (n - r_samples r) ltac:(lia)). replace (comp_of f (n - r_samples r) <? stop) with true by lia. replace (n - r_samples r <? t_count f) with true by lia. cbn [andb].
  replace (t_count f <=? n - r_samples r + n) with true by lia. reflexivity.
Qed.
Print Assumptions C33_audio_short_refuted.
Example C33_audio_short_nonvacuous : publish_files 1000000 (2 ^ 62) [demo_track 11 0 0; demo_track 3 0 2346666; demo_track 10 0 2986665] None
   = Done [Seg 0 0; Seg 853333 853333; Cross 1706666 1706666 0 2346666; Seg 213333 2559999; Seg 0 2986665; Seg 853333 3839998] (Some (mkpending 1706666 4693331 2)).
Proof. reflexivity. Qed.
(** Refuted with two audio streams: what the first keeps back is joined into the second. *)
Theorem C33_two_audio_refuted : forall len stop n a b, 0 < n -> track_ok len stop n a -> track_ok len stop n b -> t_count a mod n <> 0 ->
  exists es rest rep, publish_files len stop [a; b] None = Done (es ++ Cross (comp_of a (t_count a - t_count a mod n)) (computed_of a (t_count a - t_count a mod n)) (comp_of b 0) (computed_of b 0) :: rest) rep
  /\ publish_audio len a 0 stop None = Done es (Some (mkpending (comp_of a (t_count a - t_count a mod n)) (computed_of a (t_count a - t_count a mod n)) (t_count a mod n))).
Proof.
  intros len stop n a b N A B M. destruct A as (A1 & A2 & A3 & A4 & A5 & A6 & A7). destruct B as (B1 & B2 & B3 & B4 & B5 & B6 & B7).
  assert (Z0 : forall f, 0 <= t_off f -> 0 < t_scale f -> 0 < t_delta f -> (comp_of f 0 <? 0) = false /\ sample_number f 0 = 0).
  { intros f O S D. split; [apply Z.ltb_ge; unfold comp_of, sample_time; rewrite Z.mul_0_l, Z.mul_0_r, Z.div_0_l by lia; lia|]. unfold sample_number. rewrite Z.mul_0_l, Z.div_0_l by lia. rewrite Z.div_0_l by lia. reflexivity. }
  destruct (Z0 a A3 A2 A1) as (C1 & C2). destruct (Z0 b B3 B2 B1) as (D1 & D2). pose proof (Z.mod_pos_bound (t_count a) n N) as MP.
  assert (EA : publish_audio len a 0 stop None = Done (segs_from a n 0 (Z.to_nat (t_count a / n))) (Some (mkpending (comp_of a (t_count a - t_count a mod n)) (computed_of a (t_count a - t_count a mod n)) (t_count a mod n)))).
  { unfold publish_audio. replace (t_off a <? 0) with false by lia. rewrite C2, C1, A5. rewrite segments_ok by (try assumption; lia). unfold left_over. rewrite Z.sub_0_r. replace (t_count a mod n =? 0) with false by lia. reflexivity. }
  cbn [publish_files]. rewrite EA. unfold publish_audio. replace (t_off b <? 0) with false by lia. rewrite D2, D1, B5. cbn [r_samples r_start r_computed]. rewrite Z.add_0_l.
  replace (t_count b <=? n - t_count a mod n) with false by lia. rewrite segments_ok by (try assumption; lia). cbn [emit]. rewrite app_nil_r. do 3 eexists. split; [reflexivity|reflexivity].
Qed.
Print Assumptions C33_two_audio_refuted.
Example C33_two_audio_nonvacuous : track_ok 1000000 (2 ^ 62) 4 (demo_track 11 0 0) /\ t_count (demo_track 11 0 0) mod 4 <> 0.
Proof.
  split; [apply demo_ok; lia|vm_compute; congruence].
Qed.
(** Refuted: starting one unit of 100 ns after any audio sample, the publisher never ends. *)
Theorem C33_audio_hang_refuted : forall len t stop rep p, 0 < t_delta t -> 0 < t_scale t < 10000000 -> 0 <= t_off t -> 0 < p < t_count t ->
  publish_audio len t (comp_of t p + 1) stop rep = Hang.
Proof.
  intros len t stop rep p D S O P. unfold publish_audio. assert (T : 0 <= sample_time t p) by (unfold sample_time; apply Z.div_pos; nia).
  replace (t_off t <? comp_of t p + 1) with true by (unfold comp_of; lia). replace (comp_of t p + 1 - t_off t) with (sample_time t p + 1) by (unfold comp_of; lia).
  assert (Q : (sample_time t p + 1) * t_scale t / 10000000 = p * t_delta t).
  { unfold sample_time. set (x := p * t_delta t). pose proof (Z.div_mod (10000000 * x) (t_scale t) ltac:(lia)). pose proof (Z.mod_pos_bound (10000000 * x) (t_scale t) ltac:(lia)).
    symmetry. apply Z.div_unique with (r := (10000000 * x / t_scale t + 1) * t_scale t - 10000000 * x); [left; nia|nia]. }
  assert (R : sample_number t (sample_time t p + 1) = p).
  { unfold sample_number. rewrite Q, Z.div_mul by lia. replace (p =? 0) with false by lia. replace (t_count t <=? p) with false by lia. replace (p * t_delta t <? p * t_delta t) with false by lia.
    replace (t_count t <=? p) with false by lia. reflexivity. }
  rewrite R. replace (comp_of t p <? comp_of t p + 1) with true by lia. reflexivity.
Qed.
Print Assumptions C33_audio_hang_refuted.
Example C33_audio_hang_nonvacuous : publish_audio 20000000 (demo_track 1000 0 0) 640001 (2 ^ 62) None = Hang /\ publish_audio 20000000 (demo_track 1000 0 0) 640000 (2 ^ 62) None <> Hang.
Proof. split; [reflexivity|]. vm_compute. congruence. Qed.
(** Refuted: samples of one duration following each other from 0 end at the wrong time when
    their number is odd. *)
Theorem C33_composition_end_refuted : forall d m, 0 < d -> composition_end (map (fun i => (Z.of_nat i * d, d)) (seq 0 m)) = d * (2 * (Z.of_nat m / 2)).
Proof.
  intros d m D. induction m as [|m IH]; [cbn; lia|]. rewrite seq_S, map_app. unfold composition_end in *. rewrite fold_left_app, IH. cbn [map fold_left Nat.add fst snd].
  destruct (Z.ltb_spec (d * (2 * (Z.of_nat m / 2))) (Z.of_nat m * d)).
  - assert (2 * (Z.of_nat m / 2) < Z.of_nat m) by nia. assert (2 * (Z.of_nat (S m) / 2) = Z.of_nat m + 1) as -> by lia. lia.
  - assert (Z.of_nat m <= 2 * (Z.of_nat m / 2)) by nia. assert (2 * (Z.of_nat (S m) / 2) = 2 * (Z.of_nat m / 2)) as -> by lia. reflexivity.
Qed.
Print Assumptions C33_composition_end_refuted.
(** The end of a stream is the end of its last-presented sample when one is presented after 0. *)
Theorem C33_stream_end : forall samples, (forall x, In x samples -> 0 <= fst x) -> (exists x, In x samples /\ 0 < fst x) ->
  exists x, In x samples /\ (forall y, In y samples -> fst y <= fst x) /\ mux_end samples = fst x + snd x.
Proof.
  intros samples P (x0 & I0 & L0). unfold mux_end.
  assert (G : forall l s, exists x, fold_left (fun s x => if fst s <? fst x then x else s) l s = x /\ (x = s \/ In x l) /\ fst s <= fst x /\ forall y : Z * Z, In y l -> fst y <= fst x).
  { induction l as [|a l IH]; intros s; [exists s; repeat split; [left; reflexivity|lia|intros y []]|]. cbn [fold_left]. destruct (IH (if fst s <? fst a then a else s)) as (x & E & H1 & H2 & H3). exists x. split; [exact E|].
    destruct (Z.ltb_spec (fst s) (fst a)); (split; [destruct H1 as [->|H1]; [|right; right; exact H1]|]); try (left; reflexivity); try (right; left; reflexivity); (split; [lia|]); intros y [<-|Hy]; try (apply H3; exact Hy); lia. }
  destruct (G samples (0, 0)) as (x & E & H1 & H2 & H3). rewrite E. exists x. destruct x as (c & d). cbn [fst snd] in *. split; [|split; [exact H3|reflexivity]].
  destruct H1 as [E1|H1]; [|exact H1]. injection E1 as -> ->. pose proof (H3 x0 I0). lia.
Qed.
Print Assumptions C33_stream_end.
Theorem C33_stream_end_refuted : forall d, mux_end [(0, d)] = 0.
Proof. reflexivity. Qed.
Print Assumptions C33_stream_end_refuted.
Example C33_ends_nonvacuous : mux_end [(0, 10); (30, 10); (10, 10); (20, 10)] = 40 /\ composition_end [(0, 10); (10, 10); (20, 10)] = 20.
Proof. split; reflexivity. Qed.
