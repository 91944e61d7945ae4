(** Properties C35, C36, C51: the times and the key frames of a written track, read back. *)
From Coq Require Import Permutation Sorted ZifyNat.
From Verif Require Import Util RangeMap_model SampleTab_model TimeTab_model TimeTab_proofs TimeTab_proofs2 TimeTab_proofs3 TimeTab_proofs4 Double_model Double_proofs.
Local Open Scope Z_scope.

(** * C35 *)
(** The conversions of the writer, in double precision: rounded down, or one less if exact, for
    any time scale and time whose product is small enough (2500 s at 90 kHz). *)
Theorem C35_double_conversion : forall ts h, 0 < ts <= 2 ^ 32 -> h <= 2 ^ 53 -> ts * h <= 2 ^ 51 -> conversion ts h (time_scale ts) (get_hnano ts).
Proof. exact double_conversion. Qed.
Print Assumptions C35_double_conversion.
(** Two or more samples: each decoding time is read, in ticks from the first, with an error of
    one tick, one unit of 100 ns, and one more such unit for every sample before it.  Times are
    below 2^64; only the gaps between them need to be small. *)
Theorem C35_decoding : forall ts h b ds, 0 < ts <= 2 ^ 32 -> h <= 2 ^ 53 -> ts * h <= 2 ^ 51 -> (2 <= length ds)%nat -> Z.of_nat (length ds) < 2 ^ 31 -> paced ts h 0 ds ->
  exists times tb, parse_stts (skipn 2 (write_stts (time_scale ts) (get_hnano ts) b ds)) = Some (times, tb, []) /\ length times = length ds /\ fst (nth 0 times (0, 0)) = 0
    /\ (forall i, (S i < length ds)%nat -> fst (nth (S i) times (0, 0)) = fst (nth i times (0, 0)) + snd (nth i times (0, 0)) /\ 0 <= snd (nth i times (0, 0)))
    /\ forall i, (i < length ds)%nat -> - (10000000 + ts) <= 10000000 * fst (nth i times (0, 0)) - ts * (nth i ds 0 - nth 0 ds 0) <= 10000000 + ts + ts * Z.of_nat i.
Proof. intros ts h b ds H1 H2 H3. apply (decoding_accuracy ts h). apply double_conversion; assumption. Qed.
Print Assumptions C35_decoding.
(** 25 frames per second and 29.97 at 90 kHz *)
Example C35_decoding_nonvacuous : 90000 * 20000000000 <= 2 ^ 51 /\ paced 90000 20000000000 0 [0; 400000; 800000; 1133667; 1467333]
  /\ write_stts (time_scale 90000) (get_hnano 90000) false [0; 400000; 800000; 1133667; 1467333] = [32; box_stts; 0; 2; 2; 3600; 3; 3003].
Proof.
  split; [lia|]. split; [unfold paced, fit; change (slack 90000) with 113; lia|]. vm_compute. reflexivity.
Qed.
(** The error does not grow when a tick is a whole number of units of 100 ns and the
    conversions are exact. *)
Theorem C35_no_drift : forall ts h b ds, 0 < ts -> (ts | 10000000) -> (2 <= length ds)%nat -> Z.of_nat (length ds) < 2 ^ 31 -> paced ts h 0 ds ->
  exists times tb, parse_stts (skipn 2 (write_stts (floor_scale ts) (floor_unscale ts) b ds)) = Some (times, tb, []) /\ length times = length ds
    /\ forall i, (i < length ds)%nat -> Z.abs (10000000 * fst (nth i times (0, 0)) - ts * (nth i ds 0 - nth 0 ds 0)) < 10000000.
Proof. exact decoding_no_drift. Qed.
Print Assumptions C35_no_drift.
Example C35_no_drift_nonvacuous : (1000 | 10000000) /\ paced 1000 (2 ^ 40) 0 [0; 333667; 667333; 1001000] /\ write_stts (floor_scale 1000) (floor_unscale 1000) false [0; 333667; 667333; 1001000] = [32; box_stts; 0; 2; 2; 33; 2; 34].
Proof. split; [exists 10000; reflexivity|]. split; [unfold paced, fit; change (slack 1000) with 10002; lia|]. vm_compute. reflexivity. Qed.
(** Refuted otherwise: the time read back moves away from the time written without limit (here
    sample 2k+1 is at 2(2k+1) units, that is 2.4 k + 1.2 ticks, and is read at 3 k + 1). *)
Theorem C35_drift_refuted : forall b k, Z.of_nat k < 2 ^ 29 -> exists times tb, parse_stts (skipn 2 (write_stts (floor_scale 6000000) (floor_unscale 6000000) b (two (2 * k + 2)))) = Some (times, tb, [])
  /\ length times = (2 * k + 2)%nat /\ nth (2 * k + 1) (two (2 * k + 2)) 0 = 2 * (2 * Z.of_nat k + 1) /\ fst (nth (2 * k + 1) times (0, 0)) = 3 * Z.of_nat k + 1.
Proof.
  intros b k H. destruct (drift b k H) as (times & tb & E1 & E2 & E3). exists times, tb. repeat (split; [assumption|]). split; [|exact E3]. unfold two.
  rewrite (nth_indep _ 0 ((fun i => 2 * i) 0)) by (rewrite map_length, zseq_length; lia). rewrite (map_nth (fun i => 2 * i)), zseq_nth by lia. lia.
Qed.
Print Assumptions C35_drift_refuted.
Example C35_drift_nonvacuous : floor_scale 6000000 (2 * (2 * 1000 + 1)) = 2401 /\ 3 * 1000 + 1 = 3001. Proof. split; reflexivity. Qed.
(** Refuted even where the time is a whole number of ticks: at 1000 ticks a second the time
    1.001 s is written as 1000 ticks, since 1.001 * 1000 is below 1001 in doubles. *)
Theorem C35_exact_refuted : time_scale 1000 10010000 = 1000 /\ exists times tb, parse_stts (skipn 2 (write_stts (time_scale 1000) (get_hnano 1000) false [0; 10010000; 20020000])) = Some (times, tb, []) /\ map fst times = [0; 1000; 2002].
Proof. split; [vm_compute; reflexivity|]. eexists _, _. split; vm_compute; reflexivity. Qed.
Print Assumptions C35_exact_refuted.
(** Composition times: read as decoding time plus offset, each within two ticks of the time
    written (and the error of the decoding time), and in presentation order.  Refuted when a
    sample is presented before the first one: the reader then looks before the beginning of its
    list (None), whatever the offset. *)
Theorem C35_composition : forall ts h b has off l, 0 < ts <= 2 ^ 32 -> h <= 2 ^ 53 -> ts * h <= 2 ^ 51 -> (2 <= length l)%nat -> Z.of_nat (length l) < 2 ^ 31 ->
  paced ts h 0 (map snd l) -> Forall (fun s => fit ts h (fst s - snd s + off)) l -> has = true \/ off <> 0 ->
  let stts := write_stts (time_scale ts) (get_hnano ts) b (map snd l) in let ctts := write_ctts (time_scale ts) has off l in
  exists times tb, parse_stts (skipn 2 stts) = Some (times, tb, []) /\ length times = length l /\
  let comp i := fst (nth i times (0, 0)) + time_scale ts (fst (nth i l (0, 0)) - snd (nth i l (0, 0)) + off) in
  (forall i, (i < length l)%nat -> - (20000000 + ts) <= 10000000 * comp i - ts * (fst (nth i l (0, 0)) + off - snd (nth 0 l (0, 0))) <= 10000000 + ts + ts * Z.of_nat i)
  /\ ((forall i, (i < length l)%nat -> comp 0%nat <= comp i) -> exists t, read_track stts ctts [] = Some t
        /\ t_times t = times /\ (forall i, (i < length l)%nat -> composition_time t (Z.of_nat i) = Some (comp i))
        /\ t_has_ctts t = true /\ Permutation (map (fun i => (comp i, Z.of_nat i)) (seq 0 (length l))) (t_order t) /\ StronglySorted leT (t_order t))
  /\ ((exists i, (i < length l)%nat /\ comp i < comp 0%nat) -> read_track stts ctts [] = None).
Proof. intros ts h b has off l H1 H2 H3 H4 H5 H6 H7 H8. apply (read_track_composition ts h); try assumption. apply double_conversion; assumption. lia. Qed.
Print Assumptions C35_composition.
(** I P B B, 25 frames per second: composition = decoding + offset; and open GOP: B frames
    before the first I frame, the reader fails *)
Example C35_composition_nonvacuous : let l := [(0, 0); (1200000, 400000); (400000, 800000); (800000, 1200000)] in let bad := [(800000, 0); (0, 400000); (400000, 800000)] in
  paced 90000 (2 ^ 33) 0 (map snd l) /\ Forall (fun s => fit 90000 (2 ^ 33) (fst s - snd s + 400000)) l
  /\ option_map (fun t => map (composition_time t) [0; 1; 2; 3]) (read_track (write_stts (time_scale 90000) (get_hnano 90000) false (map snd l)) (write_ctts (time_scale 90000) true 400000 l) []) = Some [Some 3600; Some 14400; Some 7200; Some 10800]
  /\ Forall (fun s => fit 90000 (2 ^ 33) (fst s - snd s + 400000)) bad
  /\ read_track (write_stts (time_scale 90000) (get_hnano 90000) false (map snd bad)) (write_ctts (time_scale 90000) true 400000 bad) [] = None.
Proof.
  cbv zeta. split; [cbn [map snd]; unfold paced, fit; change (slack 90000) with 113; lia|]. split; [repeat (apply Forall_cons; [unfold fit; cbn [fst snd]; lia|]); apply Forall_nil|].
  split; [vm_compute; reflexivity|]. split; [repeat (apply Forall_cons; [unfold fit; cbn [fst snd]; lia|]); apply Forall_nil|]. vm_compute. reflexivity.
Qed.
(** The composition table is left out exactly when all samples are presented when decoded. *)
Theorem C35_composition_left_out : forall scale off l, write_ctts scale (has_composition l) off l = [] <-> off = 0 /\ forall c d, In (c, d) l -> c = d.
Proof. exact no_ctts. Qed.
Print Assumptions C35_composition_left_out.
Example C35_left_out_nonvacuous : write_ctts (time_scale 1000) (has_composition [(0, 0); (5, 5)]) 0 [(0, 0); (5, 5)] = [] /\ write_ctts (time_scale 1000) (has_composition [(0, 0); (50000, 0)]) 0 [(0, 0); (50000, 0)] <> [].
Proof. split; [reflexivity|]. vm_compute. discriminate. Qed.
(** Refuted for a single sample: it is written as two samples of duration 0. *)
Theorem C35_single_refuted : forall scale unscale b d, write_stts scale unscale b [d] = [24; box_stts; 0; 1; 2; 0] /\ exists tb, parse_stts (skipn 2 (write_stts scale unscale b [d])) = Some ([(0, 0); (0, 0)], tb, []).
Proof. intros. rewrite single_stts. split; [reflexivity|]. eexists. vm_compute. reflexivity. Qed.
Print Assumptions C35_single_refuted.
(** and no sample, unless that is allowed, as one. *)
Theorem C35_empty : forall scale unscale, (exists tb, parse_stts (skipn 2 (write_stts scale unscale true [])) = Some ([], tb, [])) /\ exists tb, parse_stts (skipn 2 (write_stts scale unscale false [])) = Some ([(0, 0)], tb, []).
Proof. intros. split; eexists; vm_compute; reflexivity. Qed.
Print Assumptions C35_empty.

(** * C36 *)
(** A sample is reported as a key frame exactly when it was written as one, when there is one at
    all. *)
Theorem C36_key_frames : forall flags, Z.of_nat (length flags) < 2 ^ 31 -> existsb (fun b => b) flags = true -> exists m, parse_stss (skipn 2 (write_stss (iframes 0 flags))) = Some (m, [])
  /\ forall times o hc ord tb i, (i < length flags)%nat -> is_iframe (mkT times o hc ord tb (Some m)) (Z.of_nat i) = Some (nth i flags false).
Proof. exact key_frames_ok. Qed.
Print Assumptions C36_key_frames.
(** Looking for the key frame of a sample finds the last at or before it, and going on finds
    the first after it, or again the last if there is none. *)
Theorem C36_search : forall flags, Z.of_nat (length flags) < 2 ^ 31 -> existsb (fun b => b) flags = true -> exists m, parse_stss (skipn 2 (write_stss (iframes 0 flags))) = Some (m, [])
  /\ forall s f, (f <= s)%nat -> (s < length flags)%nat -> nth f flags false = true ->
     exists k lim k2 lim2, iframe_at m (Z.of_nat s) = Some (Z.of_nat k, lim) /\ (k <= s)%nat /\ nth k flags false = true /\ (forall j, (k < j <= s)%nat -> nth j flags false = false)
       /\ next_iframe m lim = Some (Z.of_nat k2, lim2) /\ nth k2 flags false = true
       /\ ((exists j, (s < j)%nat /\ nth j flags false = true) -> (s < k2)%nat /\ forall j, (s < j < k2)%nat -> nth j flags false = false)
       /\ ((forall j, (s < j)%nat -> nth j flags false = false) -> k2 = k).
Proof. exact key_search. Qed.
Print Assumptions C36_search.
Example C36_nonvacuous : let flags := [false; true; false; false; true; false] in existsb (fun b => b) flags = true /\ write_stss (iframes 0 flags) = [24; box_stss; 0; 2; 2; 5]
  /\ exists m, parse_stss (skipn 2 (write_stss (iframes 0 flags))) = Some (m, []) /\ iframe_at m 3 = Some (1, 3) /\ next_iframe m 3 = Some (4, 5) /\ next_iframe m 5 = Some (4, 5).
Proof. split; [reflexivity|]. split; [reflexivity|]. eexists. repeat split; vm_compute; reflexivity. Qed.
(** Refuted without key frames: no table is written, and every sample is reported as one. *)
Theorem C36_none_refuted : forall n times o hc ord tb s, write_stss (iframes 0 (repeat false n)) = [] /\ is_iframe (mkT times o hc ord tb None) s = Some true.
Proof. intros. split; [apply no_keys|reflexivity]. Qed.
Print Assumptions C36_none_refuted.

(** * C51 *)
(** For any table of decoding times with positive counts and durations, a time within the track
    leads to the sample being decoded then.  Refuted after the end: a sample which does not
    exist is named. *)
Theorem C51_by_decoding_time : forall rs rest o hc ord k, Forall (fun r => 0 < fst r)%nat rs -> Forall (fun r => 0 < snd r < 2 ^ 32) rs -> rs <> [] -> Z.of_nat (length (expand rs)) < 2 ^ 31 ->
  exists times tb, parse_stts (0 :: Z.of_nat (length rs) :: enc2 rs ++ rest) = Some (times, tb, rest) /\ times = times_of 0 (expand rs)
  /\ forall time, 0 <= time < 2 ^ 63 -> (time < zsum (expand rs) -> exists i, decoding_sample (mkT times o hc ord tb k) time = Some (Z.of_nat i) /\ (i < length times)%nat /\ fst (nth i times (0, 0)) <= time < fst (nth i times (0, 0)) + snd (nth i times (0, 0)))
    /\ (zsum (expand rs) <= time -> exists s, decoding_sample (mkT times o hc ord tb k) time = Some s /\ Z.of_nat (length times) <= s).
Proof. exact any_stts. Qed.
Print Assumptions C51_by_decoding_time.
(** Seeking the time reported for a sample, in units of 100 ns: the sample itself if its time is
    a whole number of units; refuted otherwise, the sample before is found. *)
Theorem C51_reported_time_refuted : forall rs ts rest o hc ord k, Forall (fun r => 0 < fst r)%nat rs -> Forall (fun r => 0 < snd r < 2 ^ 32) rs -> rs <> [] -> Z.of_nat (length (expand rs)) < 2 ^ 31 -> 0 < ts <= 10000000 -> 10000000 * zsum (expand rs) < 2 ^ 63 ->
  exists times tb, parse_stts (0 :: Z.of_nat (length rs) :: enc2 rs ++ rest) = Some (times, tb, rest) /\ forall i, (i < length times)%nat ->
    exists time, decoding_time_hns ts (mkT times o hc ord tb k) (Z.of_nat i) = Some time
      /\ decoding_sample_hns ts (mkT times o hc ord tb k) time = Some (if (10000000 * fst (nth i times (0, 0))) mod ts =? 0 then Z.of_nat i else Z.of_nat i - 1).
Proof. exact seek_reported. Qed.
Print Assumptions C51_reported_time_refuted.
(** 29.97 frames per second at 90 kHz: frame 1 is at 333666.67 units *)
Example C51_nonvacuous : let rs := [(300%nat, 3003); (2%nat, 3600)] in Forall (fun r => 0 < fst r)%nat rs /\ Forall (fun r => 0 < snd r < 2 ^ 32) rs /\ 10000000 * zsum (expand rs) < 2 ^ 63
  /\ exists times tb, parse_stts (0 :: 2 :: enc2 rs) = Some (times, tb, []) /\ decoding_time_hns 90000 (mkT times [] false [] tb None) 1 = Some 333666 /\ decoding_sample_hns 90000 (mkT times [] false [] tb None) 333666 = Some 0
     /\ decoding_sample (mkT times [] false [] tb None) (3003 * 300 + 3600 * 2) = Some 302.
Proof.
  cbv zeta. split; [repeat (apply Forall_cons; [cbn [fst]; lia|]); apply Forall_nil|]. split; [repeat (apply Forall_cons; [cbn [snd]; lia|]); apply Forall_nil|]. split; [vm_compute; reflexivity|].
  eexists _, _. split; [vm_compute; reflexivity|]. repeat split; vm_compute; reflexivity.
Qed.
(** By composition time, with a composition table whose first sample is presented first: a time
    between the first and the last presentation leads to the sample presented then (the latest
    at or before it).  Refuted after the last: sample 0 is found. *)
Theorem C51_by_composition_time : forall t comps time, t_has_ctts t = true -> StronglySorted leT (t_order t) -> Permutation comps (t_order t) -> (forall x, In x comps -> snd x = 0 -> forall y, In y comps -> fst x <= fst y) -> (exists x, In x comps /\ snd x = 0 /\ fst x <= time) ->
  ((exists x, In x comps /\ time <= fst x) -> exists x, composition_sample t time = Some (snd x) /\ In x comps /\ fst x <= time /\ forall y, In y comps -> fst y <= time -> fst y <= fst x)
  /\ ((forall x, In x comps -> fst x < time) -> composition_sample t time = Some 0).
Proof. exact composition_lookup. Qed.
Print Assumptions C51_by_composition_time.
Example C51_composition_nonvacuous : let l := [(0, 0); (1200000, 400000); (400000, 800000); (800000, 1200000)] in exists t, read_track (write_stts (time_scale 90000) (get_hnano 90000) false (map snd l)) (write_ctts (time_scale 90000) true 400000 l) [] = Some t
  /\ t_has_ctts t = true /\ t_order t = [(3600, 0); (7200, 2); (10800, 3); (14400, 1)] /\ composition_sample t 8000 = Some 2 /\ composition_sample t 14400 = Some 1 /\ composition_sample t 14401 = Some 0.
Proof. cbv zeta. eexists. split; [vm_compute; reflexivity|]. repeat split; vm_compute; reflexivity. Qed.
(** Without a composition table, in units of 100 ns: the sample found is the one being presented
    if it is the first or just begins, but otherwise the one after it (or the last). *)
Theorem C51_by_presentation_refuted : forall rs ts rest ord k, Forall (fun r => 0 < fst r)%nat rs -> Forall (fun r => 0 < snd r < 2 ^ 32) rs -> rs <> [] -> Z.of_nat (length (expand rs)) < 2 ^ 31 ->
  exists times tb, parse_stts (0 :: Z.of_nat (length rs) :: enc2 rs ++ rest) = Some (times, tb, rest)
  /\ forall time, 0 <= of_hns ts time < zsum (expand rs) -> exists i, (i < length times)%nat /\ fst (nth i times (0, 0)) <= of_hns ts time < fst (nth i times (0, 0)) + snd (nth i times (0, 0))
     /\ composition_sample_hns ts (mkT times [] false ord tb k) time = Some (if (i =? 0)%nat then 0 else if fst (nth i times (0, 0)) =? of_hns ts time then Z.of_nat i else Z.min (Z.of_nat i + 1) (Z.of_nat (length times) - 1)).
Proof. exact composition_search. Qed.
Print Assumptions C51_by_presentation_refuted.
(** 25 frames per second: 39 ms is in frame 0 and leads to it, 41 ms in frame 1 and leads to 2 *)
Example C51_presentation_nonvacuous : exists times tb, parse_stts (0 :: 1 :: enc2 [(10%nat, 40)]) = Some (times, tb, []) /\ composition_sample_hns 1000 (mkT times [] false [] tb None) 390000 = Some 0
  /\ composition_sample_hns 1000 (mkT times [] false [] tb None) 410000 = Some 2 /\ composition_sample_hns 1000 (mkT times [] false [] tb None) 400000 = Some 1.
Proof. eexists _, _. split; [vm_compute; reflexivity|]. repeat split; vm_compute; reflexivity. Qed.
