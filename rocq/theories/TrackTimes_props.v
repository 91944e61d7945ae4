(** C74: the times reported for a stream. *)
From Coq Require Import Permutation Sorted.
From Verif Require Import Util SampleTab_model RangeMap_model TimeTab_model Double_model TrackTimes_model TrackTimes_proofs.
Local Open Scope Z_scope.

(** With a composition table read as in C35 (presentation order a sorted permutation of the
    samples): the start is the least composition time, the end the greatest, and the end with
    duration adds the duration of a sample presented then. *)
Theorem C74_composed : forall t comps, t_has_ctts t = true -> comps <> [] -> length comps = length (t_times t) -> StronglySorted leT (t_order t) -> Permutation (combine comps (zseq 0 (length comps))) (t_order t) -> Forall (fun d => 0 <= snd d) (t_times t) ->
  exists s e j, start_ticks t = Some s /\ least s comps /\ end_ticks t = Some e /\ greatest e comps /\ (j < length comps)%nat /\ nth j comps 0 = e /\ end_duration_ticks t = Some (u64 (e + snd (nth j (t_times t) (0, 0)))).
Proof. exact ctts_span. Qed.
Print Assumptions C74_composed.
(** I P B B at 25 frames per second, as written and read back *)
Example C74_composed_nonvacuous : let l := [(0, 0); (1200000, 400000); (400000, 800000); (800000, 1200000)] in
  exists t, read_track (write_stts (floor_scale 90000) (floor_unscale 90000) false (map snd l)) (write_ctts (floor_scale 90000) true 400000 l) [] = Some t
  /\ t_has_ctts t = true /\ t_order t = [(3600, 0); (7200, 2); (10800, 3); (14400, 1)] /\ combine [3600; 14400; 7200; 10800] (zseq 0 4) = [(3600, 0); (14400, 1); (7200, 2); (10800, 3)] /\ start_time 90000 t = Some 400000 /\ end_time 90000 t = Some 1600000 /\ end_time_plus_duration 90000 t = Some 2000000.
Proof. cbv zeta. eexists. split; [vm_compute; reflexivity|]. repeat split; vm_compute; reflexivity. Qed.
(** Without one, for samples of any durations: the start is 0, the end the time of the last
    sample, and the end with duration the sum of all durations. *)
Theorem C74_plain : forall ds ord tb keys, Forall (fun d => 0 <= d) ds -> ds <> [] -> zsum ds < 2 ^ 64 -> let t := mkT (times_of 0 ds) [] false ord tb keys in
  start_ticks t = Some 0 /\ end_ticks t = Some (zsum (removelast ds)) /\ end_duration_ticks t = Some (zsum ds).
Proof. intros ds ord tb keys F N B. apply plain_span; [repeat split|exact F|exact N|exact B]. Qed.
Print Assumptions C74_plain.
(** The mean sample duration, in units of 100 ns rounded down once; so for samples of the same
    duration it is that duration. *)
Theorem C74_mean : forall ts header ds ord tb keys, Forall (fun d => 0 <= d) ds -> (2 <= length ds)%nat -> 0 < ts -> 10000000 * zsum ds < 2 ^ 64 ->
  mean_duration ts header (mkT (times_of 0 ds) [] false ord tb keys) = Some (10000000 * zsum ds / (ts * Z.of_nat (length ds))).
Proof. intros ts header ds ord tb keys F N T B. apply mean_plain; [repeat split|exact F|exact N|exact T|exact B]. Qed.
Print Assumptions C74_mean.
Theorem C74_constant : forall ts header d n ord tb keys, 0 <= d -> (2 <= n)%nat -> 0 < ts -> 10000000 * (Z.of_nat n * d) < 2 ^ 64 ->
  mean_duration ts header (mkT (times_of 0 (repeat d n)) [] false ord tb keys) = Some (10000000 * d / ts).
Proof. intros ts header d n ord tb keys D N T B. apply (mean_constant ts header _ d n); [repeat split|exact D|exact N|exact T|exact B]. Qed.
Print Assumptions C74_constant.
Example C74_mean_nonvacuous : mean_duration 90000 5 (mkT (times_of 0 (repeat 3003 300)) [] false [] [] None) = Some 333666 /\ mean_duration 1000 5 (mkT (times_of 0 [40; 41; 41]) [] false [] [] None) = Some 406666 /\ start_ticks (mkT (times_of 0 [40; 41; 41]) [] false [] [] None) = Some 0
  /\ end_ticks (mkT (times_of 0 (repeat 3003 300)) [] false [] [] None) = Some (299 * 3003).
Proof. repeat split; vm_compute; reflexivity. Qed.
(** Refuted for long streams: at 90 kHz the times wrap around after 237 days. *)
Theorem C74_wrap_refuted : let t := mkT (times_of 0 (repeat (2 ^ 40) 2)) [] false [] [] None in mean_duration 90000 0 t = Some 19686047121169 /\ 10000000 * 2 ^ 40 / 90000 = 122167958641777.
Proof. split; vm_compute; reflexivity. Qed.
Print Assumptions C74_wrap_refuted.
(** The bit rate: bits per second of the duration cut to whole seconds.  Refuted as the mean rate:
    nearly twice it for a duration just under 2 seconds, and 0 under one second. *)
Theorem C74_bit_rate : forall header total, 10000000 <= header -> 0 <= total -> total * 8 < 2 ^ 64 -> bit_rate header total * (header / 10000000) <= 8 * total < (bit_rate header total + 1) * (header / 10000000).
Proof. exact bit_rate_bounds. Qed.
Print Assumptions C74_bit_rate.
Theorem C74_bit_rate_refuted : (forall header total, 0 <= header < 10000000 -> bit_rate header total = 0) /\ bit_rate 19999999 1000000 = 8000000 /\ 8 * 1000000 * 10000000 / 19999999 = 4000000.
Proof.
  split; [|split; vm_compute; reflexivity]. intros header total H. unfold bit_rate. destruct (Z.eqb_spec header 0); [reflexivity|]. rewrite (Z.div_small header) by lia. reflexivity.
Qed.
Print Assumptions C74_bit_rate_refuted.
Example C74_bit_rate_nonvacuous : bit_rate 100000000 1250000 = 1000000. Proof. reflexivity. Qed.
(** Refuted: of a stream with any sample durations in a movie of [length m] streams,
    get_decoding_end_time gives the sum of the first [length m - 1] durations instead of all but
    the last. *)
Theorem C74_decoding_end_refuted : forall m stream ts header ds ord tb keys, nth_error m stream = Some (mkST ts header (mkT (times_of 0 ds) [] false ord tb keys)) -> (length m <= length ds)%nat -> Forall (fun d => 0 <= d) ds -> 10000000 * zsum ds < 2 ^ 64 ->
  decoding_end_time m stream = Some (10000000 * zsum (firstn (length m - 1) ds) / ts).
Proof. exact decoding_end_is. Qed.
Print Assumptions C74_decoding_end_refuted.
(** and get_decoding_end_time_plus_duration the same for every stream *)
Theorem C74_decoding_end_plus_refuted : forall m a b, decoding_end_plus m a = decoding_end_plus m b.
Proof. reflexivity. Qed.
Print Assumptions C74_decoding_end_plus_refuted.
(** 300 frames of 40 ms and 500 of 24 ms: 40 ms instead of 11.96 s and 48 ms instead of 12 s *)
Example C74_decoding_end_nonvacuous : let m := [mkST 1000 0 (mkT (times_of 0 (repeat 40 300)) [] false [] [] None); mkST 1000 0 (mkT (times_of 0 (repeat 24 500)) [] false [] [] None)] in
  decoding_end_time m 0 = Some 400000 /\ decoding_end_plus m 0 = Some 480000 /\ end_time_plus_duration 1000 (st_track (nth 0 m (mkST 0 0 (mkT [] [] false [] [] None)))) = Some 120000000.
Proof. cbv zeta. repeat split; vm_compute; reflexivity. Qed.
