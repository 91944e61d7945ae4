(** C71, C72, C73: time codes, linear time code and the time code stream. *)
From Verif Require Import Util SampleTab_model RangeMap_model TimeTab_model TimeCode_model TimeCode_proofs TimeCode_proofs2 TimeCode_proofs3.
Local Open Scope Z_scope.

(** * C71 *)
(** The vocabulary is sound: clocks and frame counts within a day correspond one to one. *)
Theorem C71_counting : forall n, 0 < n -> (forall c, proper n c -> 0 <= count n c < day n /\ at_count n (count n c) = c) /\ forall k, proper n (at_count n k) /\ count n (at_count n k) = k mod day n.
Proof. intros n H. split; [intros c P; split; [apply count_bound|apply at_count_id]; assumption|]. intros k. apply at_count_proper. exact H. Qed.
Print Assumptions C71_counting.
Example C71_counting_nonvacuous : at_count 25 (-1) = mkClock 23 59 59 24 /\ at_count 30 (30 * 86400 + 31) = mkClock 0 0 1 1. Proof. split; reflexivity. Qed.
(** A time code is turned into its packed decimal digits and back. *)
Theorem C71_packed : forall n c, small c -> tc_pack (tc_is n c) = bcd c /\ tc_unpack (bcd c) = tc_is 25 c.
Proof. intros n c H. split; [apply pack_is|apply unpack_bcd]; exact H. Qed.
Print Assumptions C71_packed.
Example C71_packed_nonvacuous : small (mkClock 23 59 58 24) /\ bcd (mkClock 23 59 58 24) = 0x23595824. Proof. split; [unfold small; cbn [ck_h ck_m ck_s ck_f]; lia|reflexivity]. Qed.
(** A packed word is read and written back exactly when the digits of the units are decimal;
    the digits of the tens may be anything. *)
Theorem C71_words : forall w, 0 <= w < 2 ^ 32 -> (tc_pack (tc_unpack w) = w <-> (w mod 16 <= 9 /\ w / 256 mod 16 <= 9 /\ w / 65536 mod 16 <= 9 /\ w / 16777216 mod 16 <= 9)).
Proof. exact words_back. Qed.
Print Assumptions C71_words.
Example C71_words_nonvacuous : tc_pack (tc_unpack 0xF9E90919) = 0xF9E90919 /\ tc_pack (tc_unpack 0x0000000A) = 0. Proof. split; vm_compute; reflexivity. Qed.
(** The time code of a time in units of 100 ns: the number of whole frames of 40 ms, written as a
    clock whose hours go on after a day. *)
Theorem C71_of_time : forall t, 0 <= t < 10000000 * 2 ^ 32 -> (exists c, tc_of_time t = tc_is 25 c /\ loose 25 c /\ count 25 c = t / 400000) /\ (t < 864000000000 -> tc_of_time t = tc_is 25 (at_count 25 (t / 400000))).
Proof. intros t H. split; [apply of_time_ok; exact H|]. intros L. apply of_time_day. split; [apply H|exact L]. Qed.
Print Assumptions C71_of_time.
Example C71_of_time_nonvacuous : tc_of_time 36610400000 = tc_is 25 (mkClock 1 1 1 1). Proof. reflexivity. Qed.
(** Refuted outside of it: 2^32 seconds give second 0 and not 16, and one frame before 0 gives
    107374181 frames. *)
Theorem C71_of_time_refuted : seconds (tc_of_time (10000000 * 2 ^ 32)) = 0 /\ 2 ^ 32 mod 60 = 16 /\ tc_of_time (-400000) = tc_is 25 (mkClock 0 0 0 107374181).
Proof. repeat split; vm_compute; reflexivity. Qed.
Print Assumptions C71_of_time_refuted.
(** Sum: frames are counted across midnight, at any number of frames per second (of the left
    hand side). *)
Theorem C71_sum : forall n k a b, 0 < n < 2 ^ 31 -> proper n a -> loose n b -> tc_add (tc_is n a) (tc_is k b) = tc_is 25 (at_count n (count n a + count n b)).
Proof. exact add_ok. Qed.
Print Assumptions C71_sum.
Example C71_sum_nonvacuous : tc_add (tc_is 25 (mkClock 23 59 59 24)) (tc_is 25 (mkClock 1 0 0 2)) = tc_is 25 (mkClock 1 0 0 1). Proof. reflexivity. Qed.
(** but the sum does not keep that number: at 30 frames per second it may not be valid. *)
Theorem C71_rate_refuted : exists a b, proper 30 a /\ proper 30 b /\ tc_valid (tc_is 30 a) = true /\ tc_valid (tc_is 30 b) = true /\ tc_valid (tc_add (tc_is 30 a) (tc_is 30 b)) = false.
Proof. exists (mkClock 0 0 0 28), (mkClock 0 0 0 1). split; [unfold proper; cbn [ck_h ck_m ck_s ck_f]; lia|]. split; [unfold proper; cbn [ck_h ck_m ck_s ck_f]; lia|]. repeat split; reflexivity. Qed.
Print Assumptions C71_rate_refuted.
(** The next frame, and a time added. *)
Theorem C71_next : forall n c, 1 < n <= 100 -> proper n c -> tc_next (tc_is n c) = tc_is n (at_count n (count n c + 1)).
Proof. exact next_ok. Qed.
Print Assumptions C71_next.
Theorem C71_later : forall c t, proper 25 c -> 0 <= t < 10000000 * 2 ^ 32 -> tc_sum_hnano (tc_is 25 c) t = tc_is 25 (at_count 25 (count 25 c + t / 400000)).
Proof. exact sum_ok. Qed.
Print Assumptions C71_later.
Example C71_next_nonvacuous : tc_next (tc_is 30 (mkClock 23 59 59 29)) = tc_is 30 (mkClock 0 0 0 0) /\ tc_next (tc_is 25 (mkClock 9 59 59 24)) = tc_is 25 (mkClock 10 0 0 0) /\ tc_sum_hnano (tc_is 25 (mkClock 23 59 59 24)) 399999 = tc_is 25 (mkClock 23 59 59 24)
  /\ tc_sum_hnano (tc_is 25 (mkClock 23 59 59 24)) 400000 = tc_is 25 (mkClock 0 0 0 0).
Proof. repeat split; vm_compute; reflexivity. Qed.
(** Difference, with a long of 64 bits: right when no part needs to borrow. *)
Theorem C71_difference : forall n k a b, 0 < n -> proper n a -> proper n b -> covers a b -> n < 2 ^ 31 -> tc_sub 64 (tc_is n a) (tc_is k b) = tc_is 25 (at_count n (count n a - count n b)).
Proof. exact sub_covered. Qed.
Print Assumptions C71_difference.
(** Refuted otherwise: whenever a part needs to borrow the result is not a time code. *)
Theorem C71_borrow_refuted : forall a b, proper 25 a -> proper 25 b -> ~ covers a b -> tc_valid (tc_sub 64 (tc_is 25 a) (tc_is 25 b)) = false.
Proof. exact sub_uncovered. Qed.
Print Assumptions C71_borrow_refuted.
Example C71_borrow_nonvacuous : ~ covers (mkClock 1 0 0 0) (mkClock 0 0 0 1) /\ frames (tc_sub 64 (tc_is 25 (mkClock 1 0 0 0)) (tc_is 25 (mkClock 0 0 0 1))) = 4294967295 /\ covers (mkClock 1 2 3 4) (mkClock 1 1 3 2).
Proof. split; [unfold covers; cbn [ck_h ck_m ck_s ck_f]; lia|]. split; [reflexivity|]. unfold covers; cbn [ck_h ck_m ck_s ck_f]; lia. Qed.
(** With a long of 32 bits: right for an earlier time code, unless exactly a minute or an hour is
    borrowed. *)
Theorem C71_difference_long32 : forall a b, proper 25 a -> proper 25 b -> count 25 b <= count 25 a -> ~ exact_minute a b -> tc_sub 32 (tc_is 25 a) (tc_is 25 b) = tc_is 25 (at_count 25 (count 25 a - count 25 b)).
Proof. exact sub32. Qed.
Print Assumptions C71_difference_long32.
Example C71_long32_nonvacuous : ~ exact_minute (mkClock 1 0 0 0) (mkClock 0 0 0 1) /\ tc_sub 32 (tc_is 25 (mkClock 1 0 0 0)) (tc_is 25 (mkClock 0 0 0 1)) = tc_is 25 (mkClock 0 59 59 24).
Proof. split; [unfold exact_minute; cbn [ck_h ck_m ck_s ck_f]; lia|reflexivity]. Qed.
(** Refuted then (second 60) and for a later one (not counted across midnight). *)
Theorem C71_long32_refuted : tc_sub 32 (tc_is 25 (mkClock 1 0 0 0)) (tc_is 25 (mkClock 0 0 59 1)) = tc_is 25 (mkClock 0 58 60 24)
  /\ tc_sub 32 (tc_is 25 (mkClock 1 0 0 0)) (tc_is 25 (mkClock 2 0 0 0)) = tc_is 25 (mkClock 0 0 0 0) /\ at_count 25 (count 25 (mkClock 1 0 0 0) - count 25 (mkClock 2 0 0 0)) = mkClock 23 0 0 0.
Proof. repeat split; vm_compute; reflexivity. Qed.
Print Assumptions C71_long32_refuted.

(** * C72 *)
(** Whatever bits were received before, after the 80 bits of a frame the receiver is in sync and
    gives the time code of the frame.  (Up to 39 frames per second; the size of a long does not
    matter.) *)
Theorem C72_received : forall lw before l n, lw = 32 \/ lw = 64 -> proper n (lf_clock l) -> n <= 40 ->
  let r := fold_left (sh_push lw) (before ++ ltc_bits l) sh_init in sh_valid r = true /\ sh_time_code r = tc_is 25 (lf_clock l).
Proof.
  intros lw before l n W P N. cbv zeta. rewrite (init_reg lw W), pushes_reg, val_app; [|exact W|lia]. apply (ltc_received lw _ l n W); [apply val_nonneg; lia|exact P|exact N].
Qed.
Print Assumptions C72_received.
(** In a transmission from the reset on, the receiver is in sync exactly after the last bit of
    each frame: no bits of the user, flags or digits look like the end of a frame. *)
Theorem C72_sync : forall lw fs n k, lw = 32 \/ lw = 64 -> Forall (fun f => proper n (lf_clock f)) fs -> n <= 30 -> (k <= length (sent fs))%nat ->
  (sh_valid (fold_left (sh_push lw) (firstn k (sent fs)) sh_init) = true <-> exists q, (0 < q)%nat /\ k = (80 * q)%nat).
Proof. intros lw fs n k W F N K. apply (sync_only fs n k lw W F N K). Qed.
Print Assumptions C72_sync.
(** a frame with all bits of the user and flags set, twice *)
Definition ex_u : bool * bool * bool * bool := (true, true, true, true).
Definition ex_frame : ltc_frame := mkF (mkClock 19 57 37 29) ex_u ex_u ex_u ex_u ex_u ex_u ex_u ex_u true true true true true true.
Example C72_nonvacuous : proper 30 (lf_clock ex_frame) /\ length (sent [ex_frame; ex_frame]) = 160%nat
  /\ sh_time_code (fold_left (sh_push 64) (true :: true :: ltc_bits ex_frame) sh_init) = tc_is 25 (mkClock 19 57 37 29)
  /\ filter (fun k => sh_valid (fold_left (sh_push 64) (firstn k (sent [ex_frame; ex_frame])) sh_init)) (seq 0 161) = [80%nat; 160%nat].
Proof. split; [unfold proper; cbn [lf_clock ex_frame ck_h ck_m ck_s ck_f]; lia|]. split; [reflexivity|]. split; vm_compute; reflexivity. Qed.
(** Refuted from the middle of a transmission on, or for frames beyond 29: the bits may look like
    the end of a frame. *)
Theorem C72_false_sync_refuted : (exists before k, (0 < k < 80)%nat /\ sh_valid (fold_left (sh_push 64) (before ++ firstn k (ltc_bits ex_frame)) sh_init) = true)
  /\ exists f k, proper 40 (lf_clock f) /\ (0 < k < 80)%nat /\ sh_valid (fold_left (sh_push 64) (firstn k (ltc_bits f)) sh_init) = true.
Proof.
  split.
  - exists [false; false; true; true; true; true; true; true; true; true; true; true; true; true; false]. exists 1%nat. split; [lia|]. vm_compute. reflexivity.
  - exists (mkF (mkClock 0 0 2 30) ex_u ex_u ex_u ex_u ex_u ex_u ex_u ex_u true true true true true true). exists 18%nat. split; [unfold proper; cbn [lf_clock ck_h ck_m ck_s ck_f]; lia|]. split; [lia|]. vm_compute. reflexivity.
Qed.
Print Assumptions C72_false_sync_refuted.

(** * C73 *)
(** Of samples given in order of time, the first is stored and then exactly those which do not go
    on from the one before at 25 frames per second.  Refuted for a first sample in the first
    millisecond with time code 00:00:00:00: it is not stored. *)
Theorem C73_record : forall avg t c l, 0 <= avg -> Forall (fun x => 0 <= fst x /\ fst x + avg < 2 ^ 64 /\ proper 25 (snd x)) ((t, c) :: l) -> later t l ->
  ltc_record avg ltc_new (words ((t, c) :: l)) = words ((if (t <? 10000) && (count 25 c =? 0) then [] else [(t, c)]) ++ breaks avg (t, c) l).
Proof. intros avg t c l A F L. inversion F as [|? ? X F' E]; subst. apply record_first; assumption. Qed.
Print Assumptions C73_record.
Example C73_record_nonvacuous : let l := [(0, mkClock 1 0 0 24); (400000, mkClock 1 0 1 0); (800000, mkClock 5 0 0 0); (1600000, mkClock 5 0 0 1)] in
  later (-1) l /\ ltc_record 400000 ltc_new (words l) = [(0, 0x01000024); (800000, 0x05000000); (1600000, 0x05000001)] /\ ltc_record 400000 ltc_new [(0, 0)] = [].
Proof. cbv zeta. split; [cbn [later fst]; lia|]. split; vm_compute; reflexivity. Qed.
(** An unbroken recording, of any length, takes one sample, from which every time code is read
    back: at any time in frame [k], also after the end. *)
Theorem C73_unbroken : forall n t c lw scale unscale b ts so, proper 25 c -> 0 <= t -> t + Z.of_nat n * 400000 + 800000 < 2 ^ 64 -> 10000 <= t \/ count 25 c <> 0 -> lw = 32 \/ lw = 64 -> 0 < ts ->
  ltc_record 400000 ltc_new (words (play (S n) t c)) = [(t, bcd c)]
  /\ exists tr, read_track (write_stts scale unscale b [t]) [] [] = Some tr
     /\ forall k e, 0 <= k -> 0 <= e -> so <= t -> t - so + e < 400000 -> 400000 * (k + 1) <= 10000000 * 2 ^ 32 -> interpolated lw ts tr so 400000 [Some (bcd c)] (t + 400000 * k + e) = Interpolated (bcd (at_count 25 (count 25 c + k))).
Proof.
  intros n t c lw scale unscale b ts so P T B NZ W TS. split.
  - rewrite record_play by assumption. replace ((t <? 10000) && (count 25 c =? 0)) with false; [reflexivity|]. symmetry. apply andb_false_iff. destruct NZ; [left; apply Z.ltb_ge; assumption|right; apply Z.eqb_neq; assumption].
  - destruct (single_track scale unscale b t) as (tr & E1 & E2 & E3). exists tr. split; [exact E1|]. intros k e K E L F M. rewrite (interp_first lw ts tr so c [] _ W P TS E2); [|lia|lia|apply E3].
    replace ((t + 400000 * k + e - so) / 400000) with k; [reflexivity|]. apply (Z.div_unique _ _ _ (t - so + e)); lia.
Qed.
Print Assumptions C73_unbroken.
(** In general, at 25 frames per second: of the sample the tables give for the time asked for, the
    time code itself within a frame of its time, and otherwise the one as many frames later or (no
    borrow needed) earlier as there are in between. *)
Theorem C73_answer : forall lw ts t so codes time s at_ c, lw = 32 \/ lw = 64 -> proper 25 c -> so <= time -> (if so <? time then composition_sample_hns ts t (time - so) else Some 0) = Some s ->
  option_map (to_hns ts) (composition_time t s) = Some at_ -> nth_error codes (Z.to_nat s) = Some (Some (bcd c)) -> 400000 <= at_ < 2 ^ 63 -> time - so < 2 ^ 63 ->
  (Z.abs (time - so - at_) < 400000 -> interpolated lw ts t so 400000 codes time = Read (bcd c))
  /\ (400000 <= time - so - at_ < 10000000 * 2 ^ 32 -> interpolated lw ts t so 400000 codes time = Interpolated (bcd (at_count 25 (count 25 c + (time - so - at_) / 400000))))
  /\ (400000 <= at_ - (time - so) < 864000000000 -> covers c (at_count 25 ((at_ - (time - so)) / 400000)) -> interpolated lw ts t so 400000 codes time = Interpolated (bcd (at_count 25 (count 25 c - (at_ - (time - so)) / 400000)))).
Proof. exact answer_25. Qed.
Print Assumptions C73_answer.
Example C73_answer_nonvacuous : exists tr, read_track (write_stts (floor_scale 1000) (floor_unscale 1000) false [0; 100000000; 200000000]) [] [] = Some tr
  /\ composition_sample_hns 1000 tr 300000000 = Some 2 /\ option_map (to_hns 1000) (composition_time tr 2) = Some 200000000
  /\ interpolated 64 1000 tr 0 400000 [Some 0x01000000; Some 0x02000000; Some 0x03000000] 300000000 = Interpolated 0x03001000.
Proof. eexists. split; [vm_compute; reflexivity|]. split; [vm_compute; reflexivity|]. split; vm_compute; reflexivity. Qed.
Example C73_unbroken_nonvacuous : words (play 3 400000 (mkClock 23 59 59 23)) = [(400000, 0x23595923); (800000, 0x23595924); (1200000, 0)]. Proof. reflexivity. Qed.
(** Refuted for one which begins with 00:00:00:00 in the first millisecond: nothing is stored,
    and every time code is missing. *)
Theorem C73_midnight_refuted : forall n t lw ts tr so av time, 0 <= t < 10000 -> t + Z.of_nat n * 400000 + 800000 < 2 ^ 64 -> ltc_record 400000 ltc_new (words (play (S n) t (mkClock 0 0 0 0))) = [] /\ interpolated lw ts tr so av [] time = Missing.
Proof.
  intros n t lw ts tr so av time T B. split; [|reflexivity]. rewrite record_play; [|unfold proper; cbn [ck_h ck_m ck_s ck_f]; lia|lia|exact B]. destruct (Z.ltb_spec t 10000); [reflexivity|lia].
Qed.
Print Assumptions C73_midnight_refuted.
(** Refuted after a break: between the second stored sample and the last, away from the stored
    times, the answer does not depend on the time code stored last before the time asked for. *)
Theorem C73_break_refuted : forall lw rs ts rest ord k, Forall (fun r => 0 < fst r)%nat rs -> Forall (fun r => 0 < snd r < 2 ^ 32) rs -> rs <> [] -> Z.of_nat (length (expand rs)) < 2 ^ 31 ->
  exists times tb, parse_stts (0 :: Z.of_nat (length rs) :: enc2 rs ++ rest) = Some (times, tb, rest)
  /\ forall so time, so < time -> 0 <= of_hns ts (time - so) < zsum (expand rs) -> exists i, (i < length times)%nat /\ fst (nth i times (0, 0)) <= of_hns ts (time - so) < fst (nth i times (0, 0)) + snd (nth i times (0, 0))
     /\ (fst (nth i times (0, 0)) < of_hns ts (time - so) -> (0 < i)%nat -> (S i < length times)%nat -> forall av codes codes', length codes = length codes' -> (forall j, j <> i -> nth_error codes j = nth_error codes' j) ->
         interpolated lw ts (mkT times [] false ord tb k) so av codes time = interpolated lw ts (mkT times [] false ord tb k) so av codes' time).
Proof. exact interp_skips. Qed.
Print Assumptions C73_break_refuted.
(** Samples 01:00:00:00 at 0 s, 02:00:00:00 at 10 s, 03:00:00:00 at 20 s: right up to the second
    sample, but at 12 s the answer is 0x91998800 (with a long of 32 bits 02:59:52:00). *)
Example C73_break_nonvacuous : exists tr, read_track (write_stts (floor_scale 1000) (floor_unscale 1000) false [0; 100000000; 200000000]) [] [] = Some tr /\
  let codes := [Some 0x01000000; Some 0x02000000; Some 0x03000000] in interpolated 64 1000 tr 0 400000 codes 50000000 = Interpolated 0x01000500 /\ interpolated 64 1000 tr 0 400000 codes 100000000 = Read 0x02000000
  /\ interpolated 64 1000 tr 0 400000 codes 120000000 = Interpolated 0x91998800 /\ interpolated 32 1000 tr 0 400000 codes 120000000 = Interpolated 0x02595200.
Proof. eexists. split; [vm_compute; reflexivity|]. repeat split; vm_compute; reflexivity. Qed.
(** Refuted at other rates: at 30 frames per second the time passed is counted in frames of 40 ms,
    so frame 29 is read as frame 24; and a stream whose average frame time is 0 or more than a
    second stops the program with a division by 0. *)
Theorem C73_rate_refuted : exists tr, read_track (write_stts (floor_scale 1000) (floor_unscale 1000) false [0]) [] [] = Some tr /\ interpolated 64 1000 tr 0 333333 [Some 0x01000000] (29 * 333333) = Interpolated 0x01000024
  /\ interpolated 64 1000 tr 0 333333 [Some 0x01000020] 2400000 = Interpolated 0x01000026
  /\ interpolated 64 1000 tr 0 0 [Some 0x01000000] 400000 = Fault /\ interpolated 64 1000 tr 0 10000001 [Some 0x01000000] 400000 = Fault.
Proof. eexists. split; [vm_compute; reflexivity|]. repeat split; vm_compute; reflexivity. Qed.
Print Assumptions C73_rate_refuted.
