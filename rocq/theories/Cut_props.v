(** C54: cutting fragments out of a movie.  Statements only; see Cut_model for the vocabulary. *)
From Coq Require Import Sorted.
From Verif Require Import Util SampleTab_model SampleTab_proofs TimeTab_model Walk_model Cut_model Cut_proofs.
Local Open Scope Z_scope.

(** A piece of a track without key frame table (audio) holds exactly the samples presented in
    [start, end), in order: whatever other tracks are in the file and however the samples are
    interleaved, also where the cuts are in the middle of a sample or the track has an offset. *)
Theorem C54_audio : forall ks e id k rs start end_ base n, sound ks -> whole ks e -> nth_error ks id = Some k -> timed rs k -> steady k -> offsets_ok k -> 0 <= start -> (total ks < n)%nat ->
  exists b, add_frames n ks e id start end_ base = Some (filter (fun x => (start <=? presented k x) && (presented k x <? end_)) (samples_of k), b).
Proof. exact audio_piece. Qed.
Print Assumptions C54_audio.
(** Pieces cut one after the other, at any times: together every sample of the span once, in
    order, none lost at a cut and none twice. *)
Theorem C54_audio_partition : forall ks e id k rs base n, sound ks -> whole ks e -> nth_error ks id = Some k -> timed rs k -> steady k -> offsets_ok k -> (total ks < n)%nat ->
  forall cuts a, 0 <= a -> StronglySorted Z.le (a :: cuts) -> exists ls, Forall2 (fun s l => exists b, add_frames n ks e id (fst s) (snd s) base = Some (l, b)) (spans (a :: cuts)) ls
    /\ concat ls = filter (fun x => (a <=? presented k x) && (presented k x <? last cuts a)) (samples_of k).
Proof. exact audio_pieces. Qed.
Print Assumptions C54_audio_partition.
(** A movie of a video track with closed groups of pictures and an audio track which starts 50 ms
    later, interleaved *)
Definition ex_track (stts : list (nat * Z)) (offs : list Z) (order : list (Z * Z)) (keys : option (list bool)) : track :=
  match parse_stts (0 :: Z.of_nat (length stts) :: enc2 stts) with
  | Some (times, tb, _) => mkT times offs (match offs with [] => false | _ => true end) order tb
      (match keys with None => None | Some f => match parse_stss (skipn 2 (write_stss (iframes 0 f))) with Some (m, _) => Some m | None => None end end)
  | None => mkT [] [] false [] [] None
  end.
Definition ex_audio : trk := mkTrk (ex_track [(12%nat, 20)] [] [] None) 1000 (map (fun i => (100 + 70 * i, 10)) [0;1;2;3;4;5;6;7;8;9;10;11]) 500000 0 0 false 0.
Definition ex_video : trk := mkTrk (ex_track [(6%nat, 40)] [40; 40; 40; 40; 40; 40] [(40, 0); (80, 1); (120, 2); (160, 3); (200, 4); (240, 5)] (Some [true; false; false; true; false; false])) 1000
   (map (fun i => (110 + 140 * i, 60)) [0;1;2;3;4;5]) 0 1 400000 false 0.
(** The same with an open group: the pictures 4 and 5 are decoded after the key frame 3, and
    presented before it *)
Definition ex_open : trk := mkTrk (ex_track [(6%nat, 40)] [40; 40; 40; 120; 0; 0] [(40, 0); (80, 1); (120, 2); (160, 4); (200, 5); (240, 3)] (Some [true; false; false; true; false; false])) 1000
   (map (fun i => (110 + 140 * i, 60)) [0;1;2;3;4;5]) 0 3 0 false 0.
(** Composition offsets longer than a group of pictures *)
Definition ex_late : trk := mkTrk (ex_track [(6%nat, 40)] [120; 120; 120; 120; 120; 120] [(120, 0); (160, 1); (200, 2); (240, 3); (280, 4); (320, 5)] (Some [true; false; true; false; true; false])) 1000
   (map (fun i => (110 + 140 * i, 60)) [0;1;2;3;4;5]) 0 1 1200000 false 0.
Ltac ex_timed := split; [apply Forall_cons; [cbn [fst]; lia|apply Forall_nil]|]; split; [apply Forall_cons; [cbn [snd]; lia|apply Forall_nil]|]; split; [discriminate|]; split; [vm_compute; reflexivity|];
  split; [vm_compute; reflexivity|]; split; [vm_compute; reflexivity|]; split; [cbn [k_ts ex_audio ex_video ex_open ex_late]; lia|]; split; [vm_compute; reflexivity|]; cbn [k_offset ex_audio ex_video ex_open ex_late]; lia.
Lemma ex_audio_timed : timed [(12%nat, 20)] ex_audio.
Proof. ex_timed. Qed.
Lemma ex_video_timed : timed [(6%nat, 40)] ex_video.
Proof. ex_timed. Qed.
Lemma ex_open_timed : timed [(6%nat, 40)] ex_open.
Proof. ex_timed. Qed.
Lemma ex_late_timed : timed [(6%nat, 40)] ex_late.
Proof. ex_timed. Qed.
Ltac ex_whole := split; [lia|]; intros k [<-|[<-|[]]]; cbn [k_places ex_audio ex_video ex_open ex_late map]; repeat (apply Forall_cons; [cbn [fst snd]; lia|]); apply Forall_nil.
Ltac ex_sound L := intros k [<-|[<-|[]]]; right; [split; [exists [(6%nat, 40)]; exact L|]|split; [exists [(12%nat, 20)]; exact ex_audio_timed|]];
  match goal with |- Forall _ (t_order (k_track ?x)) => let y := eval vm_compute in (t_order (k_track x)) in change (t_order (k_track x)) with y end; repeat (apply Forall_cons; [cbn [snd]; lia|]); apply Forall_nil.
Ltac ex_offsets := unfold offsets_ok; match goal with |- Forall _ (t_offsets (k_track ?x)) => let y := eval vm_compute in (t_offsets (k_track x)) in change (t_offsets (k_track x)) with y end; repeat (apply Forall_cons; [lia|]); apply Forall_nil.
Example C54_audio_nonvacuous : sound [ex_video; ex_audio] /\ whole [ex_video; ex_audio] 2000 /\ timed [(12%nat, 20)] ex_audio /\ steady ex_audio /\ offsets_ok ex_audio /\ (total [ex_video; ex_audio] < 19)%nat
  /\ (exists b, add_frames 19 [ex_video; ex_audio] 2000 1 910000 1500000 U64MAX = Some (map (fun i => nth i (samples_of ex_audio) (mkS 0 0 0 0 0 true)) [3; 4]%nat, b))
  /\ map (presented ex_audio) (samples_of ex_audio) = [500000; 700000; 900000; 1100000; 1300000; 1500000; 1700000; 1900000; 2100000; 2300000; 2500000; 2700000].
Proof.
  split; [ex_sound ex_video_timed|]. split; [ex_whole|]. split; [exact ex_audio_timed|]. split; [split; [reflexivity|split; [reflexivity|left; split; reflexivity]]|]. split; [ex_offsets|]. split; [vm_compute; lia|].
  split; [eexists; vm_compute; reflexivity|vm_compute; reflexivity].
Qed.
(** A piece of a video track from a key frame [K] up to the next cut, before sample [K']: if the
    group is closed at both cuts - what is decoded before the cut is presented before it, and what
    is decoded after it presented after it - and no later key frame is decoded by [start], the
    piece is the samples from [K] to before [K']. *)
Theorem C54_video : forall ks e id k rs flags start end_ base n K K', sound ks -> whole ks e -> nth_error ks id = Some k -> timed rs k -> keyed flags k -> offsets_ok k -> (total ks < n)%nat ->
  (K < K' <= length (k_places k))%nat -> nth K flags false = true -> 0 <= start <= end_ ->
  (forall j x, (K < j)%nat -> nth j flags false = true -> nth_error (samples_of k) j = Some x -> start < s_dec x) ->
  (forall i x, nth_error (samples_of k) i = Some x -> ((i < K)%nat -> presented k x < start) /\ ((K <= i < K')%nat -> start <= presented k x < end_) /\ (i = K' -> end_ <= presented k x)) ->
  exists b, add_frames n ks e id start end_ base = Some (firstn (K' - K) (skipn K (samples_of k)), b).
Proof. exact video_piece. Qed.
Print Assumptions C54_video.
Example C54_video_nonvacuous : sound [ex_video; ex_audio] /\ whole [ex_video; ex_audio] 2000 /\ timed [(6%nat, 40)] ex_video /\ keyed [true; false; false; true; false; false] ex_video /\ offsets_ok ex_video /\ (total [ex_video; ex_audio] < 19)%nat
  /\ (forall j x, (0 < j)%nat -> nth j [true; false; false; true; false; false] false = true -> nth_error (samples_of ex_video) j = Some x -> 400000 < s_dec x)
  /\ (forall i x, nth_error (samples_of ex_video) i = Some x -> ((i < 0)%nat -> presented ex_video x < 400000) /\ ((0 <= i < 3)%nat -> 400000 <= presented ex_video x < 1600000) /\ (i = 3%nat -> 1600000 <= presented ex_video x))
  /\ (exists b, add_frames 19 [ex_video; ex_audio] 2000 0 400000 1600000 U64MAX = Some (firstn 3 (samples_of ex_video), b))
  /\ exists b, add_frames 19 [ex_video; ex_audio] 2000 0 1600000 2800000 U64MAX = Some (skipn 3 (samples_of ex_video), b).
Proof.
  split; [ex_sound ex_video_timed|]. split; [ex_whole|]. split; [exact ex_video_timed|]. split; [split; [reflexivity|eexists; split; [vm_compute; reflexivity|vm_compute; reflexivity]]|]. split; [ex_offsets|]. split; [vm_compute; lia|].
  assert (SV : samples_of ex_video = ltac:(let y := eval vm_compute in (samples_of ex_video) in exact y)) by (vm_compute; reflexivity).
  split; [|split; [|split; eexists; vm_compute; reflexivity]].
  - intros j x J F N. rewrite SV in N. destruct j as [|[|[|[|[|[|j]]]]]]; cbn in F, N; try discriminate; try lia; [injection N as <-; cbn; lia|destruct j; discriminate].
  - intros i x N. rewrite SV in N. unfold presented. destruct i as [|[|[|[|[|[|i]]]]]]; cbn in N; try (destruct i; discriminate); injection N as <-; cbn; lia.
Qed.
(** Refuted: a video cut at its key frames keeps every sample.  With an open group of pictures,
    the samples decoded after the key frame at the cut and presented before it are neither in the
    piece before the cut nor in the piece after it. *)
Theorem C54_open_gop_refuted : forall ks e id k rs flags start end2 base base2 n K i j x y, sound ks -> whole ks e -> nth_error ks id = Some k -> timed rs k -> keyed flags k -> offsets_ok k -> (total ks < n)%nat ->
  (K <= i)%nat -> (i < j)%nat -> nth K flags false = true -> 0 <= start ->
  (forall j x, (K < j)%nat -> nth j flags false = true -> nth_error (samples_of k) j = Some x -> start < s_dec x) ->
  nth_error (samples_of k) i = Some y -> nth_error (samples_of k) j = Some x -> start <= presented k x < presented k y ->
  (exists l b, add_frames n ks e id start (presented k y) base = Some (l, b) /\ ~ In x l) /\ (forall l b, add_frames n ks e id (presented k y) end2 base2 = Some (l, b) -> ~ In x l).
Proof.
  intros ks e id k rs flags start end2 base base2 n K i j x y SO WH NK T KY F Hn KI IJ FK S0 LATE Y X P. split.
  - apply (open_gop ks e id k rs flags start (presented k y) base n K i j x y); auto. lia.
  - intros l b A. apply (before_start ks e id k (presented k y) end2 base2 n x rs l b); auto; [lia|]. apply (nth_error_In _ _ X).
Qed.
Print Assumptions C54_open_gop_refuted.
Example C54_open_gop_nonvacuous : sound [ex_open; ex_audio] /\ whole [ex_open; ex_audio] 2000 /\ timed [(6%nat, 40)] ex_open /\ keyed [true; false; false; true; false; false] ex_open /\ offsets_ok ex_open
  /\ map (presented ex_open) (samples_of ex_open) = [400000; 800000; 1200000; 2400000; 1600000; 2000000]
  /\ (exists b, add_frames 19 [ex_open; ex_audio] 2000 0 400000 2400000 U64MAX = Some (firstn 3 (samples_of ex_open), b))
  /\ exists b, add_frames 19 [ex_open; ex_audio] 2000 0 2400000 2800000 U64MAX = Some (firstn 1 (skipn 3 (samples_of ex_open)), b).
Proof.
  split; [ex_sound ex_open_timed|]. split; [ex_whole|]. split; [exact ex_open_timed|]. split; [split; [reflexivity|eexists; split; [vm_compute; reflexivity|vm_compute; reflexivity]]|]. split; [ex_offsets|].
  split; [vm_compute; reflexivity|]. split; eexists; vm_compute; reflexivity.
Qed.
(** Refuted: a piece which starts when a key frame is presented holds that key frame.  If a later
    key frame is decoded before the first one is presented, reading starts at the later one. *)
Theorem C54_next_gop_refuted : forall ks e id k rs flags end_ base n K J x y, sound ks -> whole ks e -> nth_error ks id = Some k -> timed rs k -> keyed flags k -> offsets_ok k -> (total ks < n)%nat ->
  (S K < J)%nat -> nth J flags false = true -> nth_error (samples_of k) K = Some x -> nth_error (samples_of k) J = Some y -> k_ts k * presented k x < 2 ^ 64 -> s_dec y < presented k x ->
  exists l b, add_frames n ks e id (presented k x) end_ base = Some (l, b) /\ ~ In x l.
Proof. exact next_gop. Qed.
Print Assumptions C54_next_gop_refuted.
Example C54_next_gop_nonvacuous : sound [ex_late; ex_audio] /\ whole [ex_late; ex_audio] 2000 /\ timed [(6%nat, 40)] ex_late /\ keyed [true; false; true; false; true; false] ex_late /\ offsets_ok ex_late
  /\ map (presented ex_late) (samples_of ex_late) = [1200000; 1600000; 2000000; 2400000; 2800000; 3200000] /\ map s_dec (samples_of ex_late) = [0; 400000; 800000; 1200000; 1600000; 2000000]
  /\ exists b, add_frames 19 [ex_late; ex_audio] 2000 0 1200000 2000000 U64MAX = Some ([], b).
Proof.
  split; [ex_sound ex_late_timed|]. split; [ex_whole|]. split; [exact ex_late_timed|]. split; [split; [reflexivity|eexists; split; [vm_compute; reflexivity|vm_compute; reflexivity]]|]. split; [ex_offsets|].
  split; [vm_compute; reflexivity|]. split; [vm_compute; reflexivity|]. eexists. vm_compute. reflexivity.
Qed.
(** The base time is such that the first sample of the piece is presented at the time asked for:
    the base time given, or without one the start of the piece. *)
Theorem C54_base_time : forall n ks e id k start end_ arg x l b, nth_error ks id = Some k -> add_frames n ks e id start end_ arg = Some (x :: l, b) ->
  let t := if arg =? 2 ^ 64 - 1 then start else arg in 0 <= s_comp x - decoded_at k x <= t -> t < 2 ^ 64 - 1 -> b + (s_comp x - decoded_at k x) = t.
Proof. intros n ks e id k start end_ arg x l b NK A t H1 H2. exact (piece_base n ks e id k start end_ arg x l b NK A H1 H2). Qed.
Print Assumptions C54_base_time.
(** Refuted: without a base time given, samples keep their time.  An audio piece whose first
    sample is presented after the start of the piece is early by the difference; the cuts have to
    be where samples start. *)
Theorem C54_shift_refuted : forall n ks e id k start end_ x l b, nth_error ks id = Some k -> add_frames n ks e id start end_ (2 ^ 64 - 1) = Some (x :: l, b) -> decoded_at k x = s_comp x -> 0 <= start < 2 ^ 64 - 1 ->
  b = start /\ (start < presented k x -> b < presented k x).
Proof. intros n ks e id k start end_ x l b NK A H1 H2. pose proof (piece_base n ks e id k start end_ (2 ^ 64 - 1) x l b NK A) as Q. rewrite Z.eqb_refl in Q. cbv zeta in Q. rewrite H1 in Q. specialize (Q ltac:(lia) ltac:(lia)). lia. Qed.
Print Assumptions C54_shift_refuted.
Example C54_base_time_nonvacuous : (exists x l, add_frames 19 [ex_video; ex_audio] 2000 0 1600000 2800000 U64MAX = Some (x :: l, 1600000) /\ decoded_at ex_video x = s_comp x /\ presented ex_video x = 1600000)
  /\ exists x l, add_frames 19 [ex_video; ex_audio] 2000 1 910000 1500000 U64MAX = Some (x :: l, 910000) /\ decoded_at ex_audio x = s_comp x /\ presented ex_audio x = 1100000.
Proof. split; eexists _, _; (split; [vm_compute; reflexivity|split; vm_compute; reflexivity]). Qed.
