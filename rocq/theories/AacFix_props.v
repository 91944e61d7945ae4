(** Property C70: the correction of AAC times. *)
From Coq Require Import ZArith List Lia Bool.
From Verif Require Import AacFix_model AacFix_proofs AacFix_proofs2.
Import ListNotations.
Local Open Scope Z_scope.

(** C70: in doubles, whatever the calls: within a stream the times delivered grow by at least the
    duration of a frame (less 2 units of 100 ns), unless the one before is 2147483647 ... *)
Theorem C70_spaced : forall rates s rate calls, rates s = Some rate -> 0 < rate <= 1000000 ->
  Forall (fun c => 0 <= c_comp c < 2 ^ 52) calls -> Forall (fun c => c_comp c < 2 ^ 52) (mux rates calls) ->
  forall pre a b post, of_stream s (mux rates calls) = pre ++ a :: b :: post -> c_comp a <> 2147483647 ->
  1024 * 10000000 <= rate * (c_comp b - c_comp a + 2).
Proof. intros rates s rate calls H1 H2 H3 H4. exact (proj2 (mux_ok rates s rate calls H1 H2 H3 H4)). Qed.
Print Assumptions C70_spaced.
(** ... every sample is delivered, and none later than the length of 1025 samples behind its time ... *)
Theorem C70_never_behind : forall rates s rate calls, rates s = Some rate -> 0 < rate <= 1000000 ->
  Forall (fun c => 0 <= c_comp c < 2 ^ 52) calls -> Forall (fun c => c_comp c < 2 ^ 52) (mux rates calls) ->
  Forall2 (fun i o => c_stream o = c_stream i /\ rate * (c_comp i - c_comp o - 2) <= 1025 * 10000000) (of_stream s calls) (of_stream s (mux rates calls)).
Proof. intros rates s rate calls H1 H2 H3 H4. exact (proj1 (mux_ok rates s rate calls H1 H2 H3 H4)). Qed.
Print Assumptions C70_never_behind.
(** ... the first sample of a stream keeps its times ... *)
Theorem C70_first : forall rates s rate calls c l, rates s = Some rate -> 0 < rate <= 1000000 -> 0 <= c_comp c < 2 ^ 52 ->
  of_stream s calls = c :: l -> exists l', of_stream s (mux rates calls) = c :: l'.
Proof. exact mux_first. Qed.
Print Assumptions C70_first.
(** ... streams without a corrector are not changed ... *)
Theorem C70_other_streams : forall rates s calls, rates s = None -> Forall (fun c => 0 <= c_comp c <= 2 ^ 53) calls ->
  of_stream s (mux rates calls) = of_stream s calls.
Proof. intros rates s calls H F. apply samples_other; [rewrite H; reflexivity|exact F]. Qed.
Print Assumptions C70_other_streams.
(** ... and a decoding time that was the composition time still is. *)
Theorem C70_decoding : forall rates calls,
  Forall2 (fun i o => c_stream o = c_stream i /\ c_dec o = if c_dec i =? c_comp i then c_comp o else c_dec i) calls (mux rates calls).
Proof. intros rates calls. apply samples_shape. Qed.
Print Assumptions C70_decoding.

(** C70, exact arithmetic: a stream whose frames follow each other exactly keeps its times. *)
Theorem C70_regular : forall rate t0 n, 0 < rate <= 10000000 ->
  (forall i, 0 <= i < Z.of_nat n -> rate * t0 + i * 1024 * 10000000 <> 2147483647 * rate) ->
  exact rate (frames rate t0 0 n) = frames rate t0 0 n.
Proof. intros rate t0 n HR N. apply regular; [exact HR|]. intros i Hi. specialize (N i Hi). lia. Qed.
Print Assumptions C70_regular.
(** C70, exact arithmetic: times that stray by at most [J] from those of the frames are delivered
    at most 4 J and the length of one sample ahead, at most 1025 samples behind. *)
Theorem C70_jitter : forall rate t0 J times, 0 < rate <= 10000000 -> 0 <= J ->
  (forall i t, nth_error times i = Some t -> - J * rate <= rate * t - (rate * t0 + Z.of_nat i * 1024 * 10000000) <= J * rate) ->
  Forall2 (fun t o => rate * (t - o - 1) <= 1025 * 10000000 /\ rate * (o - t - 4 * J) <= 10000000) times (exact rate times).
Proof.
  intros rate t0 J times HR HJ H. pose proof (jitter rate HR t0 J HJ times) as Q. unfold exact. change (start Z (2147483647 * rate) 10240000000 10250000000) with (mkF 10240000000 10250000000 (2147483647 * rate) (2147483647 * rate)).
  assert (F : Forall2 (fun t o => rate * t - 10250000000 <= o <= rate * t + 4 * (J * rate) + 10000000) times (eall rate (mkF 10240000000 10250000000 (2147483647 * rate) (2147483647 * rate)) (map (Z.mul rate) times))).
  { apply Q. intros i t E. specialize (H i t E). lia. }
  fold (eall rate). clear - F HR. induction F as [|t o l l' F1 F IH]; [constructor|]. cbn [map]. constructor; [|exact IH]. pose proof (Z.div_mod o rate ltac:(lia)). pose proof (Z.mod_pos_bound o rate ltac:(lia)). nia.
Qed.
Print Assumptions C70_jitter.

(** C70, refuted: a gap in the audio puts everything after it ahead for good, by as many samples [n]
    as the gap allows (n (n + 1) / 2 sample lengths, about), although the frames after it are exact. *)
Theorem C70_gap_refuted : forall rate s0 t0 n m i o, 0 < rate <= 10000000 -> 2147483647 < s0 ->
  rate * (t0 - s0) > 2 * (1025 * 10000000) ->
  2 * (1025 * 10000000) + 10000000 * Z.of_nat n * (Z.of_nat n + 1) + 2 * Z.of_nat n * rate <= 2 * (rate * (t0 - s0)) ->
  (n <= i)%nat -> nth_error (exact rate (s0 :: frames rate t0 0 m)) (S i) = Some o ->
  Z.of_nat n * 10000000 <= rate * (o - frame rate t0 (Z.of_nat i) + 1).
Proof. intros rate s0 t0 n m i o HR. exact (gap rate HR s0 t0 n m i o). Qed.
Print Assumptions C70_gap_refuted.
(** the same in doubles: after a gap of a minute at 48 kHz, frame 2400 is 49 ms early (more than two frames) *)
Definition gap_calls : list call := map (fun t => mkC 1 t t) (0 :: frames 48000 600000000 0 2401).
Theorem C70_gap_double_refuted : exists c, nth_error (mux (fun _ => Some 48000) gap_calls) 2401 = Some c /\ c_comp c > frame 48000 600000000 2400 + 490000.
Proof. eexists. split; [vm_compute; reflexivity|]. vm_compute. reflexivity. Qed.
Print Assumptions C70_gap_double_refuted.
(** C70, refuted after 2147483647 (used as "no sample yet"): the next sample goes back in time. *)
Theorem C70_back_refuted : mux (fun _ => Some 32000) [mkC 0 2147163647 2147163647; mkC 0 2147483647 2147483647; mkC 0 2147000000 2147000000] =
  [mkC 0 2147163647 2147163647; mkC 0 2147483647 2147483647; mkC 0 2147000000 2147000000].
Proof. vm_compute. reflexivity. Qed.
Print Assumptions C70_back_refuted.

Example C70_nonvacuous :
  mux (fun i => if i =? 1 then Some 48000 else None) [mkC 1 100 100; mkC 2 7 5; mkC 1 213533 213533; mkC 1 426500 426500; mkC 1 426500 426500; mkC 1 1500000 1400000] =
    [mkC 1 100 100; mkC 2 7 5; mkC 1 213433 213433; mkC 1 426766 426766; mkC 1 640100 640100; mkC 1 1500000 1400000] /\
  exact 48000 [100; 213533; 426500; 426500; 1500000] = [100; 213433; 426766; 640100; 1500000] /\
  exact 48000 (frames 48000 5 0 4) = [5; 213338; 426671; 640005].
Proof. split; [vm_compute; reflexivity|]. split; vm_compute; reflexivity. Qed.
