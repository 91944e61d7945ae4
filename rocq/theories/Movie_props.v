(** Property C61: an mp4 file written is read back. *)
From Verif Require Import Util RangeMap_model SampleTab_model TimeTab_model Double_model Box_model Frag_model Level_model Movie_model Movie_proofs7 MuxQueue_model MuxQueue_proofs.
From Verif Require Bits_spec Bitstream_model Sps_model Esds_model Sps_proofs2 Sps_props Esds_props.
Local Open Scope Z_scope.

(** After any history of samples given to any streams (which fit the fields and tables of the
    file), finishing gives a file, and if it is shorter than 2^32 bytes reading it gives a movie
    with the streams in order.  Every stream shows its setting and the samples written, with one
    and the same clock for all the streams: the shift of a stream is the greatest composition
    offset less the decoding start of the stream [j] that starts first (or of the stream itself,
    when its decoding starts even earlier).  The media data are those of the body, and the movie
    lasts as long as its shortest stream. *)
Theorem C61_read_back : forall use_comp dist inc n h m now ctts gs most, let none := (mkS 0 0 [] false, 0) in
  after use_comp dist inc n h m -> length gs = n -> (0 < n)%nat ->
  (forall k g, nth_error gs k = Some g -> setting_ok g /\ g_ctts g <= most /\ samples_ok g most (map (fun x => (s_comp (fst x), s_dec (fst x), zlen (s_body (fst x)))) (written (nth k (m_streams m) stream0)))) ->
  zlen (m_file m) < 2 ^ 32 ->
  exists file, movie_file now ctts gs m = Some file /\ (zlen file < 2 ^ 32 ->
    exists mv j big, read_movie file = Some mv /\ length (v_streams mv) = n /\ v_ts mv = 1000 /\ v_end mv = zlen file /\ 0 <= v_mdat mv /\ v_mdat mv + 8 + zlen (m_file m) = v_end mv /\ firstn (length (m_file m)) (skipn (Z.to_nat (v_mdat mv + 8)) file) = m_file m
    /\ (forall k, (k < n)%nat -> let len i := lasting (written (nth i (m_streams m) stream0)) in 0 <= len k -> (forall i, (i < n)%nat -> len k <= len i < 2 ^ 64) -> 1000 * (len k + 1) <= 2 ^ 51 -> 10000000 * v_duration mv <= 1000 * len k <= 10000000 * (v_duration mv + 1))
    /\ (j < n)%nat /\ (forall k, (k < n)%nat -> s_comp (fst (hd none (written (nth j (m_streams m) stream0)))) <= s_comp (fst (hd none (written (nth k (m_streams m) stream0)))))
    /\ In big (map g_ctts gs) /\ (forall g, In g gs -> g_ctts g <= big)
    /\ forall k g x, nth_error gs k = Some g -> nth_error (v_streams mv) k = Some x ->
       shows file (v_mdat mv + 8) g (Z.of_nat k + 1) (big - Z.min (s_dec (fst (hd none (written (nth k (m_streams m) stream0))))) (s_dec (fst (hd none (written (nth j (m_streams m) stream0)))))) (written (nth k (m_streams m) stream0)) x).
Proof. exact movie_read_back. Qed.
Print Assumptions C61_read_back.

(** What add_video_stream(parameter sets) and add_audio_stream(object type, rate, channels, bit
    rate) make fits, and so is read back: sizes and rates below 2^16, parameter sets the reader is
    made for. *)
Theorem C61_video_setting : forall s su p pu ext name, Sps_model.sps_known s -> Sps_model.carries 7 su (Sps_model.sps_syntax s) -> Sps_model.pps_known p -> Sps_model.carries 8 pu (Sps_model.pps_syntax p ++ ext) ->
  (length su <= 256)%nat -> (length pu <= 256)%nat -> length name = 31%nat -> Sps_model.q_width s < 4095 -> Sps_model.q_height s < 4095 ->
  exists w h body, Sps_model.record_of su pu = Bitstream_model.Ok (w, h, body) /\ codec_ok (Video w h name body)
    /\ forall e, same_entry (Video w h name body) e -> exists a, e = VideoEntry (16 * (Sps_model.q_width s + 1)) (16 * (Sps_model.q_height s + 1)) body (Some a)
         /\ Sps_model.get_sequence a = su /\ Sps_model.get_picture a = pu /\ Sps_model.a_sps a = [Sps_model.read_as s] /\ Sps_model.a_pps a = [p].
Proof.
  intros s su p pu ext name K C KP CP L1 L2 LN W H. destruct (Sps_proofs2.record_written s su p pu ext K C KP CP L1 L2) as (compat & B & E).
  assert (R : 0 <= Sps_model.q_width s /\ 0 <= Sps_model.q_height s /\ is_byte (Sps_model.q_profile s) /\ is_byte (Sps_model.q_level s)).
  { destruct K as (K & _). unfold Sps_model.sps_ok, Sps_model.is_ue, Sps_model.is_u in K. change (2 ^ Z.of_nat 8) with 256 in K. unfold is_byte. intuition lia. } destruct R as (R1 & R2 & R3 & R4).
  rewrite !Z.mod_small in E by lia. eexists _, _, _. split; [exact E|].
  assert (A : avc_record (Sps_model.record_syntax (Sps_model.q_profile s) compat (Sps_model.q_level s) 3 [su] [pu]) (Sps_model.q_profile s) compat (Sps_model.q_level s) 3 [su] [s] [pu] [p]).
  { unfold avc_record. do 3 (split; [assumption|]). split; [lia|]. split; [cbn; lia|]. split; [cbn; lia|]. split; [constructor; [split; [exact L1|split; assumption]|constructor]|]. split; [constructor; [split; [exact L2|split; [exact KP|exists ext; exact CP]]|constructor]|]. exists []. rewrite app_nil_r. reflexivity. }
  split; [unfold codec_ok, short; do 2 (split; [lia|]); split; [exact LN|]; do 8 eexists; exact A|].
  intros e (a & -> & Q). exists a. split; [reflexivity|]. destruct (Q _ _ _ _ _ _ _ _ A) as (_ & _ & _ & _ & Q1 & Q2 & Q3 & Q4). split; [exact (Q3 su eq_refl)|]. split; [exact (Q4 pu eq_refl)|]. split; [exact Q1|exact Q2].
Qed.
Print Assumptions C61_video_setting.
Theorem C61_audio_setting : forall object fi ci rate chan bitrate, 0 <= object < 31 -> 0 <= fi -> Esds_model.frequency fi = Some rate -> 0 <= ci -> Esds_model.speakers ci = Some chan -> 0 <= bitrate < 2 ^ 32 - 100000 -> rate < 2 ^ 16 ->
  exists body, Esds_model.add_audio object rate chan bitrate = Some body /\ codec_ok (Audio rate chan body)
    /\ forall e, same_entry (Audio rate chan body) e -> e = AudioEntry rate chan body (Some (Esds_model.mkAac object rate chan)).
Proof.
  intros object fi ci rate chan bitrate O F FE C CE B R. destruct (Esds_props.C64_layout object fi ci rate chan bitrate O F FE C CE B) as (x & g & E & XO & M & _ & _ & _ & _ & _ & G & GE & GO & GF & GC & _).
  eexists. split; [exact E|].
  assert (A : audio_config (Esds_model.esds_bytes (Esds_model.es_bytes x)) object rate chan).
  { exists x, g, []. split; [exact XO|]. split; [constructor|]. split; [rewrite M; discriminate|]. split; [exact G|]. split; [exact GE|]. split; [exact GO|]. rewrite GF, GC. split; [exact FE|]. split; [exact CE|]. rewrite app_nil_r. reflexivity. }
  split; [|intros e (c & -> & _ & Q); rewrite (Q _ _ _ A); reflexivity].
  assert (R0 : 0 <= rate /\ 0 <= chan < 2 ^ 16).
  { split; [apply nth_error_In in FE; cbn in FE; lia|apply nth_error_In in CE; cbn in CE; lia]. }
  unfold codec_ok, short. do 2 (split; [lia|]). right. do 3 eexists. exact A.
Qed.
Print Assumptions C61_audio_setting.
Definition ex_video : list Z := [1; 100; 0; 31; 255; 225; 0; 26] ++ Sps_props.ex_sps_unit ++ [1; 0; 6] ++ Sps_props.ex_pps_unit.
Definition ex_audio : list Z := match Esds_model.add_audio 2 48000 2 128000 with Some b => b | None => [] end.
Lemma ex_video_ok : codec_ok (Video 1280 720 (repeat 0 31) ex_video).
Proof.
  destruct (C61_video_setting Sps_props.ex_sps Sps_props.ex_sps_unit Sps_props.ex_pps Sps_props.ex_pps_unit _ (repeat 0 31) Sps_props.ex_sps_known Sps_props.ex_sps_carried Sps_props.ex_pps_known Sps_props.ex_pps_carried) as (w & h & b & E & C & _); [cbn; lia|cbn; lia|reflexivity|cbn; lia|cbn; lia|].
  assert (Q : Sps_model.record_of Sps_props.ex_sps_unit Sps_props.ex_pps_unit = Bitstream_model.Ok (1280, 720, ex_video)) by (vm_compute; reflexivity). rewrite Q in E. injection E as <- <- <-. exact C.
Qed.
Lemma ex_audio_ok : codec_ok (Audio 48000 2 ex_audio).
Proof.
  destruct (C61_audio_setting 2 3 2 48000 2 128000) as (b & E & C & _); try lia; try reflexivity.
  assert (Q : Esds_model.add_audio 2 48000 2 128000 = Some ex_audio) by (vm_compute; reflexivity). rewrite Q in E. injection E as <-. exact C.
Qed.

(** a picture stream with reordered pictures and a sound stream which starts 10 ms late *)
Definition ex_settings := [mkG (Video 1280 720 (repeat 0 31) ex_video) 90000 (101, 110, 103) 0; mkG (Audio 48000 2 ex_audio) 48000 (117, 110, 100) 0].
Definition ex_samples : list (nat * sample) :=
  [(0%nat, mkS 400000 0 [1; 2; 3; 4] true); (0%nat, mkS 1200000 400000 [6; 7] false); (0%nat, mkS 800000 800000 [8; 9; 10] false);
   (1%nat, mkS 100000 100000 [21; 22] true); (1%nat, mkS 313333 313333 [23] true); (1%nat, mkS 526667 526667 [24] true)].
Definition ex_muxed : mux := match run 30 false 300000 100000 (mux0 300000 2) ex_samples with Some m => m | None => mux0 0 0 end.
Lemma ex_after : after false 300000 100000 2 ex_samples ex_muxed.
Proof. apply (run_after 30 false 300000 100000 2 ex_samples [] (mux0 300000 2)); [apply after_nil|repeat (apply Forall_cons; [cbn; lia|]); apply Forall_nil|vm_compute; reflexivity]. Qed.
Example C61_nonvacuous : after false 300000 100000 2 ex_samples ex_muxed
  /\ (forall k g, nth_error ex_settings k = Some g -> setting_ok g /\ g_ctts g <= 0 /\ samples_ok g 0 (map (fun x => (s_comp (fst x), s_dec (fst x), zlen (s_body (fst x)))) (written (nth k (m_streams ex_muxed) stream0))))
  /\ zlen (m_file ex_muxed) = 13
  /\ exists file mv a, movie_file 123 false ex_settings ex_muxed = Some file /\ zlen file = 1271 /\ read_movie file = Some mv
     /\ map x_entries (v_streams mv) = [[VideoEntry 1280 720 ex_video (Some a)]; [AudioEntry 48000 2 ex_audio (Some (Esds_model.mkAac 2 48000 2))]] /\ Sps_model.a_sps a = [Sps_props.ex_sps]
     /\ map (fun x => map (fun i => (SampleTab_model.sample_offset (x_tables x) i, composition_time (x_track x) i, is_iframe (x_track x) i)) [0; 1; 2]) (v_streams mv)
        = [[(Some 1258, Some 3600, Some true); (Some 1264, Some 10800, Some false); (Some 1268, Some 7200, Some false)]; [(Some 1262, Some 0, Some true); (Some 1266, Some 1023, Some true); (Some 1267, Some 2048, Some true)]].
Proof.
  split; [exact ex_after|]. split; [|split; [vm_compute; reflexivity|eexists _, _, _; split; [vm_compute; reflexivity|]; split; [reflexivity|]; split; [vm_compute; reflexivity|]; split; [vm_compute; reflexivity|]; split; vm_compute; reflexivity]].
  assert (E : m_streams ex_muxed = [mkSt [] [(mkS 400000 0 [1; 2; 3; 4] true, 0); (mkS 1200000 400000 [6; 7] false, 6); (mkS 800000 800000 [8; 9; 10] false, 10)];
    mkSt [] [(mkS 100000 100000 [21; 22] true, 4); (mkS 313333 313333 [23] true, 8); (mkS 526667 526667 [24] true, 9)]]) by (vm_compute; reflexivity). rewrite E. clear E.
  intros [|[|[|k]]] g Q; cbn [nth_error ex_settings] in Q; try discriminate; injection Q as <-; cbn [nth written map fst snd s_comp s_dec s_body].
  - split; [unfold setting_ok; cbn [g_ts g_ctts g_codec g_lang]; split; [lia|]; split; [lia|]; split; [first [exact ex_video_ok|exact ex_audio_ok]|]; unfold lower; lia|]. split; [cbn [g_ctts]; lia|]. unfold samples_ok. cbn [map fst snd hd length g_ts g_ctts].
    split; [lia|]. split; [lia|]. split; [exists (400000, 0, zlen [1; 2; 3; 4]), (1200000, 400000, zlen [6; 7]); split; [left; reflexivity|]; split; [right; left; reflexivity|discriminate]|]. split; [lia|]. split; [lia|]. split; [lia|].
    split. { right. intros i Hi. assert (i = 1 \/ i = 2)%nat as [-> | ->] by (cbn in Hi; lia); cbn [nth fst snd]; lia. }
    exists (2 ^ 34). split; [lia|]. split; [lia|]. split; [cbn [paced]; unfold fit; change (slack 90000) with 113; lia|]. repeat (apply Forall_cons; [unfold fit; cbn [fst snd]; lia|]). apply Forall_nil.
  - split; [unfold setting_ok; cbn [g_ts g_ctts g_codec g_lang]; split; [lia|]; split; [lia|]; split; [first [exact ex_video_ok|exact ex_audio_ok]|]; unfold lower; lia|]. split; [cbn [g_ctts]; lia|]. unfold samples_ok. cbn [map fst snd hd length g_ts g_ctts].
    split; [lia|]. split; [lia|]. split; [exists (100000, 100000, zlen [21; 22]), (313333, 313333, zlen [23]); split; [left; reflexivity|]; split; [right; left; reflexivity|discriminate]|]. split; [lia|]. split; [lia|]. split; [lia|].
    split. { left. intros i Hi. assert (i = 0 \/ i = 1 \/ i = 2)%nat as [-> | [-> | ->]] by (cbn in Hi; lia); cbn [nth fst snd]; lia. }
    exists (2 ^ 34). split; [lia|]. split; [lia|]. split; [cbn [paced]; unfold fit; change (slack 48000) with 210; lia|]. repeat (apply Forall_cons; [unfold fit; cbn [fst snd]; lia|]). apply Forall_nil.
Qed.

(** Refuted without the conditions.  Sound whose frames all have the same size: the table of
    sizes is announced and not written (C34), and the file cannot be opened at all. *)
Definition ex_equal : list (nat * sample) := map (fun i => (0%nat, mkS (i * 200000) (i * 200000) [i] true)) (map Z.of_nat (seq 0 12)).
Theorem C61_same_size_refuted : exists m file, after false 300000 100000 1 ex_equal m /\ movie_file 123 false [mkG (Audio 48000 2 ex_audio) 48000 (117, 110, 100) 0] m = Some file /\ read_movie file = None.
Proof.
  eexists _, _. split; [apply (run_after 30 false 300000 100000 1 ex_equal [] (mux0 300000 1)); [apply after_nil|repeat (apply Forall_cons; [cbn; lia|]); apply Forall_nil|vm_compute; reflexivity]|]. split; [vm_compute; reflexivity|]. vm_compute. reflexivity.
Qed.
Print Assumptions C61_same_size_refuted.
(** Sound of 96000 Hz is read as 30464 Hz: the field has 16 bits for the whole hertz. *)
Theorem C61_rate_refuted : exists body m file mv, Esds_model.add_audio 2 96000 2 128000 = Some body /\ after false 300000 100000 1 [(0%nat, mkS 0 0 [1; 2] true); (0%nat, mkS 200000 200000 [3] true)] m
  /\ movie_file 123 false [mkG (Audio 96000 2 body) 96000 (117, 110, 100) 0] m = Some file /\ read_movie file = Some mv /\ map x_entries (v_streams mv) = [[AudioEntry 30464 2 body (Some (Esds_model.mkAac 2 96000 2))]].
Proof.
  eexists _, _, _, _. split; [vm_compute; reflexivity|]. split; [apply (run_after 30 false 300000 100000 1 [_; _] [] (mux0 300000 1)); [apply after_nil|repeat (apply Forall_cons; [cbn; lia|]); apply Forall_nil|vm_compute; reflexivity]|]. split; [vm_compute; reflexivity|]. split; vm_compute; reflexivity.
Qed.
Print Assumptions C61_rate_refuted.
(** A file whose second picture is presented before the first cannot be opened. *)
Theorem C61_earlier_refuted : exists m file, after false 300000 100000 1 [(0%nat, mkS 800000 0 [1; 2] true); (0%nat, mkS 400000 400000 [3] false); (0%nat, mkS 1200000 800000 [4] false)] m
  /\ movie_file 123 false [mkG (Video 1280 720 (repeat 0 31) ex_video) 90000 (101, 110, 103) 0] m = Some file /\ read_movie file = None.
Proof.
  eexists _, _. split; [apply (run_after 30 false 300000 100000 1 [_; _; _] [] (mux0 300000 1)); [apply after_nil|repeat (apply Forall_cons; [cbn; lia|]); apply Forall_nil|vm_compute; reflexivity]|]. split; [vm_compute; reflexivity|]. vm_compute. reflexivity.
Qed.
Print Assumptions C61_earlier_refuted.
