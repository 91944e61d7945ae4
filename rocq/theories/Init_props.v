(** Property C83: an initialization segment describes its stream. *)
From Coq Require Import String.
From Coq Require Import List. Import ListNotations.
From Verif Require Import Util Str_model SampleTab_model TimeTab_model Box_model Frag_model Movie_model Init_model Init_proofs5.
From Verif Require Bits_spec Bitstream_model Sps_model Esds_model Sps_props Esds_props Esds_proofs2 Movie_props Movie_proofs3 Movie_proofs7.
Local Open Scope Z_scope.

(** Whatever the stream, a segment is written, and if it is shorter than 2^32 bytes its bytes are
    the boxes of the standards: with a key id the entry is there twice, protected and plain. *)
Theorem C83_layout : forall now c ts id duration key pssh, exists seg, init now c ts id duration key pssh = Some seg
  /\ (zlen seg < 2 ^ 32 -> seg = List.concat (map layout (init_boxes now c ts id duration key (match pssh with Some b => b | None => [] end)))).
Proof. exact init_bytes. Qed.
Print Assumptions C83_layout.

(** Reading a segment (with any boxes of protection systems) gives one stream without samples, with
    the time scale, track id, kind, size and entries. *)
Theorem C83_read : forall now c ts id duration key l seg, codec_ok c -> 0 < ts < 2 ^ 32 -> 0 < id < 2 ^ 32 -> key_ok c key -> init now c ts id duration key (given l) = Some seg -> zlen seg < 2 ^ 32 ->
  exists x, read_movie seg = Some (mkMv 0 0 ts 0 [x]) /\ x_handler x = four (if is_video c then "vide" else "soun")%string /\ x_ts x = ts /\ x_id x = id /\ x_lang x = (117, 110, 100) /\ (x_width x, x_height x) = size_of c
    /\ entries_of c key (x_entries x) /\ no_samples x.
Proof. exact init_read. Qed.
Print Assumptions C83_read.

(** Codec private data are a stream that can be read back: two parameter sets with their lengths;
    an AudioSpecificConfig. *)
Theorem C83_private_video : forall s su p pu ext name more, Sps_model.sps_known s -> Sps_model.carries 7 su (Sps_model.sps_syntax s) -> Sps_model.pps_known p -> Sps_model.carries 8 pu (Sps_model.pps_syntax p ++ ext) ->
  bytes su -> bytes pu -> (List.length su <= 256)%nat -> (List.length pu <= 256)%nat -> List.length name = 31%nat -> Sps_model.q_width s < 4095 -> Sps_model.q_height s < 4095 ->
  exists c, video_stream name (Sps_model.with_length su ++ Sps_model.with_length pu ++ more) = Bitstream_model.Ok c /\ codec_ok c /\ is_video c = true /\ size_of c = (16 * (Sps_model.q_width s + 1), 16 * (Sps_model.q_height s + 1))
    /\ forall e, same_entry c e -> exists body a, e = VideoEntry (16 * (Sps_model.q_width s + 1)) (16 * (Sps_model.q_height s + 1)) body (Some a)
         /\ Sps_model.get_sequence a = su /\ Sps_model.get_picture a = pu /\ Sps_model.a_sps a = [Sps_model.read_as s] /\ Sps_model.a_pps a = [p].
Proof.
  intros s su p pu ext name more K C KP CP B1 B2 L1 L2 LN W H. destruct (Movie_props.C61_video_setting s su p pu ext name K C KP CP L1 L2 LN W H) as (w & h & body & E & Ok & Q).
  exists (Video w h name body). split; [unfold video_stream; rewrite (Sps_props.C63_private_data su pu more B1 B2) by lia; rewrite E; reflexivity|]. split; [exact Ok|]. split; [reflexivity|]. split.
  - destruct (Q _ (Movie_proofs7.seen_same _ Ok)) as (a & Ea & _). cbn [Movie_proofs3.seen_entry] in Ea. pose proof (f_equal (fun e => match e with VideoEntry w _ _ _ => w | _ => 0 end) Ea) as Ew. pose proof (f_equal (fun e => match e with VideoEntry _ h _ _ => h | _ => 0 end) Ea) as Eh. cbv beta iota in Ew, Eh. destruct Ok as (S1 & S2 & _). unfold short in *. rewrite Z.mod_small in Ew, Eh by lia. cbn [size_of]. congruence.
  - intros e He. exists body. exact (Q e He).
Qed.
Print Assumptions C83_private_video.
Theorem C83_private_audio : forall g data rate chan bitrate, Esds_model.config_ok g -> Bits_spec.bytes_bits data = Esds_model.config_syntax g -> Esds_model.frequency (Esds_model.g_freq g) = Some rate -> Esds_model.speakers (Esds_model.g_chan g) = Some chan ->
  0 <= bitrate < 2 ^ 32 - 100000 -> rate < 2 ^ 16 ->
  exists body, audio_stream data bitrate = Bitstream_model.Ok (Some (Audio rate chan body)) /\ codec_ok (Audio rate chan body) /\ body <> []
    /\ forall e, same_entry (Audio rate chan body) e -> e = AudioEntry rate chan body (Some (Esds_model.mkAac (Esds_model.g_object g) rate chan)).
Proof.
  intros g data rate chan bitrate G E F C B R. pose proof G as (G1 & G2 & G3 & _).
  destruct (Movie_props.C61_audio_setting (Esds_model.g_object g) (Esds_model.g_freq g) (Esds_model.g_chan g) rate chan bitrate) as (body & Eb & Ok & Q); try lia; try assumption.
  exists body. split.
  - unfold audio_stream. rewrite E. destruct (Esds_proofs2.config_read g [] rate chan G F C) as (q & Hq). rewrite app_nil_r in Hq. rewrite Hq. cbn [Bitstream_model.bindo fst Esds_model.c_rate Esds_model.c_chan Esds_model.c_object]. rewrite Eb. reflexivity.
  - split; [exact Ok|]. split; [|exact Q]. intros ->. pose proof (Q _ (Movie_proofs7.seen_same _ Ok)) as N. discriminate N.
Qed.
Print Assumptions C83_private_audio.

(** The fragment duration is a 32-bit field: in the default time scale, 10000000, a duration from
    430 seconds on is not what the segment says (600 s become 170.5 s). *)
Theorem C83_duration_refuted : exists now c id duration seg p, codec_ok c /\ 0 <= duration < 2 ^ 64 /\ duration = 600 * 10000000 /\ init now c 10000000 id duration None None = Some seg
  /\ firstn 16 (skipn p seg) = be 4 16 ++ str "mehd" ++ be 4 0 ++ be 4 1705032704 /\ 1705032704 <> duration.
Proof.
  exists 0, (Audio 48000 2 []), 1, 6000000000. eexists. exists 557%nat. split; [cbn [codec_ok]; unfold short; split; [lia|split; [lia|left; reflexivity]]|]. split; [lia|]. split; [reflexivity|]. split; [vm_compute; reflexivity|]. split; [vm_compute; reflexivity|discriminate].
Qed.
Print Assumptions C83_duration_refuted.

(** a protected sound stream and a protected picture stream, with a box of a protection system *)
Definition ex_kid : list Z := [16; 1; 2; 3; 4; 5; 6; 7; 8; 9; 10; 11; 12; 13; 14; 15].
Lemma ex_key_ok : key_ok (Audio 48000 2 Movie_props.ex_audio) (Some ex_kid) /\ key_ok (Video 1280 720 (repeat 0 31) Movie_props.ex_video) (Some ex_kid).
Proof. assert (B : bytes ex_kid) by (apply Forall_forall; intros y Y; unfold ex_kid in Y; cbn [In] in Y; unfold is_byte; lia). split; (split; [reflexivity|split; [exact B|vm_compute; exact Logic.I]]). Qed.
Example C83_nonvacuous : exists seg seg', init 3900000000 (Audio 48000 2 Movie_props.ex_audio) 48000 2 96000 (Some ex_kid) (given [[1; 2; 3]; []]) = Some seg /\ zlen seg < 1000
  /\ init 3900000000 (Video 1280 720 (repeat 0 31) Movie_props.ex_video) 90000 1 0 (Some ex_kid) None = Some seg' /\ zlen seg' < 1000
  /\ option_map (fun m => map x_id (v_streams m)) (read_movie seg) = Some [2] /\ option_map (fun m => map (fun x => List.length (x_entries x)) (v_streams m)) (read_movie seg') = Some [2%nat].
Proof. eexists. eexists. split; [vm_compute; reflexivity|]. split; [vm_compute; reflexivity|]. split; [vm_compute; reflexivity|]. split; [vm_compute; reflexivity|]. split; vm_compute; reflexivity. Qed.
Example C83_private_nonvacuous : exists c, video_stream (repeat 0 31) (Sps_model.with_length Sps_props.ex_sps_unit ++ Sps_model.with_length Sps_props.ex_pps_unit ++ [7]) = Bitstream_model.Ok c /\ size_of c = (1280, 720)
  /\ exists body, audio_stream Esds_props.ex_info 128000 = Bitstream_model.Ok (Some (Audio 44100 2 body)) /\ bytes Sps_props.ex_sps_unit /\ bytes Sps_props.ex_pps_unit.
Proof.
  eexists. split; [vm_compute; reflexivity|]. split; [reflexivity|]. eexists. split; [vm_compute; reflexivity|]. split; apply Forall_forall; intros y Y; vm_compute in Y; unfold is_byte; repeat (destruct Y as [<-|Y]; [lia|]); contradiction.
Qed.
