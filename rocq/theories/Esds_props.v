(** C64: the esds box of an audio track. *)
From Verif Require Import Util Bits_spec Bits_lemmas Ts_model Es_model Bitstream_model Sps_model Esds_model Esds_proofs Esds_proofs2.
Local Open Scope Z_scope.

(** C64a.  The body of the audio entry made by add_audio_stream(object type, rate, channels, bit
    rate) is an esds box as ISO/IEC 14496-1 and 14496-14 lay it out, for every object type up to
    30, every rate and number of channels with a code, and every bit rate. *)
Theorem C64_layout object fi ci rate chan bitrate :
  0 <= object < 31 -> 0 <= fi -> frequency fi = Some rate -> 0 <= ci -> speakers ci = Some chan -> 0 <= bitrate < 2 ^ 32 - 100000 ->
  exists x g, add_audio object rate chan bitrate = Some (esds_bytes (es_bytes x)) /\ es_ok x /\ e_more x = []
    /\ e_type x = 0x40 /\ e_stream x = 5 /\ e_up x = false /\ e_max x = bitrate + 100000 /\ e_avg x = bitrate
    /\ config_ok g /\ bytes_bits (e_info x) = config_syntax g /\ g_object g = object /\ g_freq g = fi /\ g_chan g = ci /\ g_more g = [].
Proof.
  intros O F FE C CE B. destruct (put_aac_ok object fi ci rate chan O F FE C CE) as (info & P & IB & IL & IE).
  exists (made info bitrate), (plain object fi ci). unfold add_audio. rewrite P. cbn [option_map]. rewrite (esds_box_ok info bitrate IL B).
  split; [reflexivity|]. split; [apply made_ok; assumption|]. do 6 (split; [reflexivity|]). split; [|split; [exact IE|repeat split]].
  pose proof (proj2 (rate_code fi rate F FE)). pose proof (proj2 (chan_code ci chan C CE)). unfold config_ok, plain. cbn. lia.
Qed.
Print Assumptions C64_layout.

(** C64b.  Opening a file, every conforming box gives the object type, rate and channels of its
    AudioSpecificConfig: sizes on one to four bytes, dependsOn, URL and OCR fields, any bit rates
    and buffer size, bits after the part of the configuration that is read, other descriptors or
    boxes after it (but for the three kinds of descriptor the reader goes into). *)
Theorem C64_read x g rate chan after :
  es_ok x -> bytes after -> (forall t l, e_more x ++ after = t :: l -> ~ In t [0x12; 0x26; 0x0C]) ->
  config_ok g -> bytes_bits (e_info x) = config_syntax g -> frequency (g_freq g) = Some rate -> speakers (g_chan g) = Some chan ->
  get_audio (esds_bytes (es_bytes x) ++ after) = Ok (mkAac (g_object g) rate chan).
Proof. exact (audio_read x g rate chan after). Qed.
Print Assumptions C64_read.

(** C64c.  What add_audio_stream was given is read back. *)
Theorem C64_read_back object fi ci rate chan bitrate :
  0 <= object < 31 -> 0 <= fi -> frequency fi = Some rate -> 0 <= ci -> speakers ci = Some chan -> 0 <= bitrate < 2 ^ 32 - 100000 ->
  exists body, add_audio object rate chan bitrate = Some body /\ get_audio body = Ok (mkAac object rate chan).
Proof.
  intros O F FE C CE B. destruct (C64_layout object fi ci rate chan bitrate O F FE C CE B) as (x & g & E & XO & M & _ & _ & _ & _ & _ & G & GE & GO & GF & GC & _).
  eexists. split; [exact E|]. rewrite <- (app_nil_r (esds_bytes _)), <- GO. apply C64_read; try assumption; [constructor|rewrite M; discriminate|rewrite GF; exact FE|rewrite GC; exact CE].
Qed.
Print Assumptions C64_read_back.

(** C64d.  add_audio_stream from codec private data is the same as giving it the object type, rate
    and channels the private data tell. *)
Theorem C64_private g data rate chan bitrate :
  config_ok g -> bytes_bits data = config_syntax g -> frequency (g_freq g) = Some rate -> speakers (g_chan g) = Some chan ->
  add_audio_private data bitrate = Ok (add_audio (g_object g) rate chan bitrate).
Proof.
  intros G E F C. unfold add_audio_private. rewrite E. destruct (config_read g [] rate chan G F C) as [q Q]. rewrite app_nil_r in Q. rewrite Q. reflexivity.
Qed.
Print Assumptions C64_private.

Definition ex_config : config := mkConfig 2 4 2 false (Some 1000) true [true; false].
Definition ex_info : list Z := to_bytes (config_syntax ex_config).
Definition ex_es : es := mkEs 7 (Some 300) (Some [104; 105]) (Some 9) 3 (1, 1, 2, 3)%nat 0x40 5 true 6144 128000 96000 ex_info 2 [0x0A; 1; 5].
Lemma ex_es_ok : es_ok ex_es /\ config_ok ex_config /\ bytes_bits (e_info ex_es) = config_syntax ex_config /\ frequency (g_freq ex_config) = Some 44100 /\ speakers (g_chan ex_config) = Some 2.
Proof.
  split; [|split; [|split; [vm_compute; reflexivity|split; reflexivity]]].
  - assert (B : bytes ex_info) by (apply Forall_forall; intros y Y; vm_compute in Y; unfold is_byte; cbn in Y; lia).
    unfold es_ok. cbn [ex_es e_sizes e_id e_depends e_url e_ocr e_priority e_type e_stream e_up e_buffer e_max e_avg e_info e_sl e_more given].
    split. { assert (H : forall k n, (k =? 1)%nat || (k =? 2)%nat || (k =? 3)%nat = true -> Z.of_nat n <? 128 = true -> size_ok k n).
             { intros k n K N. assert (Q : (1 <= k <= 4)%nat) by lia. split; [exact Q|]. assert (2 ^ 7 <= 2 ^ (7 * Z.of_nat k)) by (apply Z.pow_le_mono_r; lia). change (2 ^ 7) with 128 in *. lia. }
             split; [apply H; vm_compute; reflexivity|]. split; [apply H; vm_compute; reflexivity|]. split; apply H; vm_compute; reflexivity. }
    unfold is_u, is_byte. change (2 ^ Z.of_nat 16) with 65536. change (2 ^ Z.of_nat 5) with 32. change (2 ^ Z.of_nat 6) with 64. change (2 ^ Z.of_nat 24) with 16777216. change (2 ^ Z.of_nat 32) with 4294967296.
    do 2 (split; [lia|]). split; [split; [do 2 (constructor; [unfold is_byte; lia|]); constructor|reflexivity]|]. do 7 (split; [lia|]). split; [exact B|]. split; [right; reflexivity|].
    do 3 (constructor; [unfold is_byte; lia|]). constructor.
  - unfold config_ok, ex_config. cbn [g_object g_freq g_chan g_core given]. unfold is_u. change (2 ^ Z.of_nat 14) with 16384. lia.
Qed.
Example C64_nonvacuous : get_audio (esds_bytes (es_bytes ex_es) ++ [0; 0; 0; 8]) = Ok (mkAac 2 44100 2).
Proof.
  destruct ex_es_ok as (A & B & C & D & E). apply (C64_read ex_es ex_config 44100 2 [0; 0; 0; 8]); try assumption.
  - do 4 (constructor; [unfold is_byte; lia|]). constructor.
  - intros t l H. cbn in H. injection H as <- _. cbn. lia.
Qed.
Example C64_nonvacuous2 : exists body, add_audio 2 48000 6 128000 = Some body
  /\ body = [0; 0; 0; 51; 101; 115; 100; 115; 0; 0; 0; 0; 3; 128; 128; 128; 34; 0; 0; 0; 4; 128; 128; 128; 20; 64; 21; 0; 3; 82; 0; 3; 122; 160; 0; 1; 244; 0; 5; 128; 128; 128; 2; 17; 176; 6; 128; 128; 128; 1; 2]
  /\ get_audio body = Ok (mkAac 2 48000 6).
Proof. eexists. split; [vm_compute; reflexivity|]. split; [reflexivity|]. vm_compute. reflexivity. Qed.
Example C64_nonvacuous3 : add_audio_private [18; 16] 128000 = Ok (add_audio 2 44100 2 128000). Proof. vm_compute. reflexivity. Qed.

(** C64e.  Channel configurations from 8 on (11 is 6.1, 12 and 14 are 7.1) are read without their
    first bit: 6.1 as 3 channels. *)
Theorem C64_channels_refuted : exists g q, g_chan g = 11 /\ get_aac (config_syntax g) = Ok (mkAac 2 48000 3, q).
Proof. exists (mkConfig 2 3 11 false None false []), []. split; [reflexivity|]. vm_compute. reflexivity. Qed.
Print Assumptions C64_channels_refuted.
(** C64f.  A frequency given in full (code 15 and 24 bits) is not read: the rate is 0, and the
    channels are the first bits of the frequency. *)
Theorem C64_frequency_refuted : exists q, get_aac (field_bits 2 5 ++ field_bits 15 4 ++ field_bits 48000 24 ++ field_bits 2 4 ++ [false; false; false]) = Ok (mkAac 2 0 0, q).
Proof. eexists. vm_compute. reflexivity. Qed.
Print Assumptions C64_frequency_refuted.
(** C64g.  The object types from 32 on (31 and then 6 bits) are not read: 32 bits are taken. *)
Theorem C64_object_refuted : get_aac (field_bits 31 5 ++ field_bits (42 - 32) 6 ++ field_bits 3 4 ++ field_bits 2 4 ++ repeat false 13) = EndOfData
  /\ exists body, add_audio 42 48000 2 128000 = Some body /\ get_audio body = Ok (mkAac 10 48000 2).
Proof. split; [vm_compute; reflexivity|]. eexists. split; [vm_compute; reflexivity|]. vm_compute. reflexivity. Qed.
Print Assumptions C64_object_refuted.
(** C64h.  A box that ends with the DecoderConfigDescriptor cannot be read. *)
Theorem C64_no_sl_refuted : get_audio (esds_bytes (desc 3 1 (big 2 1 ++ [0] ++ desc 4 1 ([0x40; 0x15] ++ big 3 6144 ++ big 4 128000 ++ big 4 128000 ++ desc 5 1 [0x11; 0x90])))) = EndOfData.
Proof. vm_compute. reflexivity. Qed.
Print Assumptions C64_no_sl_refuted.
(** C64i.  Without DecoderSpecificInfo (MPEG-1 audio, object type 0x6B) an unset pointer is
    followed. *)
Theorem C64_no_info_refuted : get_audio (esds_bytes (desc 3 1 (big 2 1 ++ [0] ++ desc 4 1 ([0x6B; 0x15] ++ big 3 6144 ++ big 4 128000 ++ big 4 128000) ++ desc 6 1 [2]))) = UB.
Proof. vm_compute. reflexivity. Qed.
Print Assumptions C64_no_info_refuted.
(** C64j.  The codec private data are not what goes in the file: here frames of 960 samples
    become frames of 1024 samples. *)
Theorem C64_private_refuted : exists g data body x, bytes_bits data = config_syntax g /\ config_ok g /\ g_frame g = true
  /\ add_audio_private data 128000 = Ok (Some body) /\ body = esds_bytes (es_bytes x) /\ e_info x <> data /\ e_info x = [17; 144].
Proof.
  exists (mkConfig 2 3 2 true None false []), [17; 148]. eexists. exists (made [17; 144] 128000).
  split; [vm_compute; reflexivity|]. split; [unfold config_ok; cbn; lia|]. split; [reflexivity|]. split; [vm_compute; reflexivity|]. split; [vm_compute; reflexivity|]. split; [discriminate|reflexivity].
Qed.
Print Assumptions C64_private_refuted.
