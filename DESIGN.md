# Formal model of mediagoom/mg in Rocq (Coq 8.16.1)

## Method

The logic of /repo (codecs, tables, queues, schedulers, arithmetic) is
transcribed function by function into small total Gallina functions. Every
definition cites the file and lines it models and says where it simplifies.
Per component X, in `rocq/theories`:

* `X_model.v` - the transcription (no proofs). A last section,
  "Specification vocabulary", holds the few definitions that theorem statements
  use besides the API functions: they are written from the standard or from the
  English property and do not use the model's helpers;
* `X_proofs*.v` - lemmas;
* `X_props.v` - only the property theorems, each closed by a lemma, the
  non-vacuity examples (`Cnn_nonvacuous...`: a concrete case which meets the
  hypotheses) and `Print Assumptions` for every theorem.

`Util.v`, `Bits_spec.v`, `Dec_spec.v`, `Dec_lemmas.v` hold what several
components share (bytes, bit lists, decimal text).

Integers are `Z`; where C++ wrap-around matters it is written explicitly
(`mod 2^32`, `mod 2^64`, signed casts). Undefined behaviour (reads outside of a
buffer, use after free, uninitialised members, division by zero) is a distinct
outcome or an arbitrary parameter. Loops are structural or carry fuel; running
out of fuel is a distinct outcome and the theorems show it does not happen (or
that it does: loops which never end).

When the code violates the expected property, a theorem `..._refuted` proves
the violation on the model (most of them for a whole family of inputs, not for
one witness), and the positive theorem is proved under the exact guard. These
are findings about the code at the pinned commit.

Wrong programs: `seeded/LOG.jsonl` lists the edits made to the model in a scratch
copy, what failed, and which theorems were tightened because of them.


## Properties: what is modelled and how it is proved

### C01 Base64 round trip, in any chunking

* Model (`Base64_model.v`): the encoder and decoder step machines of libb64 with their saved state, fed chunk by chunk.
* Proof: the state after any chunks is a function of the bytes seen; encoder output = RFC 4648 groups by induction on groups of 3; the decoder inverts each group (sweep over 64 sextets lifted by arithmetic).
* Theorems: `C01_base64_roundtrip`.

### C02 Base64 text is the standard one

* Model (`Base64_model.v`): as C01, with the line breaks the encoder inserts.
* Proof: induction on the groups; alphabet by a sweep of the 64 entries.
* Theorems: `C02_base64_is_rfc4648`, `C02_base64_length`, `C02_base64_shape`.

### C03 Base64 decoding of hostile text stays inside its table

* Model (`Base64_model.v`): the decode table with signed `char` indexing; a read outside the table is an outcome.
* Proof: exact guard (no byte at or above `{`), refuted outside it.
* Theorems: `C03_decode_defined_iff_no_brace`, `C03_junk_ignored`. Refuted: `C03_table_overread_refuted`.

### C04 Bit reader returns the stream's bits, big-endian, in order

* Model (`Bitstream_model.v`): bit reader: cache word, masks, 64-bit load, `have_bits`.
* Proof: refinement to a list of bits (Bits_spec): invariant between cursor and list, induction on calls.
* Theorems: `C04_memory_reads`, `C04_peek`, `C04_signed`, `C04_align`, `C04_has_bits`. Refuted: `C04_overread_refuted`.

### C05 Bit writer followed by bit reader is the identity

* Model (`Bitstream_model.v`): bit writer (putbits) and reader.
* Proof: the bytes written are the packing of the bits; with C04 the round trip.
* Theorems: `C05_put_get`, `C05_bytes_written`.

### C06 Little-endian helpers are inverse to each other

* Model (`Bitstream_model.v`): the little endian get and put helpers.
* Proof: arithmetic on base 256 digits.
* Theorems: `C06_little_endian`.

### C07 Paged file reads return the file's content

* Model (`Bitstream_model.v`): page refill with the shadow bytes carried between pages.
* Proof: invariant: window = part of the file; the guards are exact, refuted outside them.
* Not covered: asynchronous refill (`next` promises) is sequential here.
* Theorems: `C07_paged_reads`, `C07_exact_page_reads`. Refuted: `C07_last_page_refuted`, `C07_premature_eof_refuted`.

### C08 Asynchronous file reads are delivered in request order exactly once

* Model (`FileOrder_model.v`): completion handler with out-of-order queue.
* Proof: invariant over all permutations of completions.
* Theorems: `C08_reads_in_order`, `C08_prefix_delivered`, `C08_in_order_errors`. Refuted: `C08_error_attribution_refuted`, `C08_lost_error_refuted`, `C08_mixed_write_refuted`.

### C09 Event wait/signal has no lost wake-up

* Model (`SignalEvent_model.v`): transition system, one label per atomic access, any number of threads.
* Proof: inductive invariants over all interleavings; exact condition of the lost wake-up.
* Not covered: timed wait, concurrent reset, spurious wake-ups.
* Theorems: `C09_no_early_return`, `C09_wait_after_signal`, `C09_sleeper_released`, `C09_lost_wakeup_iff`. Refuted: `C09_lost_wakeup_refuted`, `C09_second_waiter_refuted`.

### C10 A promise runs its continuation exactly once

* Model (`Promise_model.v`): promise state machine with continuation, error and chaining.
* Proof: invariants over all histories.
* Theorems: `C10_exactly_once`, `C10_chain`. Refuted: `C10_late_forward_refuted`, `C10_error_twice_refuted`.

### C11 Growing a byte buffer preserves its content

* Model (`CBuffer_model.v`): prepare, append, reset over a heap of blocks.
* Proof: refinement to list append over all histories.
* Theorems: `C11_buffer_history`, `C11_append_concat`, `C11_prepare`. Refuted: `C11_self_append_refuted`.

### C12 Reference-counted handles free their object exactly once

* Model (`CResource_model.v`): handles on counted objects, heap with frees.
* Proof: count = number of handles, over all histories; interleavings for the concurrent release.
* Theorems: `C12_handles`, `C12_self_assignment`. Refuted: `C12_self_assign_refuted`, `C12_concurrent_release_refuted`, `C12_double_free_refuted`.

### C13 Splitting a string loses nothing

* Model (`Str_model.v`): split and replace.
* Proof: list induction; refuted for the empty separator (fuel never suffices).
* Theorems: `C13_split_join`, `C13_replace`. Refuted: `C13_empty_separator_refuted`.

### C14 Hex text round trip

* Model (`Str_model.v`): append_hex_buffer and the hex reader.
* Proof: sweep of 256 byte values, list induction.
* Theorems: `C14_hex_roundtrip`.

### C15 Command-line option syntax

* Model (`CmdLine_model.v`): console_command: recognition and processing of an argument.
* Proof: case analysis over all option tables and arguments.
* Not covered: the single letter dispatch of Cmdline::process (60-95).
* Theorems: `C15_recognised`, `C15_process`, `C15_flag`, `C15_memory_safe`. Refuted: `C15_equal_colon_refuted`.

### C16 Duration text determines the duration

* Model (`HNano_model.v`): text of a duration.
* Proof: decimal text lemmas, division.
* Theorems: `C16_text_value`, `C16_text_injective`, `C16_negative`, `C16_components`. Refuted: `C16_int64_min_refuted`.

### C17 Section CRC

* Model (`Crc_model.v`): table generation, slicing loops with alignment prefix.
* Proof: linearity over GF(2): byte step = eight bit steps, sweeps over 256 lifted; the CRC of message and CRC is 0; bursts by polynomial division.
* Theorems: `C17_crc_spec`, `C17_start_and_chunks`, `C17_residue`, `C17_burst_detected`. Refuted: `C17_concurrent_init_refuted`.

### C18 Fixed-memory queue is FIFO

* Model (`FQueue_model.v`): the ring with head and tail offsets, the growing queue.
* Proof: invariant: memory holds the chain of blocks of the abstract list; refinement to a list for all histories.
* Not covered: operations are atomic (the lock); grow_queue second allocation attempt is taken as failed.
* Theorems: `C18_fifo`, `C18_drops_minimal`, `C18_accepted_iff_room`, `C18_growing_lossless`, `C18_growing_progress`. Refuted: `C18_hopeless_push_keeps_items_refuted`.

### C19 Fixed-memory queue never writes outside its memory

* Model (`FQueue_model.v`): as C18; every access carries its offset and size.
* Proof: from the invariant of C18.
* Theorems: `C19_inside_and_disjoint`. Refuted: `C19_huge_block_refuted`.

### C20 MPEG time stamps survive encoding

* Model (`TsTime_model.v, Ts_model.v`): MpegTime in explicit double rounding, stamps in PES headers and PCR.
* Proof: rounding of integer division and multiplication bounded exactly, bit packing lemmas.
* Theorems: `C20_pes_stamps`, `C20_no_wrap`, `C20_clock_exact`, `C20_pcr_near`. Refuted: `C20_pcr_exact_refuted`.

### C21 TS packetisation preserves the payload

* Model (`Ts_model.v`): output_ts: sizes, adaptation field, counters.
* Proof: induction on the full packets.
* Theorems: `C21_packets`, `C21_read_back`. Refuted: `C21_overread_refuted`.

### C22 PAT and PMT tables survive writing and reading

* Model (`TsSect_model.v`): PAT and PMT writers and readers, CRC in place.
* Proof: pack/read lemmas for each field list, induction on programs, streams and descriptors.
* Not covered: descriptor contents are bytes.
* Theorems: `C22_pat_written`, `C22_pmt_written`, `C22_section_length`, `C22_pat_read`, `C22_pmt_read`, `C22_pat_round_trip`, `C22_pmt_round_trip`, `C22_type_lookup`. Refuted: `C22_split_tail_refuted`, `C22_43_programs_refuted`, `C22_bad_crc_refuted`, `C22_h264_refuted`.

### C23 PES length field

* Model (`Ts_model.v`): PES_packet_length.
* Proof: arithmetic; refuted in the gap between payload and packet limits.
* Theorems: `C23_length`. Refuted: `C23_gap_refuted`.

### C24 TS reassembly is inverse to packetisation

* Model (`Ts_model.v`): packet reader and reassembly state machine for one PID.
* Proof: invariant over the packets of a unit, induction on units.
* Not covered: several PIDs (each has its own state).
* Theorems: `C24_reassembly`, `C24_write_read`. Refuted: `C24_mixed_refuted`, `C24_duplicate_refuted`.

### C25 Emulation-prevention removal

* Model (`Nal_model.v`): both variants of the removal, the one in place over its own buffer.
* Proof: induction with the state of the escape; the writer stays behind the reader.
* Theorems: `C25_decode`, `C25_fits`, `C25_in_place`. Refuted: `C25_final_3_refuted`.

### C26 Joining clips keeps audio and video in sync without overlap

* Model (`Edit_model.v`): MediaJoin.
* Proof: arithmetic over lists.
* Theorems: `C26_not_before_end`, `C26_same_shift`, `C26_least`.

### C27 DASH SegmentTimeline describes exactly the segments

* Model (`Mpd_model.v`): add_point and end_stream text.
* Proof: parser of the XML text in the specification; invariant: text read so far + pending run = segments.
* Theorems: `C27_timeline`.

### C28 DASH duration text denotes the duration

* Model (`Mpd_model.v`): duration text.
* Proof: decimal text; refuted for the fraction.
* Theorems: `C28_seconds`. Refuted: `C28_fraction_refuted`.

### C29 HLS media playlist

* Model (`Hls_model.v`): all calls of the renderer that touch the media playlist.
* Proof: text = lines; induction on the calls.
* Not covered: the audio calls and the master playlist.
* Theorems: `C29_playlist`, `C29_target`. Refuted: `C29_target_refuted`, `C29_extinf_refuted`, `C29_two_videos_refuted`, `C29_unclosed_refuted`.

### C30 HLS segment encryption is invertible

* Model (`HlsCrypt_model.v`): hls3_encrypt over any block cipher, destination memory.
* Proof: induction on blocks.
* Not covered: AES itself.
* Theorems: `C30_roundtrip`, `C30_iv`, `C30_size`. Refuted: `C30_large_refuted`.

### C31 Dynamic stream index is contiguous

* Model (`Points_model.v`): std::map as sorted list, index operations, renderers.
* Proof: sortedness invariants, induction; text parser as in C27.
* Theorems: `C31_segments`, `C31_manifests`, `C31_rebase`, `C31_rebase_all`. Refuted: `C31_count_refuted`, `C31_empty_refuted`, `C31_rebase_cross_refuted`.

### C32 Looking up a time in a dynamic stream

* Model (`Points_model.v`): closest point, end, path lookups.
* Proof: lower/upper bound lemmas on sorted lists.
* Theorems: `C32_closest`, `C32_end`, `C32_path`. Refuted: `C32_single_refuted`, `C32_end_before_cross_refuted`.

### C33 Cutting a dynamic stream into segments

* Model (`Publish_model.v`): publish loops for key frame streams and audio over several files.
* Proof: induction on key frames and samples; arithmetic.
* Not covered: tracks without key frames have one sample duration.
* Theorems: `C33_video`, `C33_audio`, `C33_stream_end`. Refuted: `C33_tolerance_refuted`, `C33_audio_short_refuted`, `C33_two_audio_refuted`, `C33_audio_hang_refuted`, `C33_composition_end_refuted`, `C33_stream_end_refuted`.

### C34 Sample tables round trip

* Model (`SampleTab_model.v, RangeMap_model.v`): stsc, stsz, stco writers and readers.
* Proof: run-length inverse, lookup by C43, induction on chunks.
* Theorems: `C34_round_trip`, `C34_empty`. Refuted: `C34_same_size_refuted`, `C34_single_sample_refuted`.

### C35 MP4 timing tables round trip

* Model (`TimeTab_model.v, Double_model.v`): stts, ctts writers and readers; doubles with Flocq.
* Proof: run-length inverse with the rounding error carried: the error stays below one tick; doubles by error bounds on binary64.
* Theorems: `C35_double_conversion`, `C35_decoding`, `C35_no_drift`, `C35_composition`, `C35_composition_left_out`, `C35_empty`. Refuted: `C35_drift_refuted`, `C35_exact_refuted`, `C35_single_refuted`.

### C36 Key-frame table round trip

* Model (`TimeTab_model.v`): stss writer, reader, lookup.
* Proof: table lemmas with C43.
* Theorems: `C36_key_frames`, `C36_search`. Refuted: `C36_none_refuted`.

### C37 Automatic decoding times are valid

* Model (`AutoDec_model.v`): sort, gaps, offset.
* Proof: sum of gaps; induction.
* Theorems: `C37_valid`, `C37_same_end`, `C37_in_order`. Refuted: `C37_strict_refuted`, `C37_together_refuted`.

### C38 Interleaving keeps every sample of every stream

* Model (`MuxQueue_model.v`): add_sample loop over streams with queues.
* Proof: conservation invariant over histories; progress measure.
* Not covered: time code streams.
* Theorems: `C38_kept`, `C38_place`, `C38_ends`, `C38_progress`, `C38_single`. Refuted: `C38_lost_refuted`.

### C39 Boxes are written with their sizes and can be walked

* Model (`Box_model.v`): box writer with back-patching, box reader.
* Proof: tree induction; writer state = layout.
* Theorems: `C39_written`, `C39_boxes`, `C39_read`. Refuted: `C39_uuid_end_refuted`, `C39_large_read_refuted`, `C39_large_written_refuted`.

### C40 Encrypted samples decrypt to the originals and no key stream repeats

* Model (`Cenc_model.v`): counters, encrypt, decrypt.
* Proof: counter = big endian increment; key stream blocks; injectivity of counters.
* Not covered: AES itself.
* Theorems: `C40_counter`, `C40_block_counter`, `C40_decrypt`, `C40_standard`, `C40_clear`, `C40_no_reuse`.

### C41 Fragments are read back as they were written

* Model (`Frag_model.v`): whole fragment writer and reader over Box_model.
* Proof: symbolic layout of all boxes, reader combinators; induction on fragments and samples.
* Not covered: tenc and live boxes in a fragment; normalisation of time scales by do_moof_mux.
* Theorems: `C41_roundtrip`, `C41_exact`, `C41_index`, `C41_offsets`. Refuted: `C41_index_time_refuted`, `C41_clear_after_encrypted_refuted`, `C41_no_sample_refuted`.

### C42 Appending clips: sync, no loss, no overlap

* Model (`Edit_model.v`): look ahead and copy loops over several clips.
* Proof: induction on samples and clips.
* Not covered: 64-bit wrap of times; invalid streams.
* Theorems: `C42_sync`, `C42_complete`, `C42_no_overlap`, `C42_not_before`. Refuted: `C42_single_sample_refuted`, `C42_missing_stream_refuted`, `C42_decoded_late_refuted`, `C42_short_refuted`, `C42_late_refuted`.

### C43 Range lookup

* Model (`RangeMap_model.v`): binary search with its moving limits.
* Proof: loop invariant and measure.
* Theorems: `C43_lookup`. Refuted: `C43_empty_refuted`.

### C44 Block byte read from a memory stream

* Model (`Bitstream_model.v`): block read.
* Proof: exact outcome by cases.
* Theorems: `C44_block_read`. Refuted: `C44_block_read_refuted`.

### C45 Strings behave as values

* Model (`StrAlias_model.v`): string copies sharing buffers.
* Proof: heap invariant over histories.
* Theorems: `C45_value_semantics`, `C45_reference_semantics`. Refuted: `C45_copy_aliases_refuted`, `C45_self_append_refuted`.

### C46 Sub-strings

* Model (`Str_model.v`): substring.
* Proof: exact outcome by cases.
* Theorems: `C46_substring`. Refuted: `C46_substring_refuted`.

### C47 Reading a transport packet

* Model (`Ts_model.v`): get_packet with adaptation field.
* Proof: bit field lemmas.
* Not covered: adaptation field extension.
* Theorems: `C47_read_packet`, `C47_pcr_round_trip`. Refuted: `C47_private_data_refuted`.

### C48 Reassembly stays inside the packet

* Model (`Ts_model.v`): payload copy with unsigned arithmetic.
* Proof: induction on packets.
* Theorems: `C48_in_bounds`. Refuted: `C48_damaged_refuted`.

### C49 Filler packets

* Model (`TsSect_model.v`): fill_pid; section reader fed by packets.
* Proof: induction on the counter.
* Theorems: `C49_fill`. Refuted: `C49_repeats_refuted`.

### C50 Codec names in manifests

* Model (`Mpd_model.v`): codec name.
* Proof: exact condition.
* Theorems: . Refuted: `C50_codec_refuted`.

### C51 Seeking a time in an mp4 track

* Model (`TimeTab_model.v`): time to sample searches.
* Proof: table lemmas; lower bound.
* Theorems: `C51_by_decoding_time`, `C51_by_composition_time`. Refuted: `C51_reported_time_refuted`, `C51_by_presentation_refuted`.

### C52 Levelling keeps streams in sync

* Model (`Level_model.v`): level_start_time over the list of streams, both modes; edts writer and elst parser.
* Proof: exact formula for the presentation time of a sample, by cases on the order of starts; box lemmas of Frag for the edit list.
* Not covered: levelling of subtitles with empty samples.
* Theorems: `C52_exact`, `C52_sync`, `C52_causal`, `C52_edit_list`. Refuted: `C52_sync_refuted`, `C52_long_offset_refuted`, `C52_last_sample_refuted`, `C52_empty_refuted`.

### C53 Samples are read in file order

* Model (`Walk_model.v`): next_file_chunks, pick_sample, move_next over any number of streams with any position.
* Proof: measure on remaining samples; invariant on the position after the last sample.
* Not covered: seeking by time is in C54.
* Theorems: `C53_complete`, `C53_file_order`, `C53_inside`. Refuted: `C53_damaged_refuted`.

### C54 Cutting fragments out of a movie

* Model (`Cut_model.v`): move and add_frames_to_m4f over Walk and the time tables.
* Proof: search lemmas of TimeTab give the seek target; C53-style induction for the loop; sorted-list partition.
* Not covered: sample bytes (C41), LTC and text tracks as the cut track, produce_m4f_chunk_cross.
* Theorems: `C54_audio`, `C54_audio_partition`, `C54_video`, `C54_base_time`. Refuted: `C54_open_gop_refuted`, `C54_next_gop_refuted`, `C54_shift_refuted`.

### C55 H.264 samples come back from a transport stream

* Model (`Es_model.v`): tsmux.h 78-252 (units of a sample to start codes), tsparse.h 452-546 (search for start codes), tsinfo.cpp 190-281 (sample, parameter sets).
* Proof: induction on the units with a lemma that the byte search stops at the next start code and not before; composed with C24.
* Not covered: the mux the samples go to (C34 on), console output, the wrong assertion on the size.
* Theorems: `C55_video`, `C55_same`, `C55_start_codes`, `C55_end_to_end`. Refuted: `C55_payload_refuted`, `C55_first_refuted`, `C55_length_refuted`.

### C56 AAC frames come back from a transport stream

* Model (`Es_model.v`): aac.fl 151-208, tsmux.h 254-355, tsparse.h 246-387, tsinfo.cpp 282-326.
* Proof: bit fields read back (C04 vocabulary), induction on the frames.
* Not covered: _pes_frames other than 1, target_bit_rate.
* Theorems: `C56_audio`, `C56_read`, `C56_time`. Refuted: `C56_object_refuted`, `C56_long_refuted`, `C56_short_refuted`.

### C57 What the demultiplexer hands on

* Model (`TsDemux_model.v`): CTSProcessor::process over PAT, PMT and PES readers, with the gate that waits for a header and the Reset after a unit; maps keyed by PID as association lists.
* Proof: per stream: induction on units with the state between packets as invariant (pending open unit, indicator kept); all streams: simulation, each stream sees the filtered packets only; tables by C22.
* Not covered: PAT of several programs or in several packets, tables repeated with changes, streams recognised after their first unit, the parse of the header found.
* Theorems: `C57_all`, `C57_keys`, `C57_to_the_end`, `C57_isolated`, `C57_written`. Refuted: `C57_last_open_refuted`, `C57_after_open_refuted`, `C57_all_open_refuted`, `C57_small_refuted`.

### C58 The samples of a transport stream segment come back

* Model (`Seg_model.v`): TSMux/HLSMux add_sample: tables when due, unit of the sample (Es_model), packets (Ts_model), counters per PID; reading by TsDemux_model and the sample readers of tsinfo.cpp.
* Proof: a segment is a list of pieces (table, unit, filler), each read back as such (C22, C24, C47); the packets of a stream are those of its units; then C57 and C55/C56. Times: calls equal modulo 2^64 give the same segment.
* Not covered: streams added after the first sample, set_stream_pcr, several frames in one audio unit, bodies between 65522 and 65534 bytes (C23), key frames whose unit is just one byte too long for a packet (C20).
* Theorems: `C58_video`, `C58_audio`, `C58_large`, `C58_hls_video`, `C58_hls_audio`, `C58_hls_unset`. Refuted: `C58_last_large_refuted`, `C58_large_keys_refuted`, `C58_gap_refuted`, `C58_hls_wrap_refuted`.

### C59 Continuity counters across segments

* Model (`Seg_model.v`): the same; counters of a PID read off the bytes of the packets.
* Proof: invariant: the packets written so far count on from the start and leave the counter map; filled segments leave the map of a new one.
* Not covered: segments with tables repeated at key frames, which the HLS tool does not make.
* Theorems: `C59_segment`, `C59_segments`.

### C60 Clock references of a segment

* Model (`Clock_model.v`): as C58; references, PIDs and lengths read off the bytes of the packets, the table by the section reader of TsSect_model.
* Proof: induction over the calls with output_ts_spec (C20) for each unit; table by C22.
* Not covered: audio units carrying references through set_stream_pcr (never called).
* Theorems: `C60_references`, `C60_announced`. Refuted: `C60_audio_only_refuted`.

### C61 An mp4 file written is read back

* Model (`Movie_model.v`): MP4Mux::end: levelling, ftyp, moov with all the boxes of a track, mdat, moving of the chunk offsets; MP4Reader::parse with its recursions over the boxes. Tables of SampleTab and TimeTab, edit list of Level, box writer and reader of Box, ticks in doubles.
* Proof: the file as a tree of boxes (writer state = layout, the chunk offsets a hole of fixed length filled later); the reader as a chain of segments each consumed by one step; tables by C34-C36; clock by C52; places by C38; decoder configurations by C63 and C64.
* Not covered: time code and text streams, encryption, a second avcC box in an entry, automatic decoding times.
* Theorems: `C61_read_back`, `C61_video_setting`, `C61_audio_setting`. Refuted: `C61_same_size_refuted`, `C61_rate_refuted`, `C61_earlier_refuted`.

### C62 H.264 parameter sets are read as the standard writes them

* Model (`Sps_model.v`): the generated readers of h264.fl as functions from bits left to a value and the bits after; Exp-Golomb with its float and its int conversion; decode_nal from Nal_model.
* Proof: the encoder written from the standard; compositional lemma "p reads v from these bits whatever follows", field by field; unit by C25.
* Not covered: slice headers, the extension of picture parameter sets (never read: _size is 0), scaling lists; that bits arrive in order is C04.
* Theorems: `C62_ue`, `C62_se`, `C62_sps`, `C62_pps`. Refuted: `C62_long_code_refuted`, `C62_signed_refuted`, `C62_profile_refuted`, `C62_matrix_refuted`, `C62_final_3_refuted`, `C62_assigned_refuted`.

### C63 The decoder configuration of a stream made of two parameter sets

* Model (`Sps_model.v`): record put and get, set_sps/set_pps, accessors, splitting of codec private data.
* Proof: bit layout of the bytes, then C62 for each set.
* Not covered: the destructor of CAVCCHeader (out of range with more sequence than picture sets), Smooth Streaming start codes.
* Theorems: `C63_record`, `C63_layout`, `C63_size`, `C63_read`, `C63_private_data`. Refuted: `C63_size_refuted`, `C63_compat_refuted`, `C63_several_refuted`, `C63_long_refuted`.

### C64 The audio decoder configuration of a track is read back

* Model (`Esds_model.v`): descriptor readers and writers of mpeg4_odf.fl, AudioSpecificConfig of aac.fl, add_audio_stream, the esds part of CMP4AudioEntry::parse, on bits left.
* Proof: the box as nested byte strings written from the standard; byte-level reading lemmas (head, size groups, big-endian fields) composed; the written box is an instance.
* Not covered: IP identification and QoS descriptors; SLConfigDescriptor with predefined 0 is modelled, no theorem speaks of it.
* Theorems: `C64_layout`, `C64_read`, `C64_read_back`, `C64_private`. Refuted: `C64_channels_refuted`, `C64_frequency_refuted`, `C64_object_refuted`, `C64_no_sl_refuted`, `C64_no_info_refuted`, `C64_private_refuted`.

### C65 The bit reader can be positioned anywhere

* Model (`Seek_model.v`): _set_position_read, _get_position, all branches of _skipbits and reload on the reader state of Bitstream_model; a wait with the lock held is a time-out.
* Proof: memory: invariant "the page holds the buffer from byte k to its end"; files: the invariant of C07 (Good) kept by every call, the cursor read off page start and bit cursor.
* Not covered: the last two pages of a file (C07 refutes plain reads there), skips past the reserve page (refuted).
* Theorems: `C65_memory`, `C65_file`, `C65_file_bytes`. Refuted: `C65_unaligned_refuted`, `C65_skip_refuted`, `C65_outstanding_refuted`.

### C66 What is written through a bit stream is what the memory or file holds

* Model (`Store_model.v`): the page writer of Bitstream_model emitting storage calls; fixed_memory_write over CBuffer_model; file writes issued with their own offset and carried out in any order.
* Proof: session invariant: abstract bits = storage bytes overwritten by the page bits; memory storage refines "overwrite at position"; disjoint file writes commute, induction over permutations.
* Not covered: the read side of fixed_memory_write, write errors.
* Theorems: `C66_memory`, `C66_file`, `C66_file_any_order`. Refuted: `C66_race_refuted`, `C66_unaligned_refuted`.

### C67 Demultiplexing a written movie gives every sample back

* Model (`Demux_model.v`): pick_sample, get_stream_offset and the loop over next_file_chunks with the bytes of each sample, on top of read_movie (C61) and walk (C53)
* Proof: composition of C61 and C53; the samples of every stream lie in ascending places (invariant of the interleaving loop), the streams together are a permutation of the body, and two lists sorted by place with the same elements are equal
* Not covered: tables are looked up before the loop instead of when a sample is reached; time code and text streams
* Theorems: `C67_demux`.

### C68 Opening any mp4 file ends

* Model (`Open_model.v`): one step per box of MP4Reader, CPM4Track, the four handlers and the sample entries, with do_box leaving the current box in place at the end of the file, and 64-bit ends of boxes
* Proof: a measure (bytes after the start of the box, then the function, then entries left) that every step from an honest box lowers; readers proved to move forward only
* Not covered: exceptions depending on the contents of avcC and esds boxes (the model goes on), the depth of the recursion (one stack frame per box)
* Theorems: `C68_ends`, `C68_forever`. Refuted: `C68_size_zero_refuted`, `C68_cut_refuted`.

### C69 Content protection signalling carries the key id and the data given

* Model (`Drm_model.v`): the three providers of cenc_provider.h on top of the base64, hexadecimal and box-writer models, pssh reading and writing; sizeof(wchar_t) is a parameter
* Proof: search in texts by what precedes and follows (the inserted texts avoid the first character of the mark), base64 by C01/C02, boxes by the box-writer lemmas, reading by reader combinators; bytes of a GUID and UUID by cases
* Not covered: the block cipher (any function); characters outside ASCII in the URL; XML escaping of the URL (a URL with < is excluded, the code does not escape)
* Theorems: `C69_kid_text`, `C69_playready_header`, `C69_playready_object`, `C69_playready_descriptor`, `C69_clearkey`, `C69_widevine`, `C69_all_systems`, `C69_pssh_back`, `C69_json_key`. Refuted: `C69_playready_object_refuted`, `C69_pssh_kids_refuted`, `C69_json_key_refuted`.

### C70 The AAC time correction: spacing, lag and drift of the times delivered

* Model (`AacFix_model.v`): the corrector once for any arithmetic, taken in binary64 (Flocq) and exactly (integers, in units of 1 / rate of 100 ns); add_sample with a corrector for each stream
* Proof: doubles: rounding error at most 1/2 below 2^53, monotone rounding, invariant on the time before; drift: the energy 2 D e + b^2 (error sum e, lead b, correction step D) is bounded by induction; gap: the lead grows by one step for each frame while the error sum lasts
* Not covered: drift in doubles (exact arithmetic only); x87 excess precision; stream numbers beyond MAX_STREAM
* Theorems: `C70_spaced`, `C70_never_behind`, `C70_first`, `C70_other_streams`, `C70_decoding`, `C70_regular`, `C70_jitter`. Refuted: `C70_gap_refuted`, `C70_gap_double_refuted`, `C70_back_refuted`.

### C71 Time codes: packing, sum, difference

* Model (`TimeCode_model.v`): TC with 32-bit arithmetic, the size of long a parameter; temporaries copied through the packed word as C++11 does
* Proof: clocks and frame counts in one-to-one correspondence (Euclidean division), every operation shown to be the operation on counts
* Not covered: GetTCHAR
* Theorems: `C71_counting`, `C71_packed`, `C71_words`, `C71_of_time`, `C71_sum`, `C71_next`, `C71_later`, `C71_difference`, `C71_difference_long32`. Refuted: `C71_of_time_refuted`, `C71_rate_refuted`, `C71_borrow_refuted`, `C71_long32_refuted`.

### C72 Linear time code receiver

* Model (`TimeCode_model.v`): the 80-bit shift register (words of 32 or 64 bits and a half-word)
* Proof: the register holds the number made of all bits pushed; fields by division; no window of 12 ones outside the sync word because each byte begins with a nibble with a zero
* Not covered: the audio demodulator CWaveParser (Windows only)
* Theorems: `C72_received`, `C72_sync`. Refuted: `C72_false_sync_refuted`.

### C73 The time code stream: what is stored and what is read back

* Model (`TimeCode_model.v`): queue_sample on (time, packed time code); get_interpolated_time_code on the track reader of TimeTab_model
* Proof: induction over the samples with the state after the one before; reading by C71 and the search lemmas of C51
* Not covered: storage of the 14 bytes of a sample; the stream offset is a parameter
* Theorems: `C73_record`, `C73_unbroken`, `C73_answer`. Refuted: `C73_midnight_refuted`, `C73_break_refuted`, `C73_rate_refuted`.

### C74 Reported start, end, mean duration and bit rate of a stream

* Model (`TrackTimes_model.v`): the time tables of TimeTab_model with the scans over 100 samples; the movie as the list of its tables
* Proof: sortedness of the presentation order; monotone decoding times make the window irrelevant
* Theorems: `C74_composed`, `C74_plain`, `C74_mean`, `C74_constant`, `C74_bit_rate`. Refuted: `C74_wrap_refuted`, `C74_bit_rate_refuted`, `C74_decoding_end_refuted`, `C74_decoding_end_plus_refuted`.

### C75 What a DASH manifest names is what was written

* Model (`Pres_model.v`): the streams by name, declaring, rebase, the whole manifest as text, the names of the files written; the player is a scanner of tags and attributes with template expansion
* Proof: each piece of text shown to emit its tags from outside of a tag; the player folded over the tags; names without underscores in numbers make file names one-to-one
* Not covered: content of the files; streams filled by Add (given as data)
* Theorems: `C75_resolves`, `C75_declared`, `C75_listed`, `C75_ids`, `C75_size`. Refuted: `C75_gap_refuted`, `C75_audio_ids_refuted`, `C75_size_refuted`, `C75_rate_refuted`.

### C76 What HLS playlists name is what was written

* Model (`HlsPres_model.v`): main.m3u8 and the media playlists (Hls_model) of the streams of Pres_model, names of the segments, numbers given to the cipher (HlsCrypt_model)
* Proof: the text of each playlist is its lines ended by LF or CR LF; URIs by filtering; CBC with another vector changes the first block only
* Not covered: content of the segments; the multiplexed audio
* Theorems: `C76_resolves`, `C76_declared`, `C76_main`. Refuted: `C76_iv_refuted`, `C76_audio_refuted`, `C76_two_videos_refuted`.

### C77 Dates and elapsed time

* Model (`Date_model.v`): Ctime field by field with unsigned arithmetic; the C library by the Gregorian calendar and a fixed zone
* Proof: the calendar shown to count days one by one; texts cut into fixed fields; constants compared modulo 2^32
* Not covered: summer time; sscanf (only what it stores); FILETIME
* Theorems: `C77_calendar`, `C77_utc_text`, `C77_local_text`, `C77_elapsed`, `C77_add`, `C77_of_text`. Refuted: `C77_torn_refuted`, `C77_local_refuted`, `C77_elapsed_refuted`, `C77_dates_refuted`, `C77_creation_refuted`, `C77_of_text_refuted`.

### C78 Smooth Streaming manifest

* Model (`Smooth_model.v`): SSFRenderer as text over the streams of Pres_model with files and cross points; the client is a scanner of tags with template expansion and summed starts
* Proof: each piece of text shown to emit its tags; the client folded over them; file names compared with those of Pres_model; files in force by the last key at or before
* Not covered: content of the files; the optional template without stream names (not used)
* Theorems: `C78_resolves`, `C78_levels`, `C78_private`, `C78_private_inj`, `C78_sources`, `C78_duration`. Refuted: `C78_chunks_refuted`, `C78_index_refuted`, `C78_cross_refuted`, `C78_quote_refuted`, `C78_short_refuted`.

### C79 Groups of files become one presentation: every chunk is read from its own file

* Model (`Fill_model.v`): begin_processing (both loops), publish_segmented_composition(_cross) as index operations, get_current_end, DynamicBitrate::Add, End; a file is its path, its bit rates, whether it opens and what its stream of a number says of itself
* Proof: induction over the groups: the files of a bit rate are its starts in order; the group in force at a time by the order of the ends; the index keeps both maps sorted and every crossing point has its parts
* Not covered: reading the files (other claims); more than one stream (handled alike, apart from each other); the points of a group as given
* Theorems: `C79_source`, `C79_rates`, `C79_publishable`, `C79_unknown`. Refuted: `C79_audio_refuted`, `C79_missing_refuted`, `C79_same_rate_refuted`, `C79_empty_refuted`, `C79_last_refuted`.

### C80 What the segments of a presentation made of several files hold

* Model (`Content_model.v`): the packaging loop over the index (every point but the last), the parts of each segment, their ends and files, the samples of each part by Cut_model, the base time
* Proof: the index of a filled stream computed (points appended, starts of files as set); a segment per point by get_end_original_time; neighbouring cuts of a sorted track joined; the end across a crossing point computed modulo 2^64
* Not covered: video tracks (their cuts: C54); the bytes of a fragment (C24, C25) and encryption
* Theorems: `C80_groups`, `C80_one_file`, `C80_base`. Refuted: `C80_before_cross_refuted`, `C80_cross_refuted`, `C80_twice_refuted`.

### C81 Copying a stream into another

* Model (`Copy_model.v`): copy_stream and its callbacks as a transition system: the copying thread (ten phases), reads completing in order, writes in any order, the callback of a write in two steps; counters modulo 2^32
* Proof: an invariant tying pieces on their way, the memory and the counters; a weight that falls with every step that is not a wait; bad schedules built for every input by induction on the weight
* Not covered: errors of the storages (exceptions on the loop thread); the event objects (C09) beyond a flag and a time out
* Theorems: `C81_copied`, `C81_bounded`, `C81_ends`, `C81_steps`. Refuted: `C81_early_refuted`, `C81_timeout_refuted`, `C81_to_refuted`, `C81_from_refuted`.

### C82 Files of fragments become one movie

* Model (`Defrag_model.v`): do_moof_mux as the list of calls on the writer: options taken, streams found, rounds over files and options, the samples of a file by the reader of C41, times converted in doubles (Flocq), marks
* Proof: per stream the rounds filtered to its files by induction; the writer and reader of fragments composed (C41); boxes unknown to the reader skipped; the double product bounded (C35)
* Not covered: reading the description files (C61, C64) and the key text (C14); what the movie writer does with the calls (C38, C61)
* Theorems: `C82_samples`, `C82_times`, `C82_bodies`, `C82_description`. Refuted: `C82_seconds_refuted`, `C82_two_streams_refuted`, `C82_fourth_refuted`, `C82_key_frames_refuted`.

### C83 An initialization segment describes its stream

* Model (`Init_model.v`): produce_m4f_initialization box by box with the writer of Box_model (positions patched on closing), the entry written plain or protected and plain, empty tables, and the streams made of codec private data; read by the reader of C61
* Proof: each writer call shown to append a box with its sizes; the boxes compared with those of the standards field by field; the reader run box by box over the same list (chains of boxes), skipping what it does not know
* Not covered: more than one stream; the four bytes of the time 2^32 s wrap in tkhd and mdhd (in the statement); mp4info.cpp, which passes the duration in 100 ns whatever the time scale
* Theorems: `C83_layout`, `C83_read`, `C83_private_video`, `C83_private_audio`. Refuted: `C83_duration_refuted`.

### C84 Listing the coded pictures of a track

* Model (`Slice_model.v`): the walk over the units of a sample, slice_header up to where it returns, sei_message and pic_timing, with the bit reader of Sps_model; members not read are unknown
* Proof: reader combinators: each syntax element read from its code whatever follows, composed along the syntax table of the standard; induction over the units of a sample
* Not covered: the header after the numbers of references (the code returns there); slice data partitions B and C (read as whole slices); the walk over the samples of the file (C53); text output
* Theorems: `C84_sample`, `C84_header`, `C84_timing`, `C84_coded`. Refuted: `C84_offset_refuted`, `C84_hrd_refuted`, `C84_type_refuted`, `C84_default_refuted`, `C84_field_refuted`, `C84_colour_refuted`, `C84_length_refuted`, `C84_second_refuted`.

### C85 Listing the groups of pictures

* Model (`Gop_model.v`): gop_list: the searches in the time and key frame tables (TimeTab_model) with the limit each leaves behind, the loop over times
* Proof: each search from a key frame's own time shown to find that key frame (tables of C36, C51; rounding of C54), the loop by induction over the later key frames
* Not covered: text output; choice of the stream
* Theorems: `C85_listing`, `C85_complete`. Refuted: `C85_twice_refuted`, `C85_stops_refuted`, `C85_no_table_refuted`.

### C86 Checking that the fragments hold every sample

* Model (`Validate_model.v`): using_sample_in_fragment and end_sample_in_fragment over the two arrays (16 entries, indices outside a distinct outcome), the calls made for a piece
* Proof: invariant: the arrays hold the last number and total of each stream after any calls; from it what each call reports; induction over pieces and files
* Not covered: the text written; assertions, which in a debug build end the program instead of a report; that the callback is compiled in only with _DEBUG
* Theorems: `C86_silent`, `C86_reports`, `C86_streams`, `C86_files`. Refuted: `C86_start_refuted`, `C86_end_refuted`, `C86_join_refuted`, `C86_twice_refuted`, `C86_empty_refuted`, `C86_streams_refuted`.

### C87 Listing the samples of a movie, and trying out decoding times

* Model (`Pick_model.v`): pick_samples and simulate_auto_decoding: the reader moved as in Cut_model, the loops with the flag of each stream, the largest distance, the totals
* Proof: the loop shown to be a prefix of what the reader of C53 walks over; the tables of move (C54) shown to leave a readable reader; the totals compared with the decoding times of C37, one gap lower
* Not covered: text output; samples without a place (streams of different lengths of tables)
* Theorems: `C87_all`, `C87_whole`, `C87_one`, `C87_order`, `C87_distance`, `C87_simul_times`, `C87_simul_default`, `C87_totals`, `C87_same`. Refuted: `C87_lost_refuted`, `C87_simul_extra_refuted`, `C87_low_refuted`, `C87_twice_refuted`.

### C88 What is written to a file and read from it

* Model (`Cfile_model.v`): cfile: the position and the size after each call, and the requests given to the system; the system carries requests out in any order
* Proof: requests which touch no common byte commute (lists compared byte by byte), then induction over the permutation; reads by induction over the row
* Not covered: opening, closing, errors of the system; order of the answers to reads (C08); the counts of outstanding requests
* Theorems: `C88_written`, `C88_created`, `C88_disjoint`, `C88_size`, `C88_read`, `C88_read_inside`. Refuted: `C88_twice_refuted`, `C88_short_refuted`, `C88_size_refuted`, `C88_grown_refuted`, `C88_again_refuted`.

### C89 From the command line to the calls on the editor

* Model (`MuxOpt_model.v`): do_mp4_mux and do_ts_mux: which calls on the editor are made for the values of the options, conversions of texts as scanf does them; the command line itself is CmdLine_model (C15)
* Proof: induction over the arguments: each leaves one more value of its option; each setting from its option, the clips by induction over the three rows of values
* Not covered: text output; what the calls do (C53-C62)
* Theorems: `C89_values`, `C89_clips`, `C89_ts_clips`, `C89_refused`, `C89_ts_output`, `C89_switch`, `C89_no_number`, `C89_declared`, `C89_letters`. Refuted: `C89_no_output_refuted`, `C89_video_scale_refuted`, `C89_bare_refuted`, `C89_ctts_refuted`, `C89_bad_time_refuted`, `C89_garbage_refuted`, `C89_help_refuted`, `C89_zero_refuted`.

### C90 Listing the time codes of a movie

* Model (`Ltc_model.v`): timecode2 over the tables of TimeTab_model: the two searches, the loop, the record of 14 bytes read at the place of the sample
* Proof: the search of C51 shown to be the sample looked up as defined from the durations alone; induction over the loop; little-endian numbers by induction
* Not covered: the summary; the line of the starting time code (C73); text output
* Theorems: `C90_rows`, `C90_looked_up`, `C90_record`, `C90_none`. Refuted: `C90_in_force_refuted`, `C90_after_refuted`, `C90_offset_refuted`, `C90_no_end_refuted`.

### C91 Files read and written synchronously, and segments encrypted in place

* Model (`Sync_model.v`): sync_file_bitstream over fopen, fread, fwrite, fseek, feof of the C library (long of 64 bits); hls_encrypt on it and on HlsCrypt_model
* Proof: induction over rows of reads (position, mark and what was handed on) and of writes; the encryption from the round trip of C30
* Not covered: errors of the system; files changed by others; where the C library keeps what was written until it is flushed
* Theorems: `C91_reads`, `C91_moved`, `C91_writes`, `C91_patched`, `C91_encrypted`, `C91_empty`. Refuted: `C91_end_refuted`, `C91_moved_far_refuted`, `C91_size_refuted`, `C91_large_refuted`.

### C92 Fragments made by other programs

* Model (`Foreign_model.v (specification only)`): read_file of Frag_model (MOOFReader, do_moof_mux); the layouts of ISO/IEC 14496-12 8.8 are written down a second time as what other programs may write
* Proof: each layout shown to be read field by field for every choice of the flags; the walk over the boxes one box at a time; induction over the file
* Not covered: uuid boxes (PIFF), vectors and sealed samples belong to C93; that a field left out keeps its value in the object rests on how the parser generator works, which is not in /repo
* Theorems: `C92_read`, `C92_letters`. Refuted: `C92_base_refuted`, `C92_two_runs_refuted`, `C92_trex_refuted`.

### C93 Encrypted fragments made by other programs

* Model (`Sealed_model.v`): the reader is Frag_model.v read_file (with decrypt of Cenc_model.v); Sealed_model.v only says what encrypted fragments of the standard are
* Proof: unlock_sample by induction on the parts with the block counter as invariant; senc, saiz and saio boxes read field by field (Reads), then the same induction over boxes and fragments as C92
* Not covered: constant vectors, scheme cbcs, protected parts in the middle that are not whole blocks (there the library keeps a position the model has not)
* Theorems: `C93_read`, `C93_sample`. Refuted: `C93_long_vectors_refuted`.

### C94 Fragments written follow the standard

* Model (`Conform_model.v (specification only)`): end_fragment of Frag_model; the layouts of ISO/IEC 14496-12 as Foreign_model has them, written down independently of the writer
* Proof: the bytes end_fragment_ok gives are shown equal to moof_of leaf by leaf, entry by entry, and the field bounds from room and times_ok; encrypted ones through locks_of, the samples as sealed ones, by induction on the samples
* Not covered: what the saiz and saio say (see C41_offsets); first_sample_flags of 32 bits and more
* Theorems: `C94_clear`, `C94_encrypted`, `C94_file_clear`, `C94_file_encrypted`.

## Trusted base

* Coq 8.16.1's kernel (with `vm_compute` in examples and in a few finite sweeps).
* The reading of the C++ source: the transcription was made by hand, the code is
  never built or run here. The simplifications are in the comments of the
  definitions and under "Not covered" above.
* `Print Assumptions`: "Closed under the global context" for every theorem but
  the ones of C35 which speak of doubles (`C35_double_conversion`,
  `C35_decoding`, `C35_composition`) those of C61 and C67, and of C82 but `C82_description`, whose files have times
  converted in doubles, and those of C70 but `C70_regular`, `C70_jitter` and
  `C70_gap_refuted`. These use Flocq, whose proofs are about
  the real numbers of the standard library, and so rest on the standard
  library's axioms: `ClassicalDedekindReals.sig_not_dec`,
  `ClassicalDedekindReals.sig_forall_dec`,
  `FunctionalExtensionality.functional_extensionality_dep` and
  `Classical_Prop.classic`. No axiom of another library and none of our own.
* No `Admitted`, `admit`, open obligation, functor, module type, disabled kernel
  check or plugin.

## What of the code is modelled

Cited in the models, by file under /repo/src/mg (or src/mgcli):

| file | modelled |
|------|----------|
| b64/cencode.c, cdecode.c | all (`Base64`) |
| bitstream headers and bitstream.cpp | reader, writer, paged refill, block read, little endian helpers (`Bitstream`) |
| core/file.cpp, core/file.h | asynchronous completion order (`FileOrder`); positions, sizes and requests (`Cfile`); with core/bitstream.cpp 33-220 copying (`Copy`) |
| core/thread.cpp (event), promises.h | `SignalEvent`, `Promise` |
| cbuffer.h, cresource.h | `CBuffer`, `CResource` |
| alxstring.h | split, replace, hex, substring, copy and aliasing (`Str`, `StrAlias`) |
| cmdline.h | option syntax (`CmdLine`) |
| media/hnano.h | `HNano` |
| media/wincrc.cpp | tables, slicing by 8 (`Crc`) |
| media/fixed_queue.h, media_queue.h 81-194 | ring buffer, growing queue (`FQueue`) |
| media/tswrite.h, media/ts.h, mp4/mpeg2ts.fl | PES, packets, PAT, PMT, reassembly (`Ts`, `TsTime`, `TsSect`) |
| media/h264nal.h | emulation prevention (`Nal`) |
| media/MediaJoin.h, mp4edit.cpp | joining (`Edit`) |
| media/mpd_renderer.h, hls_renderer.h, mp4dynamicinfo.h, mp4dynamic.h/.cpp | manifests, encryption, index, publishing (`Mpd`, `Hls`, `HlsCrypt`, `Points`, `Publish`, `Pres`, `HlsPres`, `Smooth`, `Fill`, `Content`) |
| media/mp4write.h, mp4mux.h | boxes, sample and time tables, decoding times, interleaving, edit list (`Box`, `SampleTab`, `TimeTab`, `Double`, `AutoDec`, `MuxQueue`, `Level`) |
| media/mp4parse.h | boxes, range table, sample and time tables, edit list (`Box`, `RangeMap`, `SampleTab`, `TimeTab`, `Level`); reading in file order 2408-2497, 2845-2985 (`Walk`); seek 2320-2326, 2998-3066 (`Cut`) |
| media/tsmux.h 78-355, tsparse.h 246-387, 452-546, mp4/aac.fl, tsinfo.cpp 190-326 | `Es` |
| media/tsparse.h 206-222, 390-436, 552-768, 838-899, ts.h 57-234, 799-918 | `TsDemux` |
| media/mp4mux.h 127-161, 271-283, 363-410, mp4write.h 378-418, 688-786, 1087-1148, 1332-1465, 1631-1645, 1737-1760, 2175-2325, mp4parse.h 1443-1530, 1602-1800, 1867-1965, 2050-2175, 2589-2700, mp4/mp4.fl | `Movie` |
| media/mp4/h264.fl 13-435, mp4/mp4.fl 562-648, mp4parse.h 1532-1599, mp4write.h 1814-2010 | `Sps` |
| core/bitstream.h 364-384, 666-832, 904-968, media/TBitstream.h 47-109 | `Seek` |
| core/bitstream.h 421-486, 834-899, media/TBitstream.h 113-240, cbuffer.h, core/file.cpp 352-403 | `Store` |
| media/mp4/mpeg4_odf.fl 56-353, 409-605, mp4/aac.fl 57-118, mp4write.h 2019-2087, mp4parse.h 1782-1804 | `Esds` |
| mp4parse.h 2374-2378, 2408-2431, 3252-3330, mp4fragmented.h 609-617 | `Demux`, `Walk` |
| mp4parse.h 290-314, 508-524, 547-585, 1443-1530, 1617-1667, 1761-1808, 1867-2047, 2071-2171, 2477-2499, 2613-2699 (where the reader goes), mp4/ltcextension.fl 15-21 | `Open` |
| mgcli/cenc_provider.h, media/mp4/cenc.fl 288-356, mgcli/mp4info.cpp 5330-5466 | `Drm` |
| media/aac_time_fix.h, mp4mux.h 253-263, 298-326 | `AacFix` |
| media/mp4parse.h 1365-1434, 2224-2253, 2872-2882 | `TrackTimes` |
| media/WaveParser.h 243-717, mp4write.h 1488-1577, mp4parse.h 3188-3267 | `TimeCode` |
| core/nx/ctime.cpp 29-394, core/ctime.h 30-144, mp4write.h 56 | `Date` |
| media/tsmux.h 357-757, tswrite.h 265-393, 569-655, tsinfo.cpp 190-326 | `Seg`, `Clock` (specification only) |
| media/mp4fragmented.h, MOOFReader.h, cenc.fl, mp4_fragments.fl, mp4info.cpp 3816-3900, 4053-4155 | `Cenc`, `Frag`; add_frames_to_m4f 571-690 `Cut`; produce_m4f_initialization 692-793 `Init` |
| mgcli/mp4info.cpp 3801-3809, 3903-4165 | `Defrag` |
| mgcli/mp4info.cpp 2907-2979 | `Gop` |
| mgcli/mp4info.cpp 2983-3123, media/mp4/h264.fl 605-725, 860-997 | `Slice` |
| mgcli/fragment_validation.h, media/mp4fragmented.h 601-604, 654-657, 685-688 | `Validate` |
| mgcli/mp4info.cpp 2579-2694, 2768-2905 | `Pick` |
| core/file.h 177-290, media/tsinfo.cpp 594-635 | `Sync` |
| mgcli/mp4info.cpp 3466-3620, media/mp4/ltcextension.fl 34-40 | `Ltc` |
| mgcli/mp4info.cpp 3694-3796, 4500-4563, media/tsinfo.cpp 638-705, alxstring.h 120-134, 684-735 | `MuxOpt` |

Not modelled: thread scheduling below the granularity of a lock (except where a
property is about it: C09, C12, C17), sockets and HTTP, logging and XML DOM
wrappers, the file system, the AES block cipher and random generator (any
function, any bytes), memory exhaustion (except where an allocation failure is a
case of the property: C18), audio codec headers, the command line tools besides
the parts cited, the Windows variants.
