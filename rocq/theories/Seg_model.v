(** Model of a segment of a transport stream with several streams: TSMux,
    /repo/src/mg/media/tsmux.h 357-618, over CTSWrite (tswrite.h 265-393, 569-655), and HLSMux,
    tsmux.h 632-757.  The bodies of the units are those of Es_model (tsmux.h 78-355), the packets
    those of Ts_model, the tables those of TsSect_model.
    Simplified: all streams are added before the first sample (the tables are made then and kept);
    set_stream_pcr, which nothing calls, is left out; the buffers are lists. *)
From Verif Require Import Util Bits_spec SampleTab_model Box_model TsTime_model Ts_model Crc_model TsSect_model Es_model TsDemux_model.
Local Open Scope Z_scope.

(** add_visual_stream 408-439, add_audio_stream 442-466, add_extension_ltc_stream 468-480 *)
Inductive strm := SVideo (sps pps : list Z) | SAudio (object rate chan : Z) | SEmpty.
(** 34, 427, 460, 477; tswrite.h 331 *)
Definition seg_pid (i : nat) : Z := 0x100 + Z.of_nat i.
Definition pmt_pid : Z := 0x1000.
(** [g_r2], [g_r3], [g_junk]: what is in the memory of members never set; [g_align]: addresses;
    _only_table_at_beginning, _presentation_offset, _decoding_offset 398-404 *)
Record config := mkG { g_streams : list strm; g_once : bool; g_present : Z; g_decode : Z; g_align : nat; g_r2 : Z; g_r3 : Z; g_junk : nat -> Z * Z }.
(** add_pam, tswrite.h 374-382, called with the number of the stream (430, 462): the entries of
    the arrays; for an empty stream nothing is called *)
Definition pmt_slot (junk : nat -> Z * Z) (i : nat) (s : strm) : Z * Z :=
  match s with SVideo _ _ => (0x1b, seg_pid i) | SAudio _ _ _ => (0x0f, seg_pid i) | SEmpty => junk i end.
Fixpoint pmt_slots (junk : nat -> Z * Z) (i : nat) (l : list strm) : list (Z * Z) :=
  match l with [] => [] | s :: l => pmt_slot junk i s :: pmt_slots junk (S i) l end.
(** section_length counts the calls (379), and the writer takes so many entries from the first
    one on (mpeg2ts.fl 1208-1250) *)
Definition carried (s : strm) : bool := match s with SEmpty => false | _ => true end.
Definition pmt_entries (g : config) : list (Z * Z) := firstn (length (filter carried (g_streams g))) (pmt_slots (g_junk g) 0 (g_streams g)).
(** _repeat_pid, 432-436: the first video stream *)
Fixpoint first_video (i : nat) (l : list strm) : option nat :=
  match l with [] => None | SVideo _ _ :: _ => Some i | _ :: l => first_video (S i) l end.
Definition pcr_pid_of (g : config) : Z := match first_video 0 (g_streams g) with Some i => seg_pid i | None => 0 end.

(** _continuity_counter; _is_first_sample *)
Record segst := mkSt { st_first : bool; st_cc : Z -> Z }.
Definition set_cc (f : Z -> Z) (p c : Z) : Z -> Z := fun q => if q =? p then c else f q.
(** set_section_continuity 483-486 (tswrite.h 614-619); 328, 339, 381 *)
Definition seg_start (continuity : Z) : segst := mkSt true (set_cc (set_cc (fun _ => 0) 0 continuity) pmt_pid continuity).
(** output_sections_tables, tswrite.h 569-612; None = a read outside a buffer *)
Definition put_tables (g : config) (cc : Z -> Z) : option (list (list Z) * (Z -> Z)) :=
  match output_ts 0 (write_pat (g_align g) (g_r2 g) (g_r3 g) [(1, pmt_pid)]) false None (cc 0) with
  | OverRead => None
  | Packets l1 c1 =>
    let cc := set_cc cc 0 c1 in
    match output_ts pmt_pid (write_pmt (g_align g) (g_r2 g) 1 (pcr_pid_of g) (pmt_entries g)) false None (cc pmt_pid) with
    | OverRead => None
    | Packets l2 c2 => Some (l1 ++ l2, set_cc cc pmt_pid c2)
    end
  end.

(** the arguments of add_sample 536-544 *)
Record call := mkCall { c_stream : nat; c_body : list Z; c_key : bool; c_comp : Z; c_dec : Z }.
(** UINT64_MAX stands for no time (tswrite.h 174-220) *)
Definition time_arg (t : Z) : option Z := if t =? 2 ^ 64 - 1 then None else Some t.
(** TSMuxH264Stream::add_sample 164-226, TSMuxAACStream::add_sample 290-349 (_pes_frames = 1),
    TSEmptyStream 64-76, with the offsets of 567: the unit, random access and PCR; None = a read
    outside the sample or a rate without code; Some None = nothing written *)
Definition call_unit (g : config) (c : call) : option (option (unit_t * bool * option Z)) :=
  let comp := time_arg (u64 (c_comp c + g_present g)) in
  let dec := time_arg (u64 (c_dec c + g_decode g)) in
  match nth_error (g_streams g) (c_stream c) with
  | None => None
  | Some (SVideo sps pps) => option_map (fun b => Some (mkunit 0 0 224 comp dec None b, c_key c, if c_key c then dec else None)) (access_unit sps pps (c_key c) (c_body c))
  | Some (SAudio object rate chan) => option_map (fun b => Some (mkunit 0 0 192 comp None None b, c_key c, None)) (aac_unit object rate chan (c_body c))
  | Some SEmpty => Some None
  end.
(** 551-553 *)
Definition tables_due (g : config) (s : segst) (c : call) : bool :=
  st_first s || (negb (g_once g) && match first_video 0 (g_streams g) with Some i => Nat.eqb i (c_stream c) | None => false end && c_key c).
(** add_sample 536-571 *)
Definition seg_add (g : config) (s : segst) (c : call) : option (list (list Z) * segst) :=
  match (if tables_due g s c then put_tables g (st_cc s) else Some ([], st_cc s)) with
  | None => None
  | Some (l1, cc) =>
    match call_unit g c with
    | None => None
    | Some None => Some (l1, mkSt false cc)
    | Some (Some (u, rai, pcr)) =>
      let pid := seg_pid (c_stream c) in
      match output_ts pid (u_bytes u) rai pcr (cc pid) with
      | OverRead => None
      | Packets l2 c2 => Some (l1 ++ l2, mkSt false (set_cc cc pid c2))
      end
    end
  end.
Fixpoint seg_adds (g : config) (s : segst) (l : list call) : option (list (list Z) * segst) :=
  match l with
  | [] => Some ([], s)
  | c :: l => match seg_add g s c with
              | None => None
              | Some (a, s) => match seg_adds g s l with None => None | Some (b, s) => Some (a ++ b, s) end
              end
  end.
(** stuff_streams 493-497, for the streams from number [i] on *)
Fixpoint stuff (i : nat) (l : list strm) (cc : Z -> Z) : option (list (list Z) * (Z -> Z)) :=
  match l with
  | [] => Some ([], cc)
  | _ :: l => match fill_pid (seg_pid i) (cc (seg_pid i)) with
              | None => None
              | Some (a, c) => match stuff (S i) l (set_cc cc (seg_pid i) c) with None => None | Some (b, cc) => Some (a ++ b, cc) end
              end
  end.
(** a segment: section continuity, samples, stuff_streams if [fill] *)
Definition segment (g : config) (continuity : Z) (l : list call) (fill : bool) : option (list Z) :=
  match seg_adds g (seg_start continuity) l with
  | None => None
  | Some (a, s) => if fill then match stuff 0 (g_streams g) (st_cc s) with None => None | Some (b, _) => Some (concat (a ++ b)) end else Some (concat a)
  end.

(** * HLSMux 632-757 *)
Definition int64_max : Z := 2 ^ 63 - 1.
(** _composition_start_time[0]: base_time, computed_offset; set_composition_start_time 735-745;
    without it both are 0 *)
Record hlsst := mkHls { h_base : Z; h_offset : Z }.
Definition hls_start (base : option Z) : hlsst := match base with Some b => mkHls b int64_max | None => mkHls 0 0 end.
(** add_sample 669-733: what TSMux::add_sample is called with *)
Definition hls_call (s : hlsst) (c : call) : hlsst * call :=
  let decoding_offset := u64 (c_comp c - c_dec c) in
  let s := if h_offset s =? int64_max then mkHls (h_base s) (u64 (h_base s - c_comp c)) else s in
  (s, mkCall (c_stream c) (c_body c) (c_key c) (u64 (c_comp c + h_offset s)) (u64 (c_comp c + h_offset s - decoding_offset))).
Fixpoint hls_calls (s : hlsst) (l : list call) : list call :=
  match l with [] => [] | c :: l => let '(s, c) := hls_call s c in c :: hls_calls s l end.

(** * Reading the samples of a stream: TS2MP4H264 and TS2MP4AAC, tsinfo.cpp 190-326, called by the
    demultiplexer; what they give to the mp4 file *)
Record sample := mkSample { s_body : list Z; s_key : bool; s_comp : option Z; s_dec : option Z }.
(** PacketEnd 201-217; None = an exception, or a sample for no stream *)
Fixpoint video_samples (s : vstate) (l : list devent) : option (list sample) :=
  match l with
  | [] => Some []
  | DUnit b f h :: l =>
    match read_access_unit s b with
    | Sample s x => option_map (cons (mkSample x (iframe f) (pts_of h) (dts_of h))) (video_samples s l)
    | _ => None
    end
  | DIncomplete :: l => video_samples s l
  | _ :: _ => None
  end.
(** AACPayload 291-318 on the frames of one unit: object type, rate, channels, sample *)
Fixpoint unit_samples (h : option pes) (i : nat) (l : list (adts * list Z)) : option (list (Z * Z * Z * sample)) :=
  match l with
  | [] => Some []
  | (a, f) :: l =>
    match pts_of h with
    | None => None
    | Some t => match aac_time t (a_rate a) i with
                | None => None
                | Some (t, _) => option_map (cons (a_object a, a_rate a, a_chan a, mkSample f true (Some t) (Some t))) (unit_samples h (S i) l)
                end
    end
  end.
Fixpoint audio_samples (l : list devent) : option (list (Z * Z * Z * sample)) :=
  match l with
  | [] => Some []
  | DUnit b f h :: l => match unit_samples h 0 (frames_of b) with Some a => option_map (app a) (audio_samples l) | None => None end
  | DIncomplete :: l => audio_samples l
  | _ :: _ => None
  end.
(** a segment read by the demultiplexer: the events of stream [i] *)
Definition stream_events (align : nat) (i : nat) (b : list Z) : list devent := of_pid (seg_pid i) (dm_run align dm0 (get_packets (length b) b)).

(** * Specification vocabulary *)
(** the calls for one stream *)
Definition calls_of (i : nat) (l : list call) : list call := filter (fun c => Nat.eqb (c_stream c) i) l.
(** the bytes of an access unit: delimiter, parameter sets with a key frame, the sample *)
Definition video_bytes (sps pps : list Z) (c : call) : Z := 6 + (if c_key c then 8 + zlen sps + zlen pps else 0) + zlen (c_body c).
(** it fits in a unit of declared length, or its length is left open *)
Definition short_video (sps pps : list Z) (c : call) : Prop := 13 + video_bytes sps pps c <= 65535.
Definition long_video (sps pps : list Z) (c : call) : Prop := 65535 <= video_bytes sps pps c.
(** streams of an mp4 file: none of time codes *)
Definition strm_ok (s : strm) : Prop :=
  match s with
  | SVideo sps pps => is_nal sps /\ is_nal pps /\ nal_type sps = 7 /\ nal_type pps = 8
  | SAudio object rate chan => 1 <= object <= 4 /\ In rate rates /\ In chan channels
  | SEmpty => False
  end.
(** a sample for one of the streams: pictures of a size the packet writer does not over-read (C23), or
    an audio frame, at times the stamps can hold *)
Definition call_ok (g : config) (c : call) : Prop :=
  match nth_error (g_streams g) (c_stream c) with
  | Some (SVideo sps pps) =>
    (exists us, c_body c = avcc us /\ Forall (fun u => is_nal u /\ ~ In (nal_type u) [7; 8; 9]) us)
    /\ (c_key c = true -> video_bytes sps pps c <> 156) /\ (short_video sps pps c \/ long_video sps pps c)
    /\ fits (c_comp c + g_present g) /\ fits (c_dec c + g_decode g)
  | Some (SAudio _ _ _) => is_frame (c_body c) /\ (c_key c = true -> zlen (c_body c) <> 160) /\ fits (c_comp c + g_present g)
  | _ => False
  end.
(** the first sample of a video stream is a key frame, and it and the first of an audio stream are
    not too small for the reader (C57) *)
Definition starts_ok (g : config) (l : list call) : Prop := forall i s, nth_error (g_streams g) i = Some s ->
  match s, calls_of i l with
  | SVideo sps pps, c :: _ => c_key c = true /\ 81 <= video_bytes sps pps c
  | SAudio _ _ _, c :: _ => 9 <= zlen (c_body c)
  | _, _ => True
  end.
Definition segment_ok (g : config) (l : list call) : Prop :=
  Forall strm_ok (g_streams g) /\ (length (g_streams g) <= 33)%nat /\ Forall (call_ok g) l /\ starts_ok g l /\ l <> [].
(** the sample as it is read back *)
Definition video_back (g : config) (c : call) : sample := mkSample (c_body c) (c_key c) (Some (stamped (c_comp c + g_present g))) (Some (stamped (c_dec c + g_decode g))).
Definition audio_back (g : config) (object rate chan : Z) (c : call) : Z * Z * Z * sample :=
  let t := Some (stamped (c_comp c + g_present g)) in (object, rate, chan, mkSample (c_body c) true t t).
(** the same sample, but for the key flag *)
Definition same_times (a b : sample) : Prop := s_body a = s_body b /\ s_comp a = s_comp b /\ s_dec a = s_dec b.
(** the sample with its times moved by [d] *)
Definition moved (d : Z) (c : call) : call := mkCall (c_stream c) (c_body c) (c_key c) (c_comp c + d) (c_dec c + d).
(** the continuity counters of a PID (byte 3 of a packet; PID in bytes 1 and 2) in order of the packets *)
Definition counters (pid : Z) (ps : list (list Z)) : list Z := map iso_cc (filter (fun p => iso_pid p =? pid) ps).
(** they are successive *)
Definition successive (l : list Z) : Prop := forall i a b, nth_error l i = Some a -> nth_error l (S i) = Some b -> b = (a + 1) mod 16.
