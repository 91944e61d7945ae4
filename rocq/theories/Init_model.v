(** Model of the making of an initialization segment, CMP4Fragment::produce_m4f_initialization of
    /repo/src/mg/media/mp4fragmented.h 692-793, with what it uses of MP4Write and CMP4Stream
    (mp4write.h 346-419, 642-684, 1018-1028, 1086-1148, 1357-1470, 1769-1794, 2187-2244): one stream
    without samples, with a key id or without.  CENC and FRAGMENTEDSTYPTRUE are defined (mgmedia.h
    29-39).  The boxes go through the writer of Box_model, tables and headers are those of
    SampleTab_model, TimeTab_model and Movie_model; the configuration made of codec private data is
    that of Sps_model and Esds_model; the segment is read by Movie_model.read_movie.  Simplified:
    MP4NOW() is the same number [now] each time. *)
From Coq Require Import String.
From Verif Require Import Util Str_model SampleTab_model TimeTab_model Double_model Box_model Frag_model Movie_model.
From Verif Require Bits_spec Bitstream_model Sps_model Esds_model.
Local Open Scope Z_scope.

(** box types mp4_fragments.fl 8-10, cenc.fl 15-29 *)
Definition MVEX := BOX 109 118 101 120.
Definition MEHD := BOX 109 101 104 100.
Definition TREX := BOX 116 114 101 120.
Definition SINF := BOX 115 105 110 102.
Definition FRMA := BOX 102 114 109 97.
Definition SCHM := BOX 115 99 104 109.
Definition SCHI := BOX 115 99 104 105.
Definition TENC := BOX 116 101 110 99.
Definition ENCV := BOX 101 110 99 118.
Definition CENC := BOX 99 101 110 99.
(** set_ftyp and add_brand 740-745 *)
Definition init_ftyp : list Z := words [BOX 105 115 111 109; 0; BOX 105 115 111 56; BOX 109 112 52 49; BOX 100 97 115 104; BOX 97 118 99 49; BOX 99 109 102 115].
(** MovieHeaderBox mp4.fl 206-275, version 1 (749): V64 splits in two words *)
Definition mvhd1_body (now ts duration next : Z) : list Z :=
  full 1 0 ++ words [u32 (now / 2 ^ 32); u32 now; u32 (now / 2 ^ 32); u32 now; u32 ts; u32 (duration / 2 ^ 32); u32 duration; 65536] ++ be 2 256 ++ be 2 0 ++ words [0; 0] ++ matrix ++ words [0; 0; 0; 0; 0; 0; u32 next].
(** write_protected_sinf 347-388: OriginalFormatBox, SchemeTypeBox, TrackEncryptionBox (cenc.fl
    50-126, version 0, protected, initialization vectors of 8 bytes) *)
Definition tenc_body (kid : list Z) : list Z := full 0 0 ++ be 1 0 ++ be 1 0 ++ be 1 1 ++ be 1 8 ++ kid.
Definition write_sinf (format : Z) (kid : list Z) (w : wr) : option wr :=
  next (close_box (put (be32 format) (open_box FRMA (open_box SINF w)))) (fun w =>
  next (close_box (put (full 0 0 ++ be32 CENC ++ be32 65536) (open_box SCHM w))) (fun w =>
  next (close_box (put (tenc_body kid) (open_box TENC (open_box SCHI w)))) (fun w =>
  next (close_box w) close_box))).
(** write_stream_entry 1357-1409, 1439-1470 when has_cenc_id() *)
Definition write_protected (c : codec) (kid : list Z) (w : wr) : option wr :=
  match c with
  | Video width height name body =>
    next (write_sinf AVC1 kid (put (visual_entry width height name) (open_box ENCV w))) (fun w => next (close_box (put body (open_box AVCC w))) close_box)
  | Audio rate channels body => next (write_sinf MP4A kid (put body (put (audio_entry rate channels) (open_box ENCA w)))) close_box
  end.
(** write_stsd 392-419: with a key id the entry is written twice, protected and plain *)
Definition init_stsd (c : codec) (key : option (list Z)) (w : wr) : option wr :=
  match key with
  | None => next (write_entry c (put (full 0 0 ++ be32 1) (open_box STSD w))) close_box
  | Some kid => next (write_protected c kid (put (full 0 0 ++ be32 2) (open_box STSD w))) (fun w => next (write_entry c w) close_box)
  end.
(** write_stbl 776-789 without samples, _allow_empty_stream *)
Definition init_stbl (c : codec) (ts : Z) (key : option (list Z)) (w : wr) : option wr :=
  let tables := SampleTab_model.write_all [] in
  next (init_stsd c key (open_box STBL w)) (fun w =>
  let w := put (words (write_stts (time_scale ts) (get_hnano ts) true [])) w in
  let w := put (words (write_ctts (time_scale ts) false 0 [])) w in
  next (write_stsc true []) (fun stsc =>
  let w := put (words (write_stsz tables)) (put (words stsc) w) in
  next (close_box (put (full 0 0 ++ be32 0) (open_box box_stco w))) (fun w =>
  let w := put (words (write_stss [])) w in
  close_box w))).
(** _lang of the constructor 932-935 *)
Definition und : Z * Z * Z := (117, 110, 100).
(** write_stream 1086-1148; get_duration() is 0 (1024), there is no offset and so no edit list *)
Definition init_stream (now : Z) (c : codec) (ts id : Z) (key : option (list Z)) (w : wr) : option wr :=
  let w := open_box TRAK w in
  let '(volume, width, height) := match c with Video width height _ _ => (0, width, height) | Audio _ _ _ => (256, 0, 0) end in
  let w := child_box TKHD (tkhd_body now (id + 1) (time_scale ts 0 + time_scale ts 0) volume width height) w in
  let w := open_box MDIA w in
  let w := child_box MDHD (mdhd_body now ts (time_scale ts 0) und) w in
  let w := child_box HDLR (hdlr_body (if visual c then VIDE else SOUN)) w in
  let w := open_box MINF w in
  let w := if visual c then child_box VMHD vmhd_body w else child_box SMHD smhd_body w in
  let w := child_box URL (full 0 1) (put (full 0 0 ++ be32 1) (open_box DREF (open_box DINF w))) in
  next (close_box w) (fun w => next (close_box w) (fun w =>
  next (init_stbl c ts key w) (fun w =>
  next (close_box w) (fun w => next (close_box w) close_box)))).
(** produce_m4f_initialization 728-790, once the stream is there; [id] = track_id, [key] = pKid,
    [pssh] = ppssh.  _first_track_id and the stream's id are id - 1 (728-729), the movie's next
    track id is _first_track_id + 1 + 1 (2228); MovieExtendsHeaderBox has version 0 (758-761,
    mp4_fragments.fl 39-52). *)
Definition init (now : Z) (c : codec) (ts id duration : Z) (key pssh : option (list Z)) : option (list Z) :=
  let w := child_box FTYP init_ftyp (mkW [] 0 []) in
  let w := child_box MVHD (mvhd1_body now ts (time_scale ts 0) (id - 1 + 1 + 1)) (open_box MOOV w) in
  next (init_stream now c ts (id - 1) key w) (fun w =>
  let w := child_box TREX (full 0 0 ++ words [u32 id; 1; 0; 0; 0]) (child_box MEHD (full 0 0 ++ be32 (u32 duration)) (open_box MVEX w)) in
  next (close_box w) (fun w =>
  next (close_box (match pssh with Some b => put b w | None => w end)) (fun w => Some (w_file w)))).
(** 714-719: the stream out of codec private data (mp4write.h 1981-2002, 1866-1976 and 2074-2087,
    2019-2070).  [name]: the 31 bytes of compressorname, which nobody sets.  UB: the lengths go
    beyond the data, or the sets beyond their arrays. *)
Definition video_stream (name data : list Z) : Bitstream_model.outcome codec :=
  match Sps_model.split_private data with
  | None => Bitstream_model.UB
  | Some (sps, pps) => Bitstream_model.bindo (Sps_model.record_of sps pps) (fun r => let '(w, h, body) := r in Bitstream_model.Ok (Video w h name body))
  end.
Definition audio_stream (data : list Z) (bitrate : Z) : Bitstream_model.outcome (option codec) :=
  Bitstream_model.bindo (Esds_model.get_aac (Bits_spec.bytes_bits data)) (fun r => let a := fst r in
  Bitstream_model.Ok (option_map (Audio (Esds_model.c_rate a) (Esds_model.c_chan a)) (Esds_model.add_audio (Esds_model.c_object a) (Esds_model.c_rate a) (Esds_model.c_chan a) bitrate))).

(** * Specification vocabulary *)
(** a four character code *)
Definition four (s : string) : Z := fold_left (fun a c => a * 256 + c) (str s) 0.
(** the identity matrix of ISO/IEC 14496-12, 8.2.2 *)
Definition unity : list Z := be 4 0x10000 ++ be 12 0 ++ be 4 0x10000 ++ be 12 0 ++ be 4 0x40000000.
(** a protected sample entry says what it was, that the scheme is 'cenc' version 1.0, and which key
    it needs (ISO/IEC 14496-12, 8.12 and ISO/IEC 23001-7, 8.2): initialization vectors of 8 bytes *)
Definition sinf_box (format : string) (kid : list Z) : item :=
  Node (four "sinf") [Leaf (four "frma") (str format); Leaf (four "schm") (be 4 0 ++ str "cenc" ++ be 4 0x10000); Node (four "schi") [Leaf (four "tenc") (be 4 0 ++ [0; 0; 1; 8] ++ kid)]].
(** sample entries of ISO/IEC 14496-12, 8.5.2: with [kid], protected *)
Definition video_fields (w h : Z) (name : list Z) : list Z :=
  be 6 0 ++ be 2 1 ++ be 16 0 ++ be 2 w ++ be 2 h ++ be 4 72 ++ be 4 72 ++ be 4 0 ++ be 2 1 ++ [0] ++ name ++ be 2 0 ++ be 2 0xFFFF.
Definition audio_fields (rate channels : Z) : list Z := be 6 0 ++ be 2 1 ++ be 8 0 ++ be 2 channels ++ be 2 16 ++ be 4 0 ++ be 4 (rate * 65536).
Definition plain_entry (c : codec) : item :=
  match c with
  | Video w h name b => Node (four "avc1") [Raw (video_fields w h name); Leaf (four "avcC") b]
  | Audio rate channels b => Node (four "mp4a") [Raw (audio_fields rate channels); Raw b]
  end.
Definition protected_entry (c : codec) (kid : list Z) : item :=
  match c with
  | Video w h name b => Node (four "encv") [Raw (video_fields w h name); sinf_box "avc1" kid; Leaf (four "avcC") b]
  | Audio rate channels b => Node (four "enca") [Raw (audio_fields rate channels); Raw b; sinf_box "mp4a" kid]
  end.
Definition is_video (c : codec) : bool := match c with Video _ _ _ _ => true | Audio _ _ _ => false end.
Definition size_of (c : codec) : Z * Z := match c with Video w h _ _ => (w, h) | Audio _ _ _ => (0, 0) end.
(** the boxes of an initialization segment (ISO/IEC 14496-12, 8.8 and ISO/IEC 23009-1, 6.3.4.2) for
    one track, with the bytes [pssh] at the end of the movie box *)
Definition init_boxes (now : Z) (c : codec) (ts id duration : Z) (key : option (list Z)) (pssh : list Z) : list item :=
  let time := now mod 2 ^ 32 in
  [ Leaf (four "ftyp") (str "isom" ++ be 4 0 ++ str "iso8" ++ str "mp41" ++ str "dash" ++ str "avc1" ++ str "cmfs");
    Node (four "moov") (
      [ Leaf (four "mvhd") ([1; 0; 0; 0] ++ be 8 now ++ be 8 now ++ be 4 ts ++ be 8 0 ++ be 4 0x10000 ++ be 2 0x100 ++ be 10 0 ++ unity ++ be 24 0 ++ be 4 (id + 1));
        Node (four "trak") [
          Leaf (four "tkhd") ([0; 0; 0; 1] ++ be 4 time ++ be 4 time ++ be 4 id ++ be 4 0 ++ be 4 0 ++ be 12 0 ++ be 2 (if is_video c then 0 else 0x100) ++ be 2 0 ++ unity
                              ++ be 4 (fst (size_of c) * 0x10000) ++ be 4 (snd (size_of c) * 0x10000));
          Node (four "mdia") [
            Leaf (four "mdhd") (be 4 0 ++ be 4 time ++ be 4 time ++ be 4 ts ++ be 4 0 ++ be 2 ((117 - 96) * 1024 + (110 - 96) * 32 + (100 - 96)) ++ be 2 0);
            Leaf (four "hdlr") (be 8 0 ++ str (if is_video c then "vide" else "soun") ++ be 12 0 ++ str "FOUNDATION MEDIA HANDLER" ++ [0]);
            Node (four "minf") [
              (if is_video c then Leaf (four "vmhd") (be 12 0) else Leaf (four "smhd") (be 8 0));
              Node (four "dinf") [Node (four "dref") [Raw (be 4 0 ++ be 4 1); Leaf (four "url ") [0; 0; 0; 1]]];
              Node (four "stbl") [
                Node (four "stsd") (match key with None => [Raw (be 4 0 ++ be 4 1); plain_entry c] | Some kid => [Raw (be 4 0 ++ be 4 2); protected_entry c kid; plain_entry c] end);
                Leaf (four "stts") (be 8 0); Leaf (four "stsc") (be 8 0); Leaf (four "stsz") (be 12 0); Leaf (four "stco") (be 8 0)]]]];
        Node (four "mvex") [
          Leaf (four "mehd") (be 4 0 ++ be 4 (duration mod 2 ^ 32));
          Leaf (four "trex") (be 4 0 ++ be 4 id ++ be 4 1 ++ be 12 0)];
        Raw pssh ]) ].
(** boxes with the protection systems' data (ISO/IEC 23001-7, 8.1), as bytes; none *)
Definition pssh_boxes (l : list (list Z)) : list Z := List.concat (map (fun b => be 4 (8 + zlen b) ++ str "pssh" ++ b) l).
Definition given (l : list (list Z)) : option (list Z) := match l with [] => None | _ => Some (pssh_boxes l) end.
(** the stream's entries as read: the plain one, and before it the protected one if there is a key.
    The reader keeps all that follows the fields of an audio entry as its body. *)
Definition same_protected (c : codec) (kid : list Z) (e : entry) : Prop :=
  match c with
  | Video _ _ _ _ => same_entry c e
  | Audio r ch b => same_entry (Audio r ch (b ++ layout (sinf_box "mp4a" kid))) e /\ forall object rate chan, audio_config b object rate chan ->
      e = AudioEntry r ch (b ++ layout (sinf_box "mp4a" kid)) (Some (Esds_model.mkAac object rate chan))
  end.
Definition entries_of (c : codec) (key : option (list Z)) (es : list entry) : Prop :=
  match key with
  | None => exists e, es = [e] /\ same_entry c e
  | Some kid => exists p e, es = [p; e] /\ same_protected c kid p /\ same_entry c e
  end.
(** a key id of 16 bytes; an audio stream with a key has a configuration *)
Definition key_ok (c : codec) (key : option (list Z)) : Prop :=
  match key with None => True | Some kid => List.length kid = 16%nat /\ bytes kid /\ match c with Audio _ _ [] => False | _ => True end end.
(** a stream without samples *)
Definition no_samples (x : rtrack) : Prop :=
  t_times (x_track x) = [] /\ t_keys (x_track x) = None /\ p_count (x_tables x) = 0 /\ p_sizes (x_tables x) = [] /\ p_chunks (x_tables x) = [] /\ x_duration x = 0 /\ x_offset x = 0.
