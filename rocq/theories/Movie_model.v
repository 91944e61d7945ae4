(** Model of finishing an mp4 file, MP4Mux::end and flush_all of /repo/src/mg/media/mp4mux.h
    127-161, 271-283, 363-410 with MP4Write::write_ftyp, write_moov, rebase_streams, open_mdat and
    CMP4Stream::write_stream of mp4write.h 378-418, 688-786, 1087-1148, 1332-1387, 1420-1465,
    1631-1645, 1737-1760, 2175-2245, 2320-2325, and of opening it, MP4Reader::parse, CPM4Track and
    CMP4Handler of mp4parse.h 1443-1530, 1602-1800, 1867-1965, 2050-2175, 2589-2700; the boxes are
    those of media/mp4/mp4.fl.  The boxes go through the writer and reader of Box_model, the tables
    are those of SampleTab_model and TimeTab_model, the edit list is that of Level_model, and ticks
    are computed in doubles (Double_model); the decoder configurations are read by Sps_model and
    Esds_model.  CENC and FRAGMENTEDSTYPTRUE are defined (mgmedia.h
    29-39).  Not modelled: time code streams (uuid boxes are skipped), text streams (None),
    encryption, streams that may be
    empty, automatic decoding times, the copying of the two parts into the file. *)
From Verif Require Import Util RangeMap_model SampleTab_model MuxQueue_model TimeTab_model Double_model Box_model Frag_model Level_model.
From Verif Require Bits_spec Bitstream_model Sps_model Esds_model.
Local Open Scope Z_scope.

(** box types and handlers (mp4.fl 29-76, 91-92) *)
Definition FTYP := BOX 102 116 121 112.
Definition MOOV := BOX 109 111 111 118.
Definition MVHD := BOX 109 118 104 100.
Definition TRAK := BOX 116 114 97 107.
Definition TKHD := BOX 116 107 104 100.
Definition EDTS := BOX 101 100 116 115.
Definition ELST := BOX 101 108 115 116.
Definition MDIA := BOX 109 100 105 97.
Definition MDHD := BOX 109 100 104 100.
Definition HDLR := BOX 104 100 108 114.
Definition MINF := BOX 109 105 110 102.
Definition VMHD := BOX 118 109 104 100.
Definition SMHD := BOX 115 109 104 100.
Definition DINF := BOX 100 105 110 102.
Definition DREF := BOX 100 114 101 102.
Definition URL := BOX 117 114 108 32.
Definition STBL := BOX 115 116 98 108.
Definition STSD := BOX 115 116 115 100.
Definition AVC1 := BOX 97 118 99 49.
Definition AVCC := BOX 97 118 99 67.
Definition MP4A := BOX 109 112 52 97.
Definition ENCA := BOX 101 110 99 97.
Definition IODS := BOX 105 111 100 115.
Definition META := BOX 109 101 116 97.
Definition BTRT := BOX 98 116 114 116.
Definition PASP := BOX 112 97 115 112.
Definition VIDE := BOX 118 105 100 101.
Definition SOUN := BOX 115 111 117 110.

(** * Writing *)
(** a stream's entry (mp4parse.h 1692-1724, 1806-1822).  Video: [name] is the 31 bytes of
    compressorname, which nobody sets; [body] what goes in the avcC box.  Audio: [body] is the
    esds box. *)
Inductive codec := Video (width height : Z) (name body : list Z) | Audio (rate channels : Z) (body : list Z).
Definition visual (c : codec) : bool := match c with Video _ _ _ _ => true | Audio _ _ _ => false end.
(** a stream when the file is finished: its entry, _time_scale, _lang, the samples written
    (composition and decoding time, with the offsets: Level_model), where they are in the body
    and their sizes, and which were marked as key frames *)
Record wtrack := mkTr { k_codec : codec; k_ts : Z; k_lang : Z * Z * Z; k_level : Level_model.stream; k_places : list (Z * Z); k_keys : list bool }.

(** 32-bit fields one after the other (write_uint) *)
Definition words (ws : list Z) : list Z := concat (map be32 ws).
(** the identity matrix of tkhd and mvhd *)
Definition matrix : list Z := words [65536; 0; 0; 0; 65536; 0; 0; 0; 1073741824].
(** FileTypeBox of 1757-1763 *)
Definition ftyp_body : list Z := words [BOX 105 115 111 109; 512; BOX 105 115 111 109; BOX 105 115 111 50; BOX 97 118 99 49; BOX 109 112 52 49].
(** MovieHeaderBox mp4.fl 206-275, version 0 *)
Definition mvhd_body (now ts duration next : Z) : list Z :=
  full 0 0 ++ words [u32 now; u32 now; u32 ts; u32 duration; 65536] ++ be 2 256 ++ be 2 0 ++ words [0; 0] ++ matrix ++ words [0; 0; 0; 0; 0; 0; u32 next].
(** TrackHeaderBox 277-361, version 0 *)
Definition tkhd_body (now id duration volume width height : Z) : list Z :=
  full 0 1 ++ words [u32 now; u32 now; u32 id; 0; u32 duration; 0; 0] ++ be 2 0 ++ be 2 0 ++ be 2 volume ++ be 2 0 ++ matrix ++ be 2 (width mod 2 ^ 16) ++ be 2 0 ++ be 2 (height mod 2 ^ 16) ++ be 2 0.
(** MediaHeaderBox 364-427, version 0; a letter is 5 bits *)
Definition letter (c : Z) : Z := (c - 96) mod 32.
Definition mdhd_body (now ts duration : Z) (lang : Z * Z * Z) : list Z :=
  let '(a, b, c) := lang in full 0 0 ++ words [u32 now; u32 now; u32 ts; u32 duration] ++ be 2 (letter a * 1024 + letter b * 32 + letter c) ++ be 2 0.
(** HandlerBox 429-504: "FOUNDATION MEDIA HANDLER" *)
Definition hdlr_body (handler : Z) : list Z :=
  full 0 0 ++ words [0; handler; 0; 0; 0] ++ [70; 79; 85; 78; 68; 65; 84; 73; 79; 78; 32; 77; 69; 68; 73; 65; 32; 72; 65; 78; 68; 76; 69; 82; 0].
(** VideoMediaHeaderBox, SoundMediaHeaderBox 829-860 *)
Definition vmhd_body : list Z := full 0 0 ++ be 2 0 ++ be 2 0 ++ be 2 0 ++ be 2 0.
Definition smhd_body : list Z := full 0 0 ++ be 2 0 ++ be 2 0.
(** SampleEntry, VisualSampleEntry 521-567 with size 0, depth 0 *)
Definition visual_entry (width height : Z) (name : list Z) : list Z :=
  be 6 0 ++ be 2 1 ++ be 2 0 ++ be 2 0 ++ words [0; 0; 0] ++ be 2 (width mod 2 ^ 16) ++ be 2 (height mod 2 ^ 16) ++ words [72; 72; 0] ++ be 2 1 ++ be 1 0 ++ name ++ be 2 0 ++ be 2 65535.
(** AudioSampleEntry 667-684 *)
Definition audio_entry (rate channels : Z) : list Z :=
  be 6 0 ++ be 2 1 ++ words [0; 0] ++ be 2 (channels mod 2 ^ 16) ++ be 2 16 ++ be 2 0 ++ be 2 0 ++ be32 (u32 (rate * 2 ^ 16)).

(** calls that may fail, one after the other *)
Definition next {A B} (m : option A) (k : A -> option B) : option B := match m with Some x => k x | None => None end.
(** write_stream_entry 1332-1387, 1420-1450 *)
Definition write_entry (c : codec) (w : wr) : option wr :=
  match c with
  | Video width height name body => next (close_box (put body (open_box AVCC (put (visual_entry width height name) (open_box AVC1 w))))) close_box
  | Audio rate channels body => close_box (put body (put (audio_entry rate channels) (open_box MP4A w)))
  end.
(** write_stsd 378-418 *)
Definition write_stsd (c : codec) (w : wr) : option wr := next (write_entry c (put (full 0 0 ++ be32 1) (open_box STSD w))) close_box.
(** write_stco_body 723-732: the places of the chunks, moved by [mdat] *)
Definition stco_words (t : wtrack) (mdat : Z) : list Z := words (map (fun c => u32 (fst c + mdat)) (w_chunks (SampleTab_model.write_all (k_places t)))).
(** write_stco 737-751, and _stco_position *)
Definition write_stco (t : wtrack) (w : wr) : option (wr * Z) :=
  let w := put (full 0 0 ++ be32 (u32 (Z.of_nat (length (w_chunks (SampleTab_model.write_all (k_places t))))))) (open_box box_stco w) in
  let position := w_pos w in
  next (close_box (put (stco_words t 0) w)) (fun w => Some (w, position)).
(** write_stbl 776-789 *)
Definition write_stbl (t : wtrack) (w : wr) : option (wr * Z) :=
  let l := l_samples (k_level t) in
  let scale := time_scale (k_ts t) in
  let tables := SampleTab_model.write_all (k_places t) in
  next (write_stsd (k_codec t) (open_box STBL w)) (fun w =>
  let w := put (words (write_stts scale (get_hnano (k_ts t)) false (map snd l))) w in
  let w := put (words (write_ctts scale (has_composition l) (l_ctts (k_level t)) l)) w in
  next (write_stsc false (map snd (w_chunks tables))) (fun stsc =>
  let w := put (words (write_stsz tables)) (put (words stsc) w) in
  next (write_stco t w) (fun r => let '(w, position) := r in
  let w := put (words (write_stss (if visual (k_codec t) then iframes 0 (k_keys t) else []))) w in
  next (close_box w) (fun w => Some (w, position))))).
(** write_edts 688-716 *)
Definition edts (mvts : Z) (t : wtrack) (w : wr) : option wr :=
  match write_edts (time_scale mvts) (k_level t) with
  | None => Some w
  | Some body => next (close_box (put body (open_box ELST (open_box EDTS w)))) close_box
  end.
(** write_stream 1087-1148; [id] = _stream_id *)
Definition write_stream (now mvts : Z) (t : wtrack) (id : Z) (w : wr) : option (wr * Z) :=
  let w := open_box TRAK w in
  let duration := stream_duration (k_level t) in
  let '(volume, width, height) := match k_codec t with Video width height _ _ => (0, width, height) | Audio _ _ _ => (256, 0, 0) end in
  let w := child_box TKHD (tkhd_body now (id + 1) (u64 (time_scale mvts duration + time_scale mvts (l_offset (k_level t)))) volume width height) w in
  next (edts mvts t w) (fun w =>
  let w := open_box MDIA w in
  let w := child_box MDHD (mdhd_body now (k_ts t) (time_scale (k_ts t) duration) (k_lang t)) w in
  let w := child_box HDLR (hdlr_body (if visual (k_codec t) then VIDE else SOUN)) w in
  let w := open_box MINF w in
  let w := if visual (k_codec t) then child_box VMHD vmhd_body w else child_box SMHD smhd_body w in
  let w := child_box URL (full 0 1) (put (full 0 0 ++ be32 1) (open_box DREF (open_box DINF w))) in
  next (close_box w) (fun w => next (close_box w) (fun w =>
  next (write_stbl t w) (fun r => let '(w, position) := r in
  next (close_box w) (fun w => next (close_box w) (fun w => next (close_box w) (fun w => Some (w, position)))))))).
Fixpoint write_streams (now mvts : Z) (l : list wtrack) (id : Z) (w : wr) : option (wr * list Z) :=
  match l with
  | [] => Some (w, [])
  | t :: l => next (write_stream now mvts t id w) (fun r => next (write_streams now mvts l (id + 1) (fst r)) (fun r' => Some (fst r', snd r :: snd r')))
  end.
(** min_duration 1631-1645 *)
Definition min_duration (l : list wtrack) : Z := fold_left (fun m t => let d := stream_duration (k_level t) in if d <? m then d else m) l U64MAX.
(** write_moov 2213-2245; _mvhd has the time scale 1000 (1745) *)
Definition mvts : Z := 1000.
Definition write_moov (now : Z) (l : list wtrack) (w : wr) : option (wr * list Z) :=
  let w := child_box MVHD (mvhd_body now mvts (time_scale mvts (min_duration l)) (Z.of_nat (length l) + 1)) (open_box MOOV w) in
  next (write_streams now mvts l 0 w) (fun r => next (close_box (fst r)) (fun w => Some (w, snd r))).
(** rebase_streams 2255-2261 *)
Fixpoint rebase (mdat : Z) (l : list wtrack) (positions : list Z) (w : wr) : wr :=
  match l, positions with t :: l, p :: ps => rebase mdat l ps (put (stco_words t mdat) (seek p w)) | _, _ => w end.
(** MP4Mux::end 363-410 and flush_all: the file, of the streams and the body (the file
    .body.tmp).  [ctts]: set_ctts_offset.  None = an exception. *)
Definition with_level (t : wtrack) (s : Level_model.stream) : wtrack := mkTr (k_codec t) (k_ts t) (k_lang t) s (k_places t) (k_keys t).
Definition finish (now : Z) (ctts : bool) (l : list wtrack) (body : list Z) : option (list Z) :=
  next (level_start_time (negb ctts) (map k_level l)) (fun levels =>
  let l := map (fun x => with_level (fst x) (snd x)) (combine l levels) in
  next (write_moov now l (child_box FTYP ftyp_body (mkW [] 0 []))) (fun r => let '(w, positions) := r in
  let w := put (be32 MDAT) (put (be32 (u32 (zlen body + 8))) w) in
  let headers := zlen (w_file w) in
  Some (w_file (rebase headers l positions w) ++ body))).

(** a stream as set up (add_visual_stream, add_audio_stream, set_lang, the composition offset),
    and what it is when the file is finished, after the samples of MuxQueue_model: where each was
    written, 791-909 *)
Record setting := mkG { g_codec : codec; g_ts : Z; g_lang : Z * Z * Z; g_ctts : Z }.
Definition track_of (g : setting) (st : MuxQueue_model.stream) : wtrack :=
  mkTr (g_codec g) (g_ts g) (g_lang g) (mkL (map (fun x => (MuxQueue_model.s_comp (fst x), MuxQueue_model.s_dec (fst x))) (written st)) (g_ctts g) 0)
    (map (fun x => (snd x, zlen (MuxQueue_model.s_body (fst x)))) (written st)) (map (fun x => s_key (fst x)) (written st)).
Definition movie_file (now : Z) (ctts : bool) (gs : list setting) (m : mux) : option (list Z) :=
  finish now ctts (map (fun x => track_of (fst x) (snd x)) (combine gs (m_streams m))) (m_file m).

(** * Reading *)
(** the 32-bit words from a position on, for the tables: a table is read word by word, and the
    position after it is where the words not read begin *)
Fixpoint group (l : list Z) : list Z := match l with a :: b :: c :: d :: l => be_val 0 [a; b; c; d] :: group l | _ => [] end.
Definition rwords {A} (parse : list Z -> option (A * list Z)) : rdr A := fun f p =>
  let ws := group (skipn (Z.to_nat p) f) in
  match parse ws with Some (x, rest) => Some (x, p + 4 * Z.of_nat (length ws - length rest)) | None => None end.
(** [n] bytes, ignored *)
Definition rskip (n : nat) : rdr unit := rbind (rbytes n) (fun _ => rret tt).

(** a stream's entry as read: CMP4VisualEntry (width, height, body of the avcC box, and
    get_avcc_header) or CMP4AudioEntry (rate, channels, body, and get_aac_info); None = never set *)
Inductive entry := VideoEntry (width height : Z) (body : list Z) (header : option Sps_model.avcc) | AudioEntry (rate channels : Z) (body : list Z) (config : option Esds_model.aac).
(** an exception of a reader ends the reading; so does undefined behaviour, here *)
Definition taken {A} (o : Bitstream_model.outcome A) : option A := match o with Bitstream_model.Ok x => Some x | _ => None end.
(** CPM4Track with its managers: handler_type (0 = none read), mdhd (time scale, duration,
    letters), tkhd (track_ID, width, height), entries, tables, edit list offset in ticks of the
    movie, time scale of the movie *)
Record rtrack := mkRt { x_handler : Z; x_ts : Z; x_duration : Z; x_lang : Z * Z * Z; x_id : Z; x_width : Z; x_height : Z; x_entries : list entry;
  x_tables : pstate; x_track : TimeTab_model.track; x_offset : Z; x_mvts : Z }.
Definition rtrack0 (mvts : Z) : rtrack := mkRt 0 0 0 (0, 0, 0) 0 0 0 [] p_init (TimeTab_model.mkT [] [] false [] [] None) 0 mvts.
(** MovieHeaderBox::get: time scale and duration *)
Definition get_mvhd : rdr (Z * Z) :=
  rbind (rnum 1) (fun v => rbind (rskip 3) (fun _ =>
  rbind (if v =? 1 then rbind (rskip 16) (fun _ => rbind (rnum 4) (fun ts => rbind (rnum 8) (fun d => rret (ts, d))))
         else rbind (rskip 8) (fun _ => rbind (rnum 4) (fun ts => rbind (rnum 4) (fun d => rret (ts, d))))) (fun r =>
  rbind (rskip 80) (fun _ => rret r)))).
(** TrackHeaderBox::get: track_ID, width and height *)
Definition get_tkhd : rdr (Z * Z * Z) :=
  rbind (rnum 1) (fun v => rbind (rskip 3) (fun _ =>
  rbind (if v =? 1 then rbind (rskip 16) (fun _ => rbind (rnum 4) (fun id => rbind (rskip 12) (fun _ => rret id)))
         else rbind (rskip 8) (fun _ => rbind (rnum 4) (fun id => rbind (rskip 8) (fun _ => rret id)))) (fun id =>
  rbind (rskip 52) (fun _ => rbind (rnum 2) (fun width => rbind (rskip 2) (fun _ => rbind (rnum 2) (fun height => rbind (rskip 2) (fun _ => rret (id, width, height))))))))).
(** MediaHeaderBox::get and get_lang: time scale, duration, letters *)
Definition letters (n : Z) : Z * Z * Z := (n / 1024 mod 32 + 96, n / 32 mod 32 + 96, n mod 32 + 96).
Definition get_mdhd : rdr (Z * Z * (Z * Z * Z)) :=
  rbind (rnum 1) (fun v => rbind (rskip 3) (fun _ =>
  rbind (if v =? 1 then rbind (rskip 16) (fun _ => rbind (rnum 4) (fun ts => rbind (rnum 8) (fun d => rret (ts, d))))
         else rbind (rskip 8) (fun _ => rbind (rnum 4) (fun ts => rbind (rnum 4) (fun d => rret (ts, d))))) (fun r =>
  rbind (rnum 2) (fun lang => rbind (rskip 2) (fun _ => rret (r, letters lang)))))).
(** HandlerBox(size) and get: handler_type; None also when desc (1024 characters) overflows *)
Definition get_hdlr (size : Z) : rdr Z :=
  rbind (rskip 8) (fun _ => rbind (rnum 4) (fun h => rbind (rskip 12) (fun _ =>
  if (32 <=? size) && (size - 32 <=? 1023) then rbind (rskip (Z.to_nat (size - 32))) (fun _ => rret h) else (fun _ _ => None)))).
(** parse_data_reference_box 357-372: dref, the header of the box in it, and a FullBox *)
Definition parse_dref (f : list Z) (p : Z) : option Z :=
  match rskip 8 f p with
  | Some (_, p) => match do_box f p with Some b => match rskip 4 f (r_pos b) with Some (_, p) => Some p | None => None end | None => None end
  | None => None
  end.
(** VisualSampleEntry::get: width and height.  The characters read are 31 in all, whatever
    [size] says up to 31; beyond, the array overflows unless there is room (None). *)
Definition get_visual : rdr (Z * Z) :=
  rbind (rskip 24) (fun _ => rbind (rnum 2) (fun width => rbind (rnum 2) (fun height => rbind (rskip 14) (fun _ =>
  rbind (rnum 1) (fun n => if n <=? 31 then rbind (rskip 31) (fun _ => rbind (rskip 4) (fun _ => rret (width, height))) else (fun _ _ => None)))))).
(** AudioSampleEntry::get: rate and channels *)
Definition get_audio : rdr (Z * Z) :=
  rbind (rskip 16) (fun _ => rbind (rnum 2) (fun channels => rbind (rskip 6) (fun _ => rbind (rnum 4) (fun rate => rret (rate / 2 ^ 16, channels))))).
(** CMP4VisualEntry::parse_boxes 1617-1648, until [end_]; [body] = what the avcC box held, [header]
    = what it says.  (Simplified: the sets of a second avcC box would come after those of the
    first; here they replace them.) *)
Fixpoint visual_boxes (fuel : nat) (f : list Z) (end_ p : Z) (body : list Z) (header : option Sps_model.avcc) : option (list Z * option Sps_model.avcc * Z) :=
  match fuel with
  | O => None
  | S fuel =>
    if p <? end_ then
      next (do_box f p) (fun b =>
      if r_type b =? AVCC then next (rbytes (Z.to_nat (r_size b - 8)) f (r_pos b)) (fun r =>
        next (taken (Sps_model.get_avcc (Bits_spec.bytes_bits (fst r)))) (fun a => visual_boxes fuel f end_ (snd r) (fst r) (Some (fst a))))
      else if r_type b =? BTRT then next (rskip 12 f (r_pos b)) (fun r => visual_boxes fuel f end_ (snd r) body header)
      else if r_type b =? PASP then next (rskip 8 f (r_pos b)) (fun r => visual_boxes fuel f end_ (snd r) body header)
      else visual_boxes fuel f end_ (skip_current b) body header)
    else Some (body, header, p)
  end.
(** parse_sample_description of the two handlers 1886-1902, 1938-1949 with the entries' parse
    1651-1667, 1761-1808 *)
Definition parse_entry (video : bool) (f : list Z) (b : rd) : option (entry * Z) :=
  if video then next (get_visual f (r_pos b)) (fun r => let '((width, height), p) := r in
    next (visual_boxes (S (length f)) f (box_end b) p [] None) (fun r => let '(body, header, p) := r in Some (VideoEntry width height body header, p)))
  else next (get_audio f (r_pos b)) (fun r => let '((rate, channels), p) := r in
    if p <? box_end b then next (rbytes (Z.to_nat (box_end b - p)) f p) (fun r =>
      if (r_type b =? MP4A) || (r_type b =? ENCA) then next (taken (Esds_model.get_audio (fst r))) (fun a => Some (AudioEntry rate channels (fst r) (Some a), snd r))
      else Some (AudioEntry rate channels (fst r) None, snd r))
    else Some (AudioEntry rate channels [] None, p)).
Fixpoint parse_entries (n : nat) (video : bool) (f : list Z) (p : Z) : option (list entry * Z) :=
  match n with
  | O => Some ([], p)
  | S n => next (do_box f p) (fun b => next (parse_entry video f b) (fun r => next (parse_entries n video f (snd r)) (fun r' => Some (fst r :: fst r', snd r'))))
  end.
(** CMP4Handler::parse_boxes 1469-1508 with not_sample_description_found 1460-1467; [end_] = the
    end of minf *)
Fixpoint media_boxes (fuel : nat) (video : bool) (f : list Z) (end_ : Z) (b : rd) : option (list entry * Z) :=
  match fuel with
  | O => None
  | S fuel =>
    let more p := if end_ <=? p then None else next (do_box f p) (media_boxes fuel video f end_) in
    let ty := r_type b in
    if (ty =? STBL) || (ty =? DINF) then more (r_pos b)
    else if ty =? DREF then next (parse_dref f (r_pos b)) more
    else if ty =? STSD then
      next (rbind (rskip 4) (fun _ => rnum 4) f (r_pos b)) (fun r => if fst r =? 0 then more (snd r) else parse_entries (Z.to_nat (fst r)) video f (snd r))
    else more (skip_current b)
  end.
(** CMP4Handler::parse 1510-1522 with parse_header 1873-1884, 1924-1936 *)
Definition parse_media (video : bool) (f : list Z) (b : rd) : option (list entry * Z) :=
  let loop := media_boxes (S (length f)) video f (box_end b) in
  next (do_box f (r_pos b)) (fun h =>
  if r_type h =? (if video then VMHD else SMHD) then next (rskip (if video then 12 else 8) f (r_pos h)) (fun r => next (do_box f (snd r)) loop)
  else loop h).
(** CPM4Track::parse_boxes 2071-2149, one box: the track and the position after it *)
Definition track_box (f : list Z) (b : rd) (t : rtrack) : option (rtrack * Z) :=
  let ty := r_type b in
  let p := r_pos b in
  let '(mkRt h ts d lang id width height es tb tr off mv) := t in
  if (ty =? TRAK) || (ty =? MDIA) || (ty =? EDTS) then Some (t, p)
  else if ty =? TKHD then next (get_tkhd f p) (fun r => let '((i, x, y), p) := r in Some (mkRt h ts d lang i x y es tb tr off mv, p))
  else if ty =? MDHD then next (get_mdhd f p) (fun r => let '((s, n), l, p) := r in Some (mkRt h s n l id width height es tb tr off mv, p))
  else if ty =? HDLR then next (get_hdlr (r_size b) f p) (fun r => Some (mkRt (fst r) ts d lang id width height es tb tr off mv, snd r))
  else if ty =? MINF then
    if h =? VIDE then next (parse_media true f b) (fun r => Some (mkRt h ts d lang id width height (fst r) tb tr off mv, snd r))
    else if h =? SOUN then next (parse_media false f b) (fun r => Some (mkRt h ts d lang id width height (fst r) tb tr off mv, snd r))
    else None
  else if ty =? box_stts then next (rwords parse_stts f p) (fun r => let '((times, table), p) := r in
    Some (mkRt h ts d lang id width height es tb (TimeTab_model.mkT times (t_offsets tr) (t_has_ctts tr) (t_order tr) table (t_keys tr)) off mv, p))
  else if ty =? box_ctts then next (rwords (parse_ctts (t_times tr)) f p) (fun r => let '((offsets, order), p) := r in
    Some (mkRt h ts d lang id width height es tb (TimeTab_model.mkT (t_times tr) offsets true order (t_table tr) (t_keys tr)) off mv, p))
  else if ty =? ELST then next (get_elst f p) (fun r => next (parse_elst f p) (fun o => Some (mkRt h ts d lang id width height es tb tr o mv, snd r)))
  else if ty =? box_stss then next (rwords parse_stss f p) (fun r =>
    Some (mkRt h ts d lang id width height es tb (TimeTab_model.mkT (t_times tr) (t_offsets tr) (t_has_ctts tr) (t_order tr) (t_table tr) (Some (fst r))) off mv, snd r))
  else if ty =? box_stco then next (rwords parse_stco f p) (fun r =>
    Some (mkRt h ts d lang id width height es (mkP (p_stsc tb) (p_size tb) (p_count tb) (p_sizes tb) (fst r)) tr off mv, snd r))
  else if ty =? box_stsc then next (rwords parse_stsc f p) (fun r =>
    Some (mkRt h ts d lang id width height es (mkP (fst r) (p_size tb) (p_count tb) (p_sizes tb) (p_chunks tb)) tr off mv, snd r))
  else if ty =? box_stsz then next (rwords parse_stsz f p) (fun r => let '((size, n, sizes), p) := r in
    Some (mkRt h ts d lang id width height es (mkP (p_stsc tb) size n sizes (p_chunks tb)) tr off mv, p))
  else Some (t, skip_current b).
(** the recursion 2144-2148 until the end of the track *)
Fixpoint track_boxes (fuel : nat) (f : list Z) (end_ : Z) (b : rd) (t : rtrack) : option (rtrack * Z) :=
  match fuel with
  | O => None
  | S fuel => next (track_box f b t) (fun r => let '(t, p) := r in if p <? end_ then next (do_box f p) (fun b => track_boxes fuel f end_ b t) else Some (t, p))
  end.
(** MP4Reader 2589-2604: place and end of the media data, time scale and duration of the movie,
    the streams *)
Record movie := mkMv { v_mdat : Z; v_end : Z; v_ts : Z; v_duration : Z; v_streams : list rtrack }.
Definition movie0 : movie := mkMv 0 0 0 0 [].
(** FileTypeBox(size) and get: the brands; None if they are no whole words *)
Definition get_ftyp (size : Z) : rdr unit :=
  if u32 (size - 16) mod 4 =? 0 then rskip (8 + Z.to_nat (u32 (size - 16))) else (fun _ _ => None).
(** parse_boxes 2613-2676, one box *)
Definition movie_box (f : list Z) (b : rd) (m : movie) : option (movie * Z) :=
  let ty := r_type b in
  let '(mkMv mdat e ts d l) := m in
  if (ty =? FTYP) || (ty =? STYP) then next (get_ftyp (r_size b) f (r_pos b)) (fun r => Some (m, snd r))
  else if ty =? MVHD then next (get_mvhd f (r_pos b)) (fun r => let '((ts, d), p) := r in Some (mkMv mdat e ts d l, p))
  else if ty =? MDAT then Some (mkMv (r_box b) (box_end b) ts d l, box_end b)
  else if ty =? FREE then Some (m, box_end b)
  else if ty =? MOOV then Some (m, r_pos b)
  else if ty =? TRAK then next (track_boxes (S (length f)) f (box_end b) b (rtrack0 ts)) (fun r => Some (mkMv mdat e ts d (l ++ [fst r]), snd r))
  else Some (m, skip_current b).
Fixpoint movie_boxes (fuel : nat) (f : list Z) (b : rd) (m : movie) : option movie :=
  match fuel with
  | O => None
  | S fuel => next (movie_box f b m) (fun r => let '(m, p) := r in if p <? zlen f then next (do_box f p) (fun b => movie_boxes fuel f b m) else Some m)
  end.
(** parse 2687-2699 *)
Definition read_movie (f : list Z) : option movie :=
  next (do_box f 0) (fun b => if (r_type b =? FTYP) || (r_type b =? STYP) then movie_boxes (S (length f)) f b movie0 else None).

(** * Specification vocabulary *)
(** settings that fit the fields of the file: 16 bits for width, height, channels and rate,
    letters of 5 bits *)
Definition lower (c : Z) : Prop := 96 <= c < 128.
Definition short (z : Z) : Prop := 0 <= z < 2 ^ 16.
(** a decoder configuration record of ISO/IEC 14496-15 (and what follows it in its box), with the
    parameter sets [sv] and [pv] in the units [ss] and [ps]; they are sets the reader is made for,
    each of at most 256 bytes *)
Definition avc_record (b : list Z) (profile compat level size : Z) (ss : list (list Z)) (sv : list Sps_model.sps) (ps : list (list Z)) (pv : list Sps_model.pps) : Prop :=
  is_byte profile /\ is_byte compat /\ is_byte level /\ 0 <= size < 4 /\ (length ss < 32)%nat /\ (length ps < 256)%nat
  /\ Forall2 (fun u s => (length u <= 256)%nat /\ Sps_model.sps_known s /\ Sps_model.carries 7 u (Sps_model.sps_syntax s)) ss sv
  /\ Forall2 (fun u p => (length u <= 256)%nat /\ Sps_model.pps_known p /\ exists ext, Sps_model.carries 8 u (Sps_model.pps_syntax p ++ ext)) ps pv
  /\ exists more, b = Sps_model.record_syntax profile compat level size ss ps ++ more.
(** an esds box of ISO/IEC 14496-14 (and what follows it, but for the three kinds of descriptor the
    reader goes into), which says object type, rate and channels *)
Definition audio_config (b : list Z) (object rate chan : Z) : Prop :=
  exists x g after, Esds_model.es_ok x /\ bytes after /\ (forall t l, Esds_model.e_more x ++ after = t :: l -> ~ In t [0x12; 0x26; 0x0C])
  /\ Esds_model.config_ok g /\ Bits_spec.bytes_bits (Esds_model.e_info x) = Esds_model.config_syntax g
  /\ Esds_model.g_object g = object /\ Esds_model.frequency (Esds_model.g_freq g) = Some rate /\ Esds_model.speakers (Esds_model.g_chan g) = Some chan
  /\ b = Esds_model.esds_bytes (Esds_model.es_bytes x) ++ after.
Definition codec_ok (c : codec) : Prop :=
  match c with
  | Video w h name b => short w /\ short h /\ length name = 31%nat /\ exists profile compat level size ss sv ps pv, avc_record b profile compat level size ss sv ps pv
  | Audio r c b => short r /\ short c /\ (b = [] \/ exists object rate chan, audio_config b object rate chan)
  end.
Definition setting_ok (g : setting) : Prop := 0 < g_ts g < 2 ^ 32 /\ 0 <= g_ctts g < 2 ^ 62 /\ codec_ok (g_codec g) /\ let '(a, b, c) := g_lang g in lower a /\ lower b /\ lower c.
(** the first sample is presented (two ticks and a unit) before any other, or every sample as
    long after its decoding time *)
Definition in_order (ts : Z) (l : list (Z * Z)) : Prop :=
  (forall i, (i < length l)%nat -> fst (nth i l (0, 0)) - snd (nth i l (0, 0)) = fst (nth 0 l (0, 0)) - snd (nth 0 l (0, 0)))
  \/ (forall i, (0 < i < length l)%nat -> 20000000 + ts <= ts * (fst (nth i l (0, 0)) - fst (nth 0 l (0, 0)))).
(** samples (composition, decoding time, size) a stream can carry, with composition offsets up to
    [most]: two or more, not all of one size; decoding times that never go back and stay below a
    horizon of 2^51 ticks; no sample presented before it is decoded (with the offset), the first
    even without *)
Definition samples_ok (g : setting) (most : Z) (l : list (Z * Z * Z)) : Prop :=
  let times := map fst l in let d0 := snd (hd (0, 0) times) in
  (2 <= length l)%nat /\ Z.of_nat (length l) < 2 ^ 31 /\ (exists a b, In a l /\ In b l /\ snd a <> snd b)
  /\ 0 <= d0 <= fst (hd (0, 0) times) /\ fst (hd (0, 0) times) < 2 ^ 62 /\ d0 + most < 2 ^ 41 /\ in_order (g_ts g) times
  /\ exists h, h <= 2 ^ 53 /\ g_ts g * h <= 2 ^ 51 /\ paced (g_ts g) h 0 (map snd times)
      /\ Forall (fun s => 0 <= fst s - snd s + g_ctts g /\ fit (g_ts g) h (fst s - snd s + d0 + most)) times.
(** the entry as the reader should see it *)
Definition same_entry (c : codec) (e : entry) : Prop :=
  match c with
  | Video w h _ b => exists a, e = VideoEntry w h b (Some a) /\ forall profile compat level size ss sv ps pv, avc_record b profile compat level size ss sv ps pv ->
      Sps_model.a_profile a = profile /\ Sps_model.a_compat a = compat /\ Sps_model.a_level a = level /\ Sps_model.get_nal_length_size a = size + 1
      /\ Sps_model.a_sps a = map Sps_model.read_as sv /\ Sps_model.a_pps a = pv
      /\ (forall u, ss = [u] -> Sps_model.get_sequence a = u) /\ (forall u, ps = [u] -> Sps_model.get_picture a = u)
  | Audio r c b => exists config, e = AudioEntry r c b config /\ (b = [] -> config = None) /\ forall object rate chan, audio_config b object rate chan -> config = Some (Esds_model.mkAac object rate chan)
  end.
(** from the composition time of the first sample to that of the last *)
Definition lasting (l : list (MuxQueue_model.sample * Z)) : Z :=
  let none := (MuxQueue_model.mkS 0 0 [] false, 0) in MuxQueue_model.s_comp (fst (last l none)) - MuxQueue_model.s_comp (fst (hd none l)).
(** what a stream of the file should say about the setting and the samples written (with their
    places in the body, which is at [base] of the file): every sample is where the reader looks,
    with its size; its decoding time from the first sample on, in ticks, up to a tick and a unit
    below and one unit more per sample above; its composition time likewise, which with the delay
    of the stream is the composition time written, moved by [shift] (in 1/(1000 ts) of 100 ns); a
    sample lasts until the next, the last one as long as the one before; which samples are key
    frames; and how long the stream lasts, to a tick *)
Definition shows (file : list Z) (base : Z) (g : setting) (id shift : Z) (l : list (MuxQueue_model.sample * Z)) (x : rtrack) : Prop :=
  let d0 := MuxQueue_model.s_dec (fst (hd (MuxQueue_model.mkS 0 0 [] false, 0) l)) in
  x_handler x = (match g_codec g with Video _ _ _ _ => VIDE | Audio _ _ _ => SOUN end) /\ x_ts x = g_ts g /\ x_lang x = g_lang g /\ x_id x = id /\ (exists e, x_entries x = [e] /\ same_entry (g_codec g) e)
  /\ p_count (x_tables x) = Z.of_nat (length l)
  /\ match g_codec g with Video w h _ _ => x_width x = w /\ x_height x = h | Audio _ _ _ => True end
  /\ x_mvts x = 1000 /\ 0 <= x_offset x < 2 ^ 32 /\ (0 <= lasting l -> g_ts g * (lasting l + 1) <= 2 ^ 51 -> 10000000 * x_duration x <= g_ts g * lasting l <= 10000000 * (x_duration x + 1))
  /\ forall i s p, nth_error l i = Some (s, p) ->
     (exists off, off = base + p /\ SampleTab_model.sample_offset (x_tables x) (Z.of_nat i) = Some off /\ SampleTab_model.sample_size (x_tables x) (Z.of_nat i) = Some (zlen (MuxQueue_model.s_body s))
        /\ 0 <= off /\ firstn (length (MuxQueue_model.s_body s)) (skipn (Z.to_nat off) file) = MuxQueue_model.s_body s)
     /\ (exists dt ct du, decoding_time (x_track x) (Z.of_nat i) = Some dt /\ composition_time (x_track x) (Z.of_nat i) = Some ct /\ duration_of (x_track x) (Z.of_nat i) = Some du /\ 0 <= dt /\ 0 <= ct /\ 0 <= du
        /\ (if (S i <? length l)%nat then decoding_time (x_track x) (Z.of_nat (S i)) = Some (dt + du) else duration_of (x_track x) (Z.of_nat (i - 1)) = Some du)
        /\ - (10000000 + g_ts g) <= 10000000 * dt - g_ts g * (MuxQueue_model.s_dec s - d0) <= 10000000 + g_ts g + g_ts g * Z.of_nat i
        /\ - (1000 * (20000000 + g_ts g) + 10000000 * g_ts g) <= 10000000 * (1000 * ct + g_ts g * x_offset x) - 1000 * g_ts g * (MuxQueue_model.s_comp s + shift) <= 1000 * (10000000 + g_ts g + g_ts g * Z.of_nat i))
     /\ is_iframe (x_track x) (Z.of_nat i) = Some (if (match g_codec g with Video _ _ _ _ => existsb (fun y => s_key (fst y)) l | Audio _ _ _ => false end) then s_key s else true).
