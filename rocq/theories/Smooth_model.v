(** Model of the Smooth Streaming manifest index.ism: SSFRenderer,
    /repo/src/mg/media/mp4dynamicinfo.h 1207-1390, called by DynamicPresentation::render 936-948,
    DynamicStream::render 654-680, the render_type of audio 720-730 and video 750-766 and
    DynamicPoints::render 429-475; of the codec private data it shows, packed by
    compute_video_private_data, /repo/src/mg/media/mp4dynamic.h 208-237.  The streams are those of
    Pres_model with what only this manifest shows: channels, sources of every bit rate
    (DynamicBitrate::_paths 74) and cross points (_computed_cross 162).  None: an exception, or
    memory outside of an object. *)
From Coq Require Import String.
From Verif Require Import Util Dec_spec Str_model HNano_model Mpd_model Points_model Pres_model.
Local Open Scope Z_scope.

Record sm_strm := mkSm { y_strm : strm; y_channels : Z; y_bits : Z; y_paths : list (zmap (list Z)); y_cross : zmap cross }.
(** DynamicStream::rebase 585-594 with DynamicPoints::rebase 373-427: the times inside of a cross
    point stay as they are (416) *)
Definition sm_moved (off : Z) (y : sm_strm) : sm_strm :=
  mkSm (moved off (y_strm y)) (y_channels y) (y_bits y) (map (rebase off) (y_paths y)) (rebase off (y_cross y)).
(** DynamicPresentation::rebase 916-935; when [in_turn] is there every stream has one of the
    numbers, so each is moved once *)
Definition sm_rebase (l : list sm_strm) : option (list sm_strm) :=
  match in_turn (map y_strm l) with
  | Some ss => let m := least_start (map n_points ss) in Some (if m <? 0 then map (sm_moved (m * -1)) l else l)
  | None => None
  end.

(** compute_video_private_data, mp4dynamic.h 208-237 *)
Definition private_data (sps pps : list Z) : list Z :=
  [Z.land (Z.shiftr (zlen sps) 8) 0xFF; Z.land (zlen sps) 0xFF] ++ sps ++ [Z.land (Z.shiftr (zlen pps) 8) 0xFF; Z.land (zlen pps) 0xFF] ++ pps.
(** 1270-1288 *)
Definition start_codes (d : list Z) : option (list Z) :=
  match d with
  | b0 :: b1 :: _ =>
    let n := Z.lor (Z.shiftl b0 8) b1 in
    if 4 + n <=? zlen d then Some ([0; 0; 0; 1] ++ firstn (Z.to_nat n) (skipn 2 d) ++ [0; 0; 0; 1] ++ skipn (Z.to_nat (4 + n)) d) else None
  | _ => None
  end.
(** add_video_bitrate 1266-1302 *)
Definition video_level (index : Z) (r : rep) : option (list Z) :=
  match start_codes (r_private r) with
  | Some d => Some (append_hex_buffer (str "<QualityLevel Index=""" ++ dec index ++ str """ Bitrate=""" ++ dec_signed (int32 (r_rate r)) ++ str """ CodecPrivateData=""") d
      ++ str """ FourCC=""AVC1"" MaxWidth=""" ++ dec_signed (r_width r) ++ str """ MaxHeight=""" ++ dec_signed (r_height r) ++ str """ />" ++ CRLF)
  | None => None
  end.
(** add_audio_bitrate 1303-1330 *)
Definition audio_level (y : sm_strm) (index : Z) (r : rep) : option (list Z) :=
  Some (str "<QualityLevel Index=""" ++ dec index ++ str """ Bitrate=""" ++ dec_signed (int32 (r_rate r)) ++ str """ FourCC="""" AudioTag=""255"" CodecPrivateData=""""  Channels=""" ++ dec_signed (y_channels y)
    ++ str """ SamplingRate=""" ++ dec_signed (n_sampling (y_strm y)) ++ str """ BitsPerSample=""" ++ dec_signed (y_bits y) ++ str """ PacketSize=""4""" ++ str "/>" ++ CRLF).
(** render_type 720-730, 750-766; the number goes on from stream to stream (_index 1213, 1221) *)
Fixpoint levels (y : sm_strm) (index : Z) (l : list rep) : option (list Z) :=
  match l with
  | [] => Some []
  | r :: l => match (if n_audio (y_strm y) then audio_level y index r else video_level index r), levels y (index + 1) l with
    | Some a, Some b => Some (a ++ b)
    | _, _ => None
    end
  end.
Definition u64 (x : Z) : Z := x mod 2 ^ 64.
Definition i64 (x : Z) : Z := let r := x mod 2 ^ 64 in if r <? 2 ^ 63 then r else r - 2 ^ 64.
(** add_point_info 1349-1360, add_point_info_cross 1361-1372; the times are uint64_t, HNS takes
    int64_t *)
Definition info (element path : list Z) (composition computed : Z) : option (list Z) :=
  match hns (i64 computed) with
  | Some k => Some (str "<" ++ element ++ str " p=""" ++ path ++ str """ t=""" ++ dec (u64 composition) ++ str """ c=""" ++ dec (u64 computed) ++ str """ k=""" ++ k ++ str """ />")
  | None => None
  end.
Definition info_at (element : list Z) (paths : zmap (list Z)) (composition computed : Z) : option (list Z) :=
  match get_path paths computed with Some p => info element p composition computed | None => None end.
(** 447-460 for one bit rate *)
Definition source (y : sm_strm) (pt : point) (paths : zmap (list Z)) : option (list Z) :=
  if p_orig pt =? CROSS_POINT_TIME then
    match get (p_time pt) (y_cross y) with
    | Some c => match info_at (str "cp") paths (c_orig c) (c_time c), info_at (str "cp") paths (c_orig2 c) (c_time2 c) with
      | Some a, Some b => Some (a ++ b)
      | _, _ => None
      end
    | None => None
    end
  else info_at (str "h") paths (p_orig pt) (p_time pt).
Fixpoint in_row (l : list (option (list Z))) : option (list Z) :=
  match l with [] => Some [] | Some a :: r => match in_row r with Some b => Some (a ++ b) | None => None end | None :: _ => None end.
(** add_point 1331-1348 (0 <= computed_time holds of every uint64_t), 447-465, end_point 1373-1376 *)
Definition chunk (y : sm_strm) (first : bool) (pt : point) : option (list Z) :=
  match in_row (map (source y pt) (y_paths y)) with
  | Some s => Some (str "<c d=""" ++ dec (p_dur pt) ++ (if first then str """ t=""" ++ dec (p_time pt) else []) ++ str """>" ++ s ++ str "</c>" ++ CRLF)
  | None => None
  end.
Definition chunks (y : sm_strm) (pts : list point) : option (list Z) :=
  match pts with [] => Some [] | p :: r => in_row (chunk y true p :: map (chunk y false) r) end.
(** begin_stream 1233-1264 with _use_stream_name, the number of points and of bit rates as 662
    gives them; end_stream 1377-1380 *)
Definition stream_index (s : strm) : list Z :=
  str "<StreamIndex Type=""" ++ (if n_audio s then str "audio" else str "video") ++ str """ Url=""" ++ n_name s ++ str "_{bitrate}_{start time}" ++ (if n_audio s then str ".m4a" else str ".m4v")
  ++ str """ Name=""" ++ n_name s ++ str """ Chunks=""" ++ dec (zlen (n_points s)) ++ str """ QualityLevels=""" ++ dec (zlen (n_reps s)) ++ str """>" ++ CRLF.
Definition sm_stream (index : Z) (y : sm_strm) : option (list Z) :=
  match levels y index (n_reps (y_strm y)), render (n_points (y_strm y)) with
  | Some a, Some pts => match chunks y pts with Some b => Some (stream_index (y_strm y) ++ a ++ b ++ str "</StreamIndex>" ++ CRLF) | None => None end
  | _, _ => None
  end.
Fixpoint sm_streams (index : Z) (l : list sm_strm) : option (list Z) :=
  match l with
  | [] => Some []
  | y :: r => match sm_stream index y, sm_streams (index + zlen (n_reps (y_strm y))) r with Some a, Some b => Some (a ++ b) | _, _ => None end
  end.
(** begin 1225-1231, end 1381-1385; 936-948 *)
Definition sm_begin (d : Z) : list Z := str "<SmoothStreamingMedia MajorVersion=""2"" MinorVersion=""1"" Duration=""" ++ dec d ++ str """>" ++ CRLF.
Definition smooth_text (l : list sm_strm) : option (list Z) :=
  match by_id (map y_strm l) 0 with
  | Some s0 => match sm_streams 0 l with Some t => Some (sm_begin (duration (n_points s0)) ++ t ++ str "</SmoothStreamingMedia>") | None => None end
  | None => None
  end.
(** index.ism: CMP4DynamicInfo::render 1161-1165, mgcli/mp4info.cpp 5475, 5487-5500 (5474 has moved
    the times already, so 5475 does not again) *)
Definition smooth (l : list sm_strm) : option (list Z) := match sm_rebase l with Some l => smooth_text l | None => None end.

(** * Specification vocabulary: a Smooth Streaming client *)
(** {bitrate} and {start time} in a template *)
Definition fill_in (bitrate time ident : list Z) : list Z :=
  if same_text ident (str "bitrate") then bitrate else if same_text ident (str "start time") then time else [].
Fixpoint expand_braces (bitrate time : list Z) (ident : option (list Z)) (l : list Z) : list Z :=
  match l with
  | [] => []
  | c :: r => match ident with
    | None => if c =? 123 then expand_braces bitrate time (Some []) r else c :: expand_braces bitrate time None r
    | Some i => if c =? 125 then fill_in bitrate time i ++ expand_braces bitrate time None r else expand_braces bitrate time (Some (i ++ [c])) r
    end
  end.
(** a stream being read: template, bit rates, start of the next chunk, starts so far; URLs so far *)
Record client := mkClient { cl_url : list Z; cl_rates : list (list Z); cl_next : Z; cl_times : list Z; cl_urls : list (list Z) }.
Definition client_tag (c : client) (t : tag) : client :=
  let is n := same_text (tag_name t) (str n) in
  if is "StreamIndex"%string then mkClient (attr_or (str "Url") t []) [] 0 [] (cl_urls c)
  else if is "QualityLevel"%string then mkClient (cl_url c) (cl_rates c ++ [attr_or (str "Bitrate") t []]) (cl_next c) (cl_times c) (cl_urls c)
  else if is "c"%string then
    let start := match attr (str "t") t with Some x => undec x | None => cl_next c end in
    mkClient (cl_url c) (cl_rates c) (start + undec (attr_or (str "d") t [])) (cl_times c ++ [start]) (cl_urls c)
  else if is "/StreamIndex"%string then
    mkClient [] [] 0 [] (cl_urls c ++ flat_map (fun b => map (fun x => expand_braces b (dec x) None (cl_url c)) (cl_times c)) (cl_rates c))
  else c.
(** everything a client of the manifest may ask for *)
Definition client_urls (text : list Z) : list (list Z) := cl_urls (fold_left client_tag (snd (scan text)) (mkClient [] [] 0 [] [])).
(** the name of an initialization segment, which Smooth Streaming does not use *)
Definition initial (u : list Z) : Prop := exists a, u = a ++ str "_i.m4v" \/ u = a ++ str "_i.m4a".
(** two hexadecimal digits for every byte *)
Definition hex_char (x : Z) : Z := if x <? 10 then 48 + x else 65 + (x - 10).
Definition hexs (l : list Z) : list Z := flat_map (fun b => [hex_char (b / 16); hex_char (b mod 16)]) l.
(** the source in force at a time: the last that starts at or before it, the first before all *)
Definition in_force (paths : zmap (list Z)) (t : Z) : list Z :=
  fold_left (fun p x => if fst x <=? t then snd x else p) paths (match paths with (_, p) :: _ => p | [] => [] end).
(** streams fit for this manifest *)
Definition braceless (l : list Z) : Prop := ~ In 123 l.
Definition sources_ok (y : sm_strm) : Prop :=
  length (y_paths y) = length (n_reps (y_strm y)) /\ Forall (fun m => m <> [] /\ sorted m /\ Forall (fun x => ~ In 34 (snd x)) m) (y_paths y).
Definition crosses_ok (y : sm_strm) : Prop :=
  sorted (y_cross y) /\ (forall t, In (t, CROSS_POINT_TIME) (n_points (y_strm y)) -> exists c, In (t, c) (y_cross y))
  /\ Forall (fun x => let c := snd x in - 2 ^ 62 <= c_time c < 2 ^ 62 /\ - 2 ^ 62 <= c_time2 c < 2 ^ 62) (y_cross y).
(** the private data of every video bit rate holds a sequence and a picture parameter set *)
Definition parameter_sets (d sps pps : list Z) : Prop :=
  zlen sps < 65536 /\ zlen pps < 65536 /\ d = [zlen sps / 256; zlen sps mod 256] ++ sps ++ [zlen pps / 256; zlen pps mod 256] ++ pps.
Definition sm_ok (y : sm_strm) : Prop :=
  strm_ok (y_strm y) /\ braceless (n_name (y_strm y)) /\ sources_ok y /\ crosses_ok y
  /\ (n_audio (y_strm y) = false -> Forall (fun r => exists sps pps, parameter_sets (r_private r) sps pps) (n_reps (y_strm y))).
(** the sources of the chunk at the point [x] from one bit rate's files: element, path, time in the
    file and time in the presentation, the latter moved by [off] *)
Definition sources_of (y : sm_strm) (off : Z) (x : Z * Z) (paths : zmap (list Z)) : list (list Z * option (list Z) * option Z * option Z) :=
  if snd x =? CROSS_POINT_TIME then
    match List.find (fun e => fst e =? fst x) (y_cross y) with
    | Some (_, c) => [(str "cp", Some (in_force paths (c_time c)), Some (c_orig c mod 2 ^ 64), Some ((c_time c + off) mod 2 ^ 64));
                      (str "cp", Some (in_force paths (c_time2 c)), Some (c_orig2 c mod 2 ^ 64), Some ((c_time2 c + off) mod 2 ^ 64))]
    | None => []
    end
  else [(str "h", Some (in_force paths (fst x)), Some (snd x mod 2 ^ 64), Some (fst x + off))].
(** what the manifest says of sources, in its order *)
Definition sources_said (text : list Z) : list (list Z * option (list Z) * option Z * option Z) :=
  map (fun t => (tag_name t, attr (str "p") t, option_map undec (attr (str "t") t), option_map undec (attr (str "c") t)))
    (filter (fun t => same_text (tag_name t) (str "h") || same_text (tag_name t) (str "cp")) (snd (scan text))).
