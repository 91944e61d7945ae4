(** Model of a published DASH presentation: the streams of DynamicPresentation
    (/repo/src/mg/media/mp4dynamicinfo.h 496-949), how CMP4DynamicInfo declares and renders them
    (1133-1165), the whole manifest (/repo/src/mg/media/mpd_renderer.h 56-379, FRAGMENTEDSTYPFALSE
    not defined: mgmedia.h 29-40) and the files written next to it
    (/repo/src/mg/media/mp4info.cpp 5556-5699, names only).  Text is a list of character codes;
    times are integers.  None: dereferences a null pointer or the end of an empty map. *)
From Coq Require Import String.
From Verif Require Import Util Dec_spec Str_model Mpd_model Points_model.
Local Open Scope Z_scope.

(** DynamicBitrate: key in _bitrates, Width and Height of a video one, CodecPrivateData *)
Record rep := mkRep { r_rate : Z; r_width : Z; r_height : Z; r_private : list Z }.
(** DynamicStream 496-771: name, is_audio, id, SamplingRate, _bitrates (by increasing key),
    _points *)
Record strm := mkStrm { n_name : list Z; n_audio : bool; n_id : Z; n_sampling : Z; n_reps : list rep; n_points : zmap Z }.
(** _streams 775: by increasing name *)
Definition pres := list strm.

(** * declaring the streams *)
(** std::map<Cstring, _>: names compared as C strings *)
Fixpoint name_ltb (a b : list Z) : bool :=
  match a, b with
  | _, [] => false
  | [], _ :: _ => true
  | x :: a, y :: b => if x =? y then name_ltb a b else x <? y
  end.
(** insert 805, 827: nothing happens if the name is there *)
Fixpoint insert_strm (s : strm) (p : pres) : pres :=
  match p with
  | [] => [s]
  | x :: r => if name_ltb (n_name s) (n_name x) then s :: p else if name_ltb (n_name x) (n_name s) then x :: insert_strm s r else p
  end.
(** audio_count, video_count 861-885 *)
Definition kind_count (audio : bool) (p : pres) : Z := zlen (filter (fun s => Bool.eqb (n_audio s) audio) p).
(** video_private_data 1133-1144, audio_private_data 1146-1158; what else the stream holds comes
    later and is given here *)
Definition declare (p : pres) (s : strm) : pres :=
  let base := str (if n_audio s then "audio" else "video") in
  let name := if 0 <? kind_count (n_audio s) p then base ++ dec (kind_count (n_audio s) p) else base in
  insert_strm (mkStrm name (n_audio s) (n_id s) (n_sampling s) (n_reps s) (n_points s)) p.
Definition declare_all (l : list strm) : pres := fold_left declare l [].

(** * by number *)
(** get_by_index 887-899 *)
Definition by_id (p : pres) (i : Z) : option strm := List.find (fun s => i =? n_id s) p.
Fixpoint on_id (i : Z) (f : strm -> strm) (p : pres) : pres :=
  match p with [] => [] | s :: r => if i =? n_id s then f s :: r else s :: on_id i f r end.
Fixpoint zupto (k : Z) (n : nat) : list Z := match n with O => [] | S m => k :: zupto (k + 1) m end.
Fixpoint all_some {A} (l : list (option A)) : option (list A) :=
  match l with [] => Some [] | Some a :: r => match all_some r with Some t => Some (a :: t) | None => None end | None :: _ => None end.
(** for(i = 0; i < Count(); i++) get_by_index(i) *)
Definition in_turn (p : pres) : option (list strm) := all_some (map (by_id p) (zupto 0 (length p))).
Definition moved (off : Z) (s : strm) : strm := mkStrm (n_name s) (n_audio s) (n_id s) (n_sampling s) (n_reps s) (rebase off (n_points s)).
(** rebase 916-935 *)
Definition rebase_pres (p : pres) : option pres :=
  match in_turn p with
  | Some ss => let m := least_start (map n_points ss) in
    Some (if m <? 0 then fold_left (fun p i => on_id i (moved (m * -1)) p) (zupto 0 (length p)) p else p)
  | None => None
  end.

(** * the manifest *)
(** a bit rate goes to the renderer as int32_t 725, 757 *)
Definition int32 (x : Z) : Z := (x + 2 ^ 31) mod 2 ^ 32 - 2 ^ 31.
(** _stream_id, _group_id, _maxWidth, _maxHeight, _xml *)
Record mpd_doc := mkDoc { d_stream : Z; d_group : Z; d_width : Z; d_height : Z; d_xml : list Z }.
(** _codecs and _rappresentation_xml of the stream *)
Record mpd_reps := mkReps { m_doc : mpd_doc; m_codecs : list Z; m_reps : list Z }.
(** add_video_bitrate 136-207 *)
Definition add_video (m : mpd_reps) (r : rep) : mpd_reps :=
  let d := m_doc m in
  let codecs := codec_name (r_private r) in
  let rate := dec_signed (int32 (r_rate r)) in
  let first := match m_codecs m with [] => true | _ => false end in
  let add_codec := negb first && negb (eqs (m_codecs m) codecs) in
  mkReps
    (mkDoc (d_stream d) (d_group d + 1) (if d_width d <? r_width r then r_width r else d_width d) (if d_height d <? r_height r then r_height r else d_height d) (d_xml d))
    (if first then codecs else m_codecs m)
    (m_reps m ++ [9; 9; 9] ++ str "<Representation id=""" ++ dec (d_stream d) ++ str "_" ++ rate ++ str """ frameRate=""25"" sar=""1:1"" startWithSAP=""1"" bandwidth=""" ++ rate
       ++ (if add_codec then str """ codecs=""" ++ codecs else []) ++ str """ width=""" ++ dec_signed (r_width r) ++ str """ height=""" ++ dec_signed (r_height r) ++ str """/>" ++ CRLF).
(** add_audio_bitrate 209-241 *)
Definition add_audio (sampling : Z) (m : mpd_reps) (r : rep) : mpd_reps :=
  let d := m_doc m in
  mkReps
    (mkDoc (d_stream d) (d_group d + 1) (d_width d) (d_height d) (d_xml d))
    (match m_codecs m with [] => str "mp4a.40.2" | c => c end)
    (m_reps m ++ [9; 9; 9] ++ str "<Representation id=""" ++ dec (d_stream d) ++ str """ bandwidth=""" ++ dec_signed (int32 (r_rate r)) ++ str """ audioSamplingRate=""" ++ dec_signed sampling ++ str """/>" ++ CRLF).
(** begin_stream 89-134: the start of the AdaptationSet *)
Definition set_start (stream group : Z) (audio : bool) : list Z :=
  [9; 9] ++ str "<AdaptationSet id=""" ++ dec stream ++ str """ group=""" ++ dec group ++ str """ segmentAlignment=""true"" contentType=""" ++ (if audio then str "audio" else str "video")
  ++ str """ mimeType=""" ++ (if audio then str "audio/mp4" else str "video/mp4") ++ str """ ".
(** end_stream 323-369: the rest of it; [cp] is the content protection of its kind *)
Definition set_rest (cp : list (list Z)) (name : list Z) (audio : bool) (timeline : list Z) (m : mpd_reps) : list Z :=
  str " codecs=""" ++ m_codecs m ++ (if audio then [] else str """ maxWidth=""" ++ dec_signed (d_width (m_doc m)) ++ str """ maxHeight=""" ++ dec_signed (d_height (m_doc m))) ++ str """ >" ++ CRLF
  ++ flat_map (fun c => c ++ CRLF) cp
  ++ [9; 9; 9] ++ str "<SegmentTemplate timescale=""10000000"" media=""" ++ name ++ str "_$Bandwidth$_$Time$.m4" ++ (if audio then str "a" else str "v")
  ++ str """ initialization=""" ++ name ++ str "_$Bandwidth$_i.m4" ++ (if audio then str "a" else str "v") ++ str """ >" ++ CRLF
  ++ [9; 9; 9] ++ str "<SegmentTimeline>" ++ CRLF ++ timeline ++ [9; 9; 9] ++ str "</SegmentTimeline>" ++ CRLF ++ [9; 9; 9] ++ str "</SegmentTemplate>" ++ CRLF
  ++ m_reps m ++ [9; 9] ++ str "</AdaptationSet>" ++ CRLF.
(** DynamicStream::render 654-680; [cpv], [cpa] the content protection of video and of audio *)
Definition render_strm (cpv cpa : list (list Z)) (d : mpd_doc) (s : strm) : option mpd_doc :=
  let d := mkDoc (d_stream d + 1) (d_group d) (d_width d) (d_height d) (d_xml d) in
  let m := fold_left (if n_audio s then add_audio (n_sampling s) else add_video) (n_reps s) (mkReps d [] []) in
  match render (n_points s) with
  | Some pts => let e := m_doc m in
    Some (mkDoc (d_stream e) (d_group e) (d_width e) (d_height e)
      (d_xml e ++ set_start (d_stream d) (d_group d) (n_audio s) ++ set_rest (if n_audio s then cpa else cpv) (n_name s) (n_audio s) (timeline_text (segs pts)) m))
  | None => None
  end.
Fixpoint render_all (cpv cpa : list (list Z)) (d : mpd_doc) (p : pres) : option mpd_doc :=
  match p with [] => Some d | s :: r => match render_strm cpv cpa d s with Some d => render_all cpv cpa d r | None => None end end.
(** begin 68-87 *)
Definition mpd_begin (protection : bool) (duration : Z) : list Z :=
  str "<MPD xmlns=""urn:mpeg:dash:schema:mpd:2011"" xmlns:xsi=""http://www.w3.org/2001/XMLSchema-instance"" profiles=""urn:mpeg:dash:profile:isoff-live:2011"" type=""static"" "
  ++ (if protection then str "xmlns:cenc=""urn:mpeg:cenc:2013"" xmlns:mspr=""urn:microsoft:playready"" " else [])
  ++ str "mediaPresentationDuration=""" ++ duration_text duration ++ str """ minBufferTime=""PT3S"">" ++ CRLF ++ [9] ++ str "<Period>" ++ CRLF.
(** DynamicPresentation::render 936-948; end 373-377 *)
Definition render_pres (cpv cpa : list (list Z)) (p : pres) : option (list Z) :=
  match by_id p 0 with
  | Some s0 =>
    match render_all cpv cpa (mkDoc 0 1 0 0 (mpd_begin (match cpv, cpa with [], [] => false | _, _ => true end) (duration (n_points s0)))) p with
    | Some d => Some (d_xml d ++ [9] ++ str "</Period>" ++ CRLF ++ str "</MPD>")
    | None => None
    end
  | None => None
  end.
(** index.mpd: mp4info.cpp 5474, 5502-5524 with CMP4DynamicInfo::render 1161-1165 *)
Definition manifest (cpv cpa : list (list Z)) (p : pres) : option (list Z) :=
  match rebase_pres p with Some p => render_pres cpv cpa p | None => None end.

(** * the files: mp4info.cpp 5556-5699; [last] is the text after the second underscore *)
Definition file_name (s : strm) (rate : Z) (last : list Z) : list Z :=
  n_name s ++ str "_" ++ dec rate ++ str "_" ++ last ++ (if n_audio s then str ".m4a" else str ".m4v").
(** 5611-5692: every point but the last *)
Fixpoint all_but_last (m : zmap Z) : list Z :=
  match m with [] => [] | [_] => [] | (k, _) :: r => k :: all_but_last r end.
Definition strm_files (s : strm) : list (list Z) :=
  flat_map (fun r => file_name s (r_rate r) (str "i") :: map (fun t => file_name s (r_rate r) (dec t)) (all_but_last (n_points s))) (n_reps s).
(** after the manifest, so with the times moved *)
Definition files_written (p : pres) : option (list (list Z)) :=
  match rebase_pres p with
  | Some p => option_map (flat_map strm_files) (in_turn p)
  | None => None
  end.

(** * Specification vocabulary: a player *)
(** the tags of an XML text: name ("/name" for an end tag) and attributes *)
Record tag := mkTag { tag_name : list Z; tag_attrs : list (list Z * list Z) }.
Inductive scan_state :=
  | Outside
  | InName (name : list Z)
  | InTag (name : list Z) (attrs : list (list Z * list Z))
  | InKey (name : list Z) (attrs : list (list Z * list Z)) (key : list Z)
  | InEq (name : list Z) (attrs : list (list Z * list Z)) (key : list Z)
  | InValue (name : list Z) (attrs : list (list Z * list Z)) (key value : list Z).
Definition is_space (c : Z) : bool := (c =? 32) || (c =? 9) || (c =? 13) || (c =? 10).
Definition scan_char (st : scan_state * list tag) (c : Z) : scan_state * list tag :=
  let '(s, ts) := st in
  match s with
  | Outside => if c =? 60 then (InName [], ts) else (Outside, ts)
  | InName n => if is_space c then (InTag n [], ts) else if c =? 62 then (Outside, ts ++ [mkTag n []]) else (InName (n ++ [c]), ts)
  | InTag n a => if is_space c || (c =? 47) then (InTag n a, ts) else if c =? 62 then (Outside, ts ++ [mkTag n a]) else (InKey n a [c], ts)
  | InKey n a k => if c =? 61 then (InEq n a k, ts) else (InKey n a (k ++ [c]), ts)
  | InEq n a k => if c =? 34 then (InValue n a k [], ts) else (InEq n a k, ts)
  | InValue n a k v => if c =? 34 then (InTag n (a ++ [(k, v)]), ts) else (InValue n a k (v ++ [c]), ts)
  end.
Definition scan (l : list Z) : scan_state * list tag := fold_left scan_char l (Outside, []).
Fixpoint same_text (a b : list Z) : bool := match a, b with [], [] => true | x :: a, y :: b => (x =? y) && same_text a b | _, _ => false end.
Definition attr (k : list Z) (t : tag) : option (list Z) := option_map snd (List.find (fun a => same_text (fst a) k) (tag_attrs t)).
Definition attr_or (k : list Z) (t : tag) (d : list Z) : list Z := match attr k t with Some v => v | None => d end.
(** the substitutions of ISO/IEC 23009-1, 5.3.9.4.4 in a template: [ident] is the identifier
    being read, None outside of one *)
Definition substitute (bandwidth time ident : list Z) : list Z :=
  if same_text ident (str "Bandwidth") then bandwidth else if same_text ident (str "Time") then time else match ident with [] => [36] | _ => [] end.
Fixpoint expand_template (bandwidth time : list Z) (ident : option (list Z)) (l : list Z) : list Z :=
  match l with
  | [] => []
  | c :: r => match ident with
    | None => if c =? 36 then expand_template bandwidth time (Some []) r else c :: expand_template bandwidth time None r
    | Some i => if c =? 36 then substitute bandwidth time i ++ expand_template bandwidth time None r else expand_template bandwidth time (Some (i ++ [c])) r
    end
  end.
(** an adaptation set being read: template, initialization, timeline, bandwidths; URLs so far *)
Record player := mkPlayer { pl_media : list Z; pl_init : list Z; pl_line : list selt; pl_rates : list (list Z); pl_urls : list (list Z) }.
Definition player_tag (p : player) (t : tag) : player :=
  let is n := same_text (tag_name t) (str n) in
  if is "AdaptationSet"%string then mkPlayer [] [] [] [] (pl_urls p)
  else if is "SegmentTemplate"%string then mkPlayer (attr_or (str "media") t []) (attr_or (str "initialization") t []) (pl_line p) (pl_rates p) (pl_urls p)
  else if is "S"%string then mkPlayer (pl_media p) (pl_init p) (pl_line p ++ [mkS (undec (attr_or (str "d") t [])) (option_map undec (attr (str "t") t)) (undec (attr_or (str "r") t []))]) (pl_rates p) (pl_urls p)
  else if is "Representation"%string then mkPlayer (pl_media p) (pl_init p) (pl_line p) (pl_rates p ++ [attr_or (str "bandwidth") t []]) (pl_urls p)
  else if is "/AdaptationSet"%string then mkPlayer [] [] [] []
    (pl_urls p ++ flat_map (fun b => expand_template b [] None (pl_init p) :: map (fun x => expand_template b (dec (fst x)) None (pl_media p)) (segments 0 (pl_line p))) (pl_rates p))
  else p.
Definition play_tags (l : list tag) : list (list Z) := pl_urls (fold_left player_tag l (mkPlayer [] [] [] [] [])).
(** everything a player of the manifest may ask for: for every representation the initialization
    and the media segments of the timeline *)
Definition player_urls (text : list Z) : list (list Z) := play_tags (snd (scan text)).
(** text which, inside a manifest, is a number of complete elements a player does not use here *)
Definition harmless (l : list Z) : Prop :=
  fst (scan l) = Outside /\ Forall (fun t => ~ In (tag_name t) [str "AdaptationSet"; str "SegmentTemplate"; str "S"; str "Representation"; str "/AdaptationSet"]) (snd (scan l)).
(** a name which can be part of an attribute and of a template *)
Definition plain_name (l : list Z) : Prop := ~ In 34 l /\ ~ In 36 l /\ ~ In 38 l /\ ~ In 60 l.
(** rates in order, times in order and in range *)
Definition rates_ok (l : list rep) : Prop := NoDup (map r_rate l) /\ Forall (fun r => 0 <= r_rate r < 2 ^ 31) l.
Definition points_ok (m : zmap Z) : Prop := m <> [] /\ sorted m /\ Forall (fun p => - 2 ^ 62 <= fst p < 2 ^ 62) m.
(** a stream fit to be published; what it holds besides the name *)
Definition strm_ok (s : strm) : Prop := plain_name (n_name s) /\ rates_ok (n_reps s) /\ points_ok (n_points s) /\ Forall (fun r => bytes (r_private r)) (n_reps s).
Definition content (s : strm) := (n_audio s, n_id s, n_sampling s, n_reps s, n_points s).
(** the tags of a name in a text; the values of an attribute in them *)
Definition tags_named (name : list Z) (text : list Z) : list tag := filter (fun t => same_text (tag_name t) name) (snd (scan text)).
