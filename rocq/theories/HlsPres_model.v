(** Model of a published HLS presentation: do_hls_mux (/repo/src/mg/media/tsinfo.cpp 839-1150,
    names and texts; the segments themselves are given) with HLSRenderer
    (/repo/src/mg/media/hls_renderer.h 67-281; the media playlist is Hls_model) on the streams of
    Pres_model.  None: dereferences a null pointer or the end of an empty map. *)
From Coq Require Import String.
From Verif Require Import Util Dec_spec Str_model Mpd_model Points_model Hls_model HlsCrypt_model Pres_model.
Local Open Scope Z_scope.

(** * main.m3u8 *)
(** _audio_bit_rate, _prefix, _root_m3u, _bit_rate, _bit_rate_m3u (last write first) *)
Record root := mkRoot { o_audio : Z; o_prefix : list Z; o_text : list Z; o_rates : list Z; o_names : list (Z * list Z) }.
(** 67-81, begin 90-96 *)
Definition root0 : root := mkRoot 96000 (str "video") (str "#EXTM3U" ++ [10] ++ str "#EXT-X-VERSION:3" ++ [10]) [] [].
(** add_video_bitrate 113-162; the sum of the rates is an int, its overflow taken to wrap *)
Definition root_video (o : root) (r : rep) : root :=
  let rate := int32 (r_rate r) in
  let name := o_prefix o ++ str "_" ++ dec_signed rate ++ str ".m3u8" in
  mkRoot (o_audio o) (o_prefix o)
    (o_text o ++ str "#EXT-X-STREAM-INF:BANDWIDTH=" ++ dec_signed (int32 (rate + o_audio o)) ++ str ",RESOLUTION=" ++ dec_signed (r_width r) ++ str "x" ++ dec_signed (r_height r)
       ++ str ",CODECS=""" ++ codec_name (r_private r) ++ str "," ++ str "mp4a.40.2" ++ str """" ++ [10] ++ name ++ [10])
    (o_rates o ++ [rate]) ((rate, name) :: o_names o).
(** add_audio_bitrate 163-176 *)
Definition root_audio (o : root) (r : rep) : root := mkRoot (int32 (r_rate r)) (o_prefix o) (o_text o) (o_rates o) (o_names o).
(** begin_stream 98-111 (_use_stream_name is true), then the bit rates *)
Definition root_strm (o : root) (s : strm) : root :=
  if n_audio s then fold_left root_audio (n_reps s) o
  else fold_left root_video (n_reps s) (mkRoot (o_audio o) (n_name s) (o_text o) (o_rates o) (o_names o)).
Definition root_of (p : pres) : root := fold_left root_strm p root0.

(** * the calls on the media playlist: DynamicStream::render 654-680, DynamicPresentation::render *)
Definition strm_calls (s : strm) : option (list call) :=
  match render (n_points s) with
  | Some pts => Some ((if n_audio s then BeginAudio (n_name s) else BeginVideo (n_name s)) :: map (fun q => Point (p_time q) (p_dur q)) pts)
  | None => None
  end.
Definition hls_of (enc : bool) (p : pres) : option hls :=
  match by_id p 0 with
  | Some _ => option_map (fun l => calls (hls0 true enc (str "hls3.key")) (concat l ++ [EndAll])) (all_some (map strm_calls p))
  | None => None
  end.

(** * the files: tsinfo.cpp 875-944.  bit_rate_name 249-253, bit_rate_body 263-270 *)
Definition playlist_file (o : root) (h : hls) (rate : Z) : option (list Z * list Z) :=
  match List.find (fun x => fst x =? rate) (o_names o), replace (h_body h) (dec_signed rate) BITRATE with
  | Some (_, name), Some text => Some (name, text)
  | _, _ => None
  end.
(** name and content, in the order written; [key]: the key given, if any *)
Definition text_files (key : option (list Z)) (p : pres) : option (list (list Z * list Z)) :=
  match rebase_pres p with
  | Some p =>
    match hls_of (match key with Some _ => true | None => false end) p with
    | Some h =>
      let o := root_of p in
      option_map (fun l => (str "main.m3u8", o_text o) :: match key with Some k => [(str "hls3.key", k)] | None => [] end ++ l) (all_some (map (playlist_file o h) (o_rates o)))
    | None => None
    end
  | None => None
  end.
(** the segments: 967-1146.  For each the number given to hls_encrypt 1137: [sequence], an
    unsigned char, is counted up at 1066 before *)
Fixpoint numbered_from (k : Z) (l : list Z) : list (Z * Z) := match l with [] => [] | t :: r => (t, (k + 1) mod 256) :: numbered_from ((k + 1) mod 256) r end.
Definition strm_segments (s : strm) : list (list Z * Z) :=
  if n_audio s then []
  else flat_map (fun r => map (fun x => (str "video_" ++ dec (r_rate r) ++ str "_" ++ dec (fst x) ++ str ".ts", snd x)) (numbered_from 0 (all_but_last (n_points s)))) (n_reps s).
Definition segment_files (p : pres) : option (list (list Z * Z)) :=
  match rebase_pres p with
  | Some p => option_map (flat_map strm_segments) (in_turn p)
  | None => None
  end.
(** hls_encrypt 594-634 *)
Definition encrypt_segment (E : list Z -> list Z) (clear : list Z) (sequence : Z) : option (list Z) :=
  let size := enc_size (zlen clear) in
  match hls3_encrypt E (repeat 0 (Z.to_nat size)) size clear sequence with
  | Encrypted out n => Some (firstn (Z.to_nat n) out)
  | _ => None
  end.

(** * Specification vocabulary: a client of the playlists (RFC 8216 4.1) *)
(** lines end with LF or CR LF *)
Definition without_cr (l : list Z) : list Z := match rev l with 13 :: r => rev r | _ => l end.
Fixpoint text_lines (cur l : list Z) : list (list Z) :=
  match l with
  | [] => match cur with [] => [] | _ => [without_cr cur] end
  | c :: r => if c =? 10 then without_cr cur :: text_lines [] r else text_lines (cur ++ [c]) r
  end.
(** lines starting with '#' and blank lines are no URIs *)
Definition uris (text : list Z) : list (list Z) := filter (fun l => match l with [] => false | c :: _ => negb (c =? 35) end) (text_lines [] text).
(** what a directory holds under a name after the writes *)
Definition file_of (files : list (list Z * list Z)) (name : list Z) : option (list Z) := option_map snd (List.find (fun f => same_text (fst f) name) (rev files)).
(** the client: CBC with the number of the segment as initialisation vector, padding removed *)
Definition client_segment (D : list Z -> list Z) (data : list Z) (number : Z) : option (list Z) :=
  unpad (cbc_decrypt D (length data / 16) (be_bytes 16 number) data).
