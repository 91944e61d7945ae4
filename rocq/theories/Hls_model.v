(** Model of the HLS playlist writer, /repo/src/mg/media/hls_renderer.h 39-281.
    Text is a list of character codes.  The audio calls do not touch the media playlist and
    are left out, like the debug output. *)
From Coq Require Import String.
From Verif Require Import Util Dec_spec Str_model Mpd_model.
Local Open Scope Z_scope.

(** _body, _begin_stream, _video_points, _prefix, _encrypted, _key_file_name, _use_stream_name *)
Record hls := mkhls { h_body : list Z; h_begin : bool; h_video : bool; h_prefix : list Z; h_encrypted : bool; h_key : list Z; h_named : bool }.
Definition hls0 (named encrypted : bool) (key : list Z) : hls := mkhls [] false false (str "video") encrypted key named.
Definition BITRATE : list Z := str "$(BITRATE)".
(** 186-200 *)
Definition header_text (h : hls) (duration : Z) : list Z :=
  str "#EXTM3U" ++ CRLF ++ str "#EXT-X-VERSION:3" ++ CRLF ++ str "#EXT-X-ALLOW-CACHE:NO" ++ CRLF ++ str "#EXT-X-MEDIA-SEQUENCE:0" ++ CRLF
  ++ str "#EXT-X-TARGETDURATION:" ++ dec (duration / 10000000) ++ CRLF ++ str "#EXT-X-PROGRAM-DATE-TIME:1970-01-01T00:00:00Z" ++ CRLF
  ++ (if h_encrypted h then str "#EXT-X-KEY:METHOD=AES-128,URI=""" ++ h_key h ++ str """" ++ CRLF else []).
(** 206-218 *)
Definition segment_text (h : hls) (computed_time duration : Z) : list Z :=
  str "#EXTINF:" ++ dec (duration / 10000000) ++ str "." ++ dec (duration mod 1000000) ++ str ",no-desc" ++ CRLF
  ++ h_prefix h ++ str "_" ++ BITRATE ++ str "_" ++ dec computed_time ++ str ".ts" ++ CRLF.
Definition with_body (h : hls) (b : list Z) : hls := mkhls b false (h_video h) (h_prefix h) (h_encrypted h) (h_key h) (h_named h).
Inductive call := BeginVideo (name : list Z) | BeginAudio (name : list Z) | Point (computed_time duration : Z) | EndAll.
Definition do_call (h : hls) (c : call) : hls :=
  match c with
  | BeginVideo name => mkhls (h_body h) true true (if h_named h then name else h_prefix h) (h_encrypted h) (h_key h) (h_named h) (* 98-111 *)
  | BeginAudio _ => mkhls (h_body h) true false (h_prefix h) (h_encrypted h) (h_key h) (h_named h)
  | Point t d => (* 177-220 *)
    if h_video h then with_body h (h_body h ++ (if h_begin h then header_text h d else []) ++ segment_text h t d) else h
  | EndAll => (* 237-244 *)
    if h_video h then mkhls (h_body h ++ str "#EXT-X-ENDLIST" ++ CRLF) (h_begin h) (h_video h) (h_prefix h) (h_encrypted h) (h_key h) (h_named h) else h
  end.
Definition calls (h : hls) (cs : list call) : hls := fold_left do_call cs h.
(** 255-261 *)
Definition bit_rate_body (h : hls) (bit_rate : Z) : option (list Z) := replace (h_body h) (dec bit_rate) BITRATE.

(** * Specification vocabulary *)
(** the lines of a text in which every line ends with CR LF *)
Fixpoint lines (cur l : list Z) : list (list Z) :=
  match l with
  | [] => match cur with [] => [] | _ => [cur] end
  | 13 :: 10 :: r => cur :: lines [] r
  | c :: r => lines (cur ++ [c]) r
  end.
(** a name usable in the playlist: no CR, no '$' *)
Definition plain (l : list Z) : Prop := ~ In 13 l /\ ~ In 36 l.
(** what RFC 8216 asks: every segment's duration, rounded to the nearest second, is at most
    the target *)
Definition rounded (d : Z) : Z := (d + 5000000) / 10000000.
