(** Model of levelling the start of the streams of an mp4 file, MP4Write::level_start_time of
    /repo/src/mg/media/mp4write.h 1665-1709, 2283-2318 (called by MP4Mux::end, mp4mux.h 368-369),
    of the edit list which carries a stream's offset, written by mp4write.h 688-716 with
    EditListBox of media/mp4/mp4.fl 696-784, and of reading it, mp4parse.h 1181-1197, 2374-2378.
    Times are unsigned 64 bits in units of 100 ns. *)
From Verif Require Import Util SampleTab_model Box_model Frag_model.
Local Open Scope Z_scope.

(** a stream: its samples (composition, decoding time) in decoding order, _ctts_offset and
    _stream_offset *)
Record stream := mkL { l_samples : list (Z * Z); l_ctts : Z; l_offset : Z }.
(** get_start_time, get_decoding_start_time 1002-1016 *)
Definition start_time (s : stream) : Z := match l_samples s with [] => U64MAX | (c, _) :: _ => c end.
Definition decoding_start (s : stream) : Z := match l_samples s with [] => U64MAX | (_, d) :: _ => d end.
(** get_duration 1018-1028, of a stream with samples *)
Definition stream_duration (s : stream) : Z := u64 (fst (last (l_samples s) (0, 0)) - start_time s).
(** min_stream_start_number 1665-1691: the stream with the earliest start; None = an exception *)
Fixpoint earliest (best : option stream) (min : Z) (l : list stream) : option stream :=
  match l with
  | [] => best
  | s :: l => if start_time s <? min then earliest (Some s) (start_time s) l else earliest best min l
  end.
(** max_stream_ctts_offset 1694-1709 *)
Definition max_ctts (l : list stream) : Z := fold_left (fun m s => if m <? l_ctts s then l_ctts s else m) l 0.
(** the loop 2292-2316 for one stream *)
Definition level_one (use_stream_offset : bool) (start_less max : Z) (s : stream) : stream :=
  let start := u64 (start_time s - decoding_start s) in
  let target := start_time s in
  let ctts := l_ctts s in
  let offset := if start <? u64 (target - start_less) then u64 (u64 (target - start_less) - start) else 0 in
  let offset := if ctts <? max then u64 (offset + (max - ctts)) else offset in
  if offset =? 0 then s
  else if use_stream_offset then mkL (l_samples s) ctts offset
  else mkL (l_samples s) (u64 (offset + ctts)) (l_offset s).
(** level_start_time 2283-2318; None = an exception *)
Definition level_start_time (use_stream_offset : bool) (l : list stream) : option (list stream) :=
  match earliest None U64MAX l with
  | None => None
  | Some s => Some (map (level_one use_stream_offset (decoding_start s) (max_ctts l)) l)
  end.

(** * The edit list *)
(** EditListBox::put, version 0: entries (segment duration, media time), rate 1.0 *)
Definition elst_entry (e : Z * Z) : list Z := be32 (u32 (fst e)) ++ be32 (u32 (snd e)) ++ be 2 1 ++ be 2 0.
Definition elst_body (l : list (Z * Z)) : list Z := full 0 0 ++ be32 (Z.of_nat (length l)) ++ concat (map elst_entry l).
(** write_edts 688-716: the content of the elst box, None = not written; [scale] converts to
    ticks of the movie *)
Definition write_edts (scale : Z -> Z) (s : stream) : option (list Z) :=
  if l_offset s =? 0 then None else Some (elst_body [(scale (l_offset s), -1); (scale (stream_duration s), 0)]).
(** EditListBox::get: version, entries; media_time is signed *)
Definition s64_of (hi lo : Z) : Z := s64 (hi * 2 ^ 32 + lo).
Definition get_elst : rdr (list (Z * Z)) :=
  rbind (rnum 1) (fun v => rbind (rnum 3) (fun _ => rbind (rnum 4) (fun n =>
  rrep (Z.to_nat n) (rbind (if v =? 1 then rbind (rnum 8) (fun d => rbind (rnum 4) (fun h => rbind (rnum 4) (fun t => rret (d, s64_of h t))))
                            else rbind (rnum 4) (fun d => rbind (rnum 4) (fun t => rret (d, sint t))))
                     (fun e => rbind (rnum 4) (fun _ => rret e)))))).
(** parse_elst 1181-1197: _stream_offset, in ticks of the movie; None = end of the file *)
Definition parse_elst (f : list Z) (p : Z) : option Z :=
  match get_elst f p with
  | None => None
  | Some (l, _) => Some (match l with [(d, t); _] => if t =? -1 then d else 0 | _ => 0 end)
  end.
(** get_stream_offset 2374-2378; [ts] = _mvhd_time_scale *)
Definition stream_offset_hns (ts ticks : Z) : Z := u64 (10000000 * ticks) / ts.

(** * Specification vocabulary *)
(** When, from the start of the movie, the tables of a stream say that its sample of composition
    time [c] is presented: the decoding times count from the first sample (C35), the
    composition offset is added, and the edit list delays the stream. *)
Definition presented (s : stream) (c : Z) : Z := c - snd (hd (0, 0) (l_samples s)) + l_ctts s + l_offset s.
(** a stream with samples, as the writer has it before: the first sample presented no earlier
    than decoded, times far from wrapping *)
Definition ready (s : stream) : Prop :=
  l_offset s = 0 /\ 0 <= l_ctts s < 2 ^ 62
  /\ match l_samples s with [] => False | (c, d) :: _ => 0 <= d <= c /\ c < 2 ^ 62 end.
Definition first_comp (s : stream) : Z := fst (hd (0, 0) (l_samples s)).
Definition first_dec (s : stream) : Z := snd (hd (0, 0) (l_samples s)).
(** [s] is the stream that starts first *)
Definition starts_first (s : stream) (l : list stream) : Prop := In s l /\ forall x, In x l -> first_comp s <= first_comp x.
(** [m] is the greatest composition offset *)
Definition greatest_ctts (m : Z) (l : list stream) : Prop := (exists s, In s l /\ l_ctts s = m) /\ forall s, In s l -> l_ctts s <= m.
