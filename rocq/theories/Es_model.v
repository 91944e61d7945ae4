(** Model of elementary streams in a transport stream.
    Writing: an H.264 sample of an mp4 file as an access unit with start codes,
    /repo/src/mg/media/tsmux.h 78-252, and an AAC sample with an ADTS header, tsmux.h 254-355,
    mp4/aac.fl 57-82, 151-208.
    Reading: the units of a PES payload, /repo/src/mg/media/tsparse.h 246-387 (AAC), 452-546
    (H.264), and the samples made of them, tsinfo.cpp 190-326.
    The bit reader on the payload is the one of Bitstream_model (C04): has_bits(n) tells whether n
    bits are left, skipbits stops at the end, nextbits and getbits throw EndOfData past it.  Here
    it is the list of bytes left; all reads start at a byte.  The memory writers (_header, _body,
    set_position to go back to the fixed part) are lists.  Console output is not modelled. *)
From Verif Require Import Util Bits_spec SampleTab_model TsTime_model Ts_model Box_model.
Local Open Scope Z_scope.

(** * H.264, writing *)
(** write_nal_9 88-100: access unit delimiter *)
Definition nal9 : list Z := [0; 0; 0; 1; 9; 0xf0].
Definition code4 : list Z := [0; 0; 0; 1].
(** init 102-129 *)
Definition parameter_sets (sps pps : list Z) : list Z := code4 ++ sps ++ code4 ++ pps.
(** the loop 182-185 with process_nal 131-161, _nal_lengthSize = 4: at most [n] units; None = a
    read outside the sample (only an assertion, and a wrong one, checks the size) *)
Fixpoint put_nals (n : nat) (sample : list Z) : option (list Z) :=
  match sample, n with
  | [], _ => Some []
  | _, O => None
  | _, S n =>
    let size := be_val 0 (firstn 4 sample) in
    if (length sample <? 4)%nat || (zlen sample - 4 <? size) then None
    else match put_nals n (skipn (4 + Z.to_nat size) sample) with
         | Some r => Some (code4 ++ firstn (Z.to_nat size) (skipn 4 sample) ++ r)
         | None => None
         end
  end.
(** add_sample 164-226: the body of the PES packet *)
Definition access_unit (sps pps : list Z) (iframe : bool) (sample : list Z) : option (list Z) :=
  match put_nals (length sample) sample with
  | Some r => Some (nal9 ++ (if iframe then parameter_sets sps pps else []) ++ r)
  | None => None
  end.

(** * H.264, reading *)
(** 469-475: to the next start code, or to where less than 3 bytes are left *)
Fixpoint find_code (l : list Z) : list Z :=
  match l with
  | a :: ((b :: c :: _) as r) => if (a =? 0) && (b =? 0) && (c =? 1) then l else find_code r
  | _ => l
  end.
(** 503-524: the bytes up to the next start code; when less than 4 bytes are left all of them *)
Fixpoint nal_bytes (l : list Z) : list Z * list Z :=
  match l with
  | a :: ((b :: c :: d :: _) as r) =>
    if ((a =? 0) && (b =? 0) && (c =? 1)) || ((a =? 0) && (b =? 0) && (c =? 0) && (d =? 1)) then ([], l)
    else let '(p, rest) := nal_bytes r in (a :: p, rest)
  | _ => (l, [])
  end.
(** the loop 467-534: type and bytes of the units (NalPayload); None = EndOfData.  At most [n]
    rounds *)
Fixpoint split_nals (n : nat) (l : list Z) : option (list (Z * list Z)) :=
  match l, n with
  | [], _ => Some []
  | _, O => None
  | _, S n =>
    match skipn 3 (find_code l) with
    | [] => None                                                (* 492: nextbits(8) at the end *)
    | (h :: _) as r =>
      let '(p, rest) := nal_bytes r in
      match split_nals n rest with Some u => Some ((Z.land 31 h, p) :: u) | None => None end
    end
  end.
Definition units_of (payload : list Z) : option (list (Z * list Z)) := split_nals (length payload) payload.
(** TS2MP4H264 190-281: _sps, _pps (empty = none), _stream_idx set or not, _sample_payload *)
Record vstate := mkV { v_sps : list Z; v_pps : list Z; v_open : bool; v_sample : list Z }.
Definition v0 : vstate := mkV [] [] false [].
(** NalPayload 219-271; AU = 9, SEQUENCE = 7, PICTURE = 8 (h264nal.h 28-43) *)
Definition nal_payload (s : vstate) (u : Z * list Z) : vstate :=
  let '(t, p) := u in
  if t =? 9 then s
  else if t =? 7 then mkV (match v_sps s with [] => p | x => x end) (v_pps s) (v_open s) (v_sample s)
  else if t =? 8 then match v_pps s with [] => mkV (v_sps s) p true (v_sample s) | _ => s end
  else mkV (v_sps s) (v_pps s) (v_open s) (v_sample s ++ be 4 (zlen p) ++ p).
(** PacketEnd 201-217: the sample given to the mp4 file; NoStream = add_sample with stream -1 *)
Inductive vresult := Sample (s : vstate) (body : list Z) | NoStream | EndOfData.
Definition read_access_unit (s : vstate) (payload : list Z) : vresult :=
  match units_of payload with
  | None => EndOfData
  | Some us => let s := fold_left nal_payload us s in
    if v_open s then Sample (mkV (v_sps s) (v_pps s) true []) (v_sample s) else NoStream
  end.
(** one access unit after the other: the samples and the state, None = NoStream or EndOfData *)
Fixpoint read_access_units (s : vstate) (l : list (list Z)) : option (vstate * list (list Z)) :=
  match l with
  | [] => Some (s, [])
  | a :: l => match read_access_unit s a with
              | Sample s b => match read_access_units s l with Some (s, r) => Some (s, b :: r) | None => None end
              | _ => None
              end
  end.

(** * AAC, writing *)
(** aac.fl 57-82: the codes of the sample rates and the numbers of channels *)
Definition rates : list Z := [96000; 88200; 64000; 48000; 44100; 32000; 24000; 22050; 16000; 12000; 11025; 8000; 7350].
Definition channels : list Z := [0; 1; 2; 3; 4; 5; 6; 8].
Fixpoint code_of (x : Z) (l : list Z) : option Z :=
  match l with [] => None | y :: l => if x =? y then Some 0 else option_map (Z.add 1) (code_of x l) end.
(** ADTS of aac.fl 151-208 as TSMuxAACStream fills it (271-309); None = a value without code *)
Definition adts_header (object rate chan body : Z) : option (list Z) :=
  match code_of rate rates, code_of chan channels with
  | Some r, Some c =>
    Some (pack [(0xFFF, 12%nat); (0, 1%nat); (0, 2%nat); (1, 1%nat); (u32 (object - 1), 2%nat); (r, 4%nat); (0, 1%nat); (c, 3%nat); (0, 1%nat); (0, 1%nat); (0, 1%nat); (0, 1%nat);
                (u32 (body + 7), 13%nat); (0x7FF, 11%nat); (0, 2%nat)])
  | _, _ => None
  end.
(** add_sample 290-349, one frame per PES packet (_pes_frames = 1): the body of the packet *)
Definition aac_unit (object rate chan : Z) (frame : list Z) : option (list Z) :=
  option_map (fun h => h ++ frame) (adts_header object rate chan (zlen frame)).

(** * AAC, reading *)
(** the fields the reader uses: object type, rate, channels, length of the body (unsigned), and
    the size of the header *)
Record adts := mkAdts { a_object : Z; a_rate : Z; a_chan : Z; a_body : Z; a_header : nat }.
(** ADTS::get on at least 9 bytes (277).  Of the values fixed by the grammar (syncword, layer)
    nothing depends; a code without value gives 0. *)
Definition get_adts (l : list Z) : adts :=
  match fields [12; 1; 2; 1; 2; 4; 1; 3; 1; 1; 1; 1; 13; 11; 2]%nat (bytes_bits (firstn 7 l)) with
  | [_; _; _; absent; object; r; _; c; _; _; _; _; len; _; _] =>
    let h := if absent =? 0 then 9 else 7 in
    mkAdts (object + 1) (nth (Z.to_nat r) rates 0) (nth (Z.to_nat c) channels 0) (u32 (len - h)) (Z.to_nat h)
  | _ => mkAdts 0 0 0 0 0
  end.
(** 267-273: to the next 12 set bits, or to where less than 12 bits are left *)
Fixpoint find_sync (l : list Z) : list Z :=
  match l with
  | a :: ((b :: _) as r) => if (a =? 255) && (b / 16 =? 15) then l else find_sync r
  | _ => l
  end.
(** the loop 263-380: the frames (AACPayload); at most [n] rounds *)
Fixpoint split_aac (n : nat) (l : list Z) : list (adts * list Z) :=
  match l, n with
  | [], _ => []
  | _, O => []
  | _, S n =>
    let r := find_sync l in
    if (length r <? 9)%nat then []                              (* 277, 360-375 *)
    else
      let a := get_adts r in
      let r := skipn (a_header a) r in
      (* 285-296: full_body only when the loop gets to its last byte (which it does before it
         looks whether there is one) *)
      if (a_body a =? 0) || ((zlen r <? a_body a) && negb ((a_body a =? 1) && (zlen r =? 0))) then []
      else (a, firstn (Z.to_nat (a_body a)) r) :: split_aac n (skipn (Z.to_nat (a_body a)) r)
  end.
Definition frames_of (payload : list Z) : list (adts * list Z) := split_aac (length payload) payload.
(** AACPayload 291-318: composition time (= decoding time) and duration of frame number [i] of a
    packet; None = division by zero *)
Definition aac_time (pts rate : Z) (i : nat) : option (Z * Z) :=
  if rate =? 0 then None else let frame_time := u64 (10000000 / rate * 1024) in Some (u64 (pts + u64 (frame_time * Z.of_nat i)), frame_time).

(** * Specification vocabulary *)
(** a unit without start code inside *)
Definition no_code (u : list Z) : Prop := forall a b, u <> a ++ [0; 0; 1] ++ b.
(** an H.264 unit as it may be in a sample *)
Definition is_nal (u : list Z) : Prop := u <> [] /\ bytes u /\ no_code u /\ zlen u < 2 ^ 32.
(** the type of a unit, in the 5 low bits of its first byte *)
Definition nal_type (u : list Z) : Z := hd 0 u mod 32.
(** a sample of an mp4 file: units, each after its length of 4 bytes *)
Definition avcc (us : list (list Z)) : list Z := concat (map (fun u => be 4 (zlen u) ++ u) us).
(** without delimiters and parameter sets *)
Definition picture_units (us : list (list Z)) : list (list Z) := filter (fun u => negb ((nal_type u =? 7) || (nal_type u =? 8) || (nal_type u =? 9))) us.
(** an access unit with start codes of 4 bytes *)
Definition annex_b (us : list (list Z)) : list Z := concat (map (fun u => [0; 0; 0; 1] ++ u) us).
(** units after start codes of 4 or (false) 3 bytes *)
Definition start_coded (us : list (bool * list Z)) : list Z := concat (map (fun x : bool * list Z => (if fst x then [0; 0; 0; 1] else [0; 0; 1]) ++ snd x) us).
(** the samples (units; key frame) and their access units with parameter sets before key frames *)
Definition with_delimiter (sps pps : list Z) (s : list (list Z) * bool) : list Z := annex_b ([9; 0xf0] :: (if snd s then [sps; pps] else []) ++ fst s).
(** an AAC frame the header can describe *)
Definition is_frame (f : list Z) : Prop := bytes f /\ 2 <= zlen f < 8185.
(** ADTS: a header (ISO/IEC 13818-7, 6.2) of 7 bytes, two bytes of checksum unless [crc] is empty,
    and the frame.  [object] is the audio object type, [ri] and [ci] the numbers of rate and
    channels in the tables above *)
Record adts_frame := mkFrame { af_version : Z; af_object : Z; af_ri : Z; af_private : Z; af_ci : Z; af_original : Z; af_home : Z; af_copyright : Z; af_copyright_start : Z; af_full : Z; af_crc : list Z; af_frame : list Z }.
Definition adts_bytes (x : adts_frame) : list Z :=
  pack [(0xFFF, 12%nat); (af_version x, 1%nat); (0, 2%nat); (match af_crc x with [] => 1 | _ => 0 end, 1%nat); (af_object x - 1, 2%nat); (af_ri x, 4%nat); (af_private x, 1%nat); (af_ci x, 3%nat); (af_original x, 1%nat); (af_home x, 1%nat); (af_copyright x, 1%nat); (af_copyright_start x, 1%nat);
        (7 + zlen (af_crc x) + zlen (af_frame x), 13%nat); (af_full x, 11%nat); (0, 2%nat)] ++ af_crc x ++ af_frame x.
Definition adts_frame_ok (x : adts_frame) : Prop :=
  1 <= af_object x <= 4 /\ 0 <= af_ri x < 13 /\ 0 <= af_ci x < 8 /\ (af_crc x = [] \/ length (af_crc x) = 2%nat) /\ 1 <= zlen (af_frame x) /\ 2 <= zlen (af_crc x) + zlen (af_frame x) < 8185.
