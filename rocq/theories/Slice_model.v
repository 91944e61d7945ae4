(** Model of what the list of frames of a track shows of each NAL unit: /repo/src/mgcli/mp4info.cpp
    2983-3123 (parse_h264_header), with slice_header, sei_message and pic_timing of
    /repo/src/mg/media/mp4/h264.fl 605-879 and 884-997.

    The reader is that of Sps_model.  The members of the generated classes that have no initial
    value and were not read are [None] here: the list shows whatever the memory held.  Not
    modelled: 205-223 and 727-784 (what is after 725, where slice_header returns), text output. *)
From Verif Require Import Util Bits_spec Bitstream_model Nal_model Sps_model.
Local Open Scope Z_scope.

(** var_bs.getbits(n) with a computed n: bitstream.h 1315; for n = 0 the shift 1335 is by 32 at
    the start of a byte *)
Definition getn (n : Z) : getter Z := if n =? 0 then gub else if (n <? 0) || (32 <? n) then (fun _ => InvalidInput) else getb (Z.to_nat n).

(** h264.fl 605-725: the members shown.  [l_field]: field_pic_flag, read when frame_mbs_only_flag
    is 0, and bottom_field_flag. *)
Record slice := mkSlice {
  l_first : Z; l_type : Z; l_pps : Z; l_frame_num : Z; l_field : option (Z * option Z); l_idr : Z; l_lsb : Z; l_bottom : Z; l_delta : Z * Z; l_redundant : Z;
  l_direct : option Z; l_override : option Z; l_l0 : Z; l_l1 : Z }.
(** [!field_pic_flag] 692, 698, with __pic_order_present_flag before it *)
Definition frame_order (p : pps) (field : option (Z * option Z)) : outcome bool :=
  if p_order p =? 0 then Ok false else match field with None => UB | Some (f, _) => Ok (f =? 0) end.
Definition lift {A} (o : outcome A) : getter A := fun s => bindo o (fun a => Ok (a, s)).
(** 683-705 *)
Definition get_slice_order (q : sps) (p : pps) (field : option (Z * option Z)) : getter (Z * Z * (Z * Z)) :=
  match q_order q with
  | Order0 n =>
    let* lsb := getn (n + 4) in
    let* f := lift (frame_order p field) in
    let* b := (if f then se else gret 0) in gret (lsb, b, (0, 0))
  | Order1 z _ _ _ =>
    if z =? 0 then
      let* d := se in
      let* f := lift (frame_order p field) in
      let* e := (if f then se else gret 0) in gret (0, 0, (d, e))
    else gret (0, 0, (0, 0))
  | OrderOther _ => gret (0, 0, (0, 0))
  end.
(** 605-725, [type] the type of the NAL unit *)
Definition get_slice (q : sps) (p : pps) (type : Z) : getter slice :=
  let* first := ue in let* st := ue in let* id := ue in
  let* fn := getn (q_frame_num q + 4) in
  let* field := (match q_field q with
    | None => gret None
    | Some _ => let* f := getb 1 in if f =? 0 then gret (Some (f, None)) else let* b := getb 1 in gret (Some (f, Some b)) end) in
  let* idr := (if type =? 5 then ue else gret 0) in
  let* ord := get_slice_order q p field in
  let* red := (if p_redundant p =? 0 then gret 0 else ue) in
  let* direct := (if st =? 1 then let* d := getb 1 in gret (Some d) else gret None) in
  let* refs := (if (st =? 0) || (st =? 3) || (st =? 1) then
      let* o := getb 1 in
      if o =? 0 then gret (Some o, 0, 0)
      else let* a := ue in let* b := (if st =? 1 then ue else gret 0) in gret (Some o, a, b)
    else gret (None, 0, 0)) in
  let '(lsb, bottom, delta) := ord in
  let '(over, l0, l1) := refs in
  gret (mkSlice first st id fn field idr lsb bottom delta red direct over l0 l1).

(** h264.fl 860-879: the bytes FF, then a last one *)
Fixpoint ffs (s : list bool) : Z * list bool :=
  match s with
  | true :: true :: true :: true :: true :: true :: true :: true :: s' => let '(n, t) := ffs s' in (255 + n, t)
  | _ => (0, s)
  end.
(** payloadType and payloadSize are ints *)
Definition ff_coded : getter Z := fun s => let '(n, t) := ffs s in bindo (getb 8 t) (fun r => if 2 ^ 31 <=? n + fst r then UB else Ok (n + fst r, snd r)).

(** h264.fl 958-993.  [c_time]: full_timestamp_flag 1, or what the flags say there is. *)
Inductive stamp := Full (s m h : Z) | Parts (s : option (Z * option (Z * option Z))).
Record clock := mkClock { c_type : Z; c_nuit : Z; c_counting : Z; c_discontinuity : Z; c_dropped : Z; c_frames : Z; c_time : stamp; c_offset : Z }.
Definition get_clock (len : Z) : getter clock :=
  let* t := getb 2 in let* n := getb 1 in let* c := getb 5 in let* full := getb 1 in
  let* d := getb 1 in let* dr := getb 1 in let* fr := getb 8 in
  let* tm := (if full =? 0 then
      let* p := opt (let* s := getb 6 in let* m := opt (let* m := getb 6 in let* h := opt (getb 5) in gret (m, h)) in gret (s, m)) in gret (Parts p)
    else let* s := getb 6 in let* m := getb 6 in let* h := getb 5 in gret (Full s m h)) in
  let* off := (if 0 <? len then getn len else gret 0) in
  gret (mkClock t n c d dr fr tm off).
(** 934-955 *)
Definition clocks (pic_struct : Z) : nat :=
  if pic_struct <=? 2 then 1 else if (pic_struct =? 3) || (pic_struct =? 4) || (pic_struct =? 7) then 2 else if (pic_struct =? 5) || (pic_struct =? 6) || (pic_struct =? 8) then 3 else 0.
(** 884-997.  [g_delays]: cpb_removal_delay, dpb_output_delay.  VUI is a null pointer when the
    sequence has none; HRD is that of nal_hrd_parameters only (125-131). *)
Record timing := mkTiming { g_delays : option (Z * Z); g_struct : option (Z * list (option clock)) }.
Definition get_timing (q : sps) : getter timing :=
  match q_vui q with
  | None => gub
  | Some u =>
    let '(len, cpb, dpb) := match u_nal u with Some h => (h_offset h, h_removal h + 1, h_output h + 1) | None => (0, 0, 0) end in
    let* delays := (match u_nal u, u_vcl u with
      | None, None => gret None
      | _, _ => let* a := getn cpb in let* b := getn dpb in gret (Some (a, b)) end) in
    let* st := (if u_struct u =? 0 then gret None
      else let* ps := getb 4 in let* l := rep (clocks ps) (opt (get_clock len)) in gret (Some (ps, l))) in
    gret (mkTiming delays st)
  end.

(** mp4info.cpp 3015-3114: a line for a slice (header size in bits, type and importance of the
    unit, decoded size), for a message (its type and size, and a timing), for anything else *)
Inductive line := SliceLine (hsize type ref size : Z) (s : slice) | SeiLine (type size : Z) (t : option timing) | OtherLine (type : Z).
Definition unit_line (q : sps) (p : pps) (u : list Z) : outcome line :=
  match decode_nal u with
  | None => EndOfData
  | Some d =>
    let s := bytes_bits (tl (rbsp d)) in
    let t := nal_unit_type d in
    if (1 <=? t) && (t <=? 5) then
      bindo (get_slice q p t s) (fun r => Ok (SliceLine (Z.of_nat (length s - length (snd r))) t (nal_ref_idc d) (Z.of_nat (length (rbsp d))) (fst r)))
    else if t =? 6 then
      bindo (ff_coded s) (fun r => let '(pt, s) := r in
      bindo (ff_coded s) (fun r => let '(ps, s) := r in
      if pt =? 1 then bindo (get_timing q s) (fun r => Ok (SeiLine pt ps (Some (fst r)))) else Ok (SeiLine pt ps None)))
    else Ok (OtherLine t)
  end.
(** 2993-3119: [n] the bytes of a length (get_nal_length_size); UB when a length, or what it says,
    goes beyond the sample.  The next unit is looked for 4 bytes and the length further on. *)
Fixpoint sample_lines (fuel : nat) (n : nat) (q : sps) (p : pps) (s : list Z) : outcome (list line) :=
  match s, fuel with
  | [], _ => Ok []
  | _, O => UB                                   (* not reached: 4 bytes at least are consumed each time *)
  | _, S k =>
    if Nat.leb n (length s) then
      let size := Z.to_nat (fold_left (fun a b => a * 256 + b) (firstn n s) 0) in
      if Nat.leb (n + size) (length s) then
        bindo (unit_line q p (firstn size (skipn n s))) (fun l =>
        bindo (sample_lines k n q p (skipn (size + 4) s)) (fun ls => Ok (l :: ls)))
      else UB
    else UB
  end.
(** the whole of a sample, with the first parameter sets of the record *)
Definition frame_lines (a : avcc) (s : list Z) : outcome (list line) :=
  match a_sps a, a_pps a with
  | q :: _, p :: _ => sample_lines (length s) (Z.to_nat (get_nal_length_size a)) q p s
  | _, _ => match s with [] => Ok [] | _ => UB end
  end.

(** * Specification vocabulary: ITU-T H.264 7.3.3 (up to num_ref_idx_l1_active_minus1), D.1.2 *)
(** the syntax elements there are *)
Record header := mkHeader {
  e_first : Z; e_type : Z; e_pps : Z; e_colour : option Z; e_frame_num : Z; e_field : option (option Z); e_idr : option Z; e_order : list Z; e_redundant : option Z;
  e_direct : option Z; e_refs : option (list Z) }.
(** [e_field]: field_pic_flag is 1 when it is [Some], with bottom_field_flag; [e_order]: what the
    type of picture order asks for; [e_refs]: the numbers of references when overridden *)
Definition is_b (type : Z) : bool := type mod 5 =? 1.
Definition is_p (type : Z) : bool := type mod 5 =? 0.
Definition is_sp (type : Z) : bool := type mod 5 =? 3.
Definition has {A} (o : option A) : bool := match o with Some _ => true | None => false end.
Definition colour_planes (q : sps) : bool := match q_high q with Some (f, Some r, _, _, _, _) => r =? 1 | _ => false end.
Definition pair_of_frame (q : sps) (p : pps) (h : header) : bool := (p_order p =? 1) && negb (has (e_field h)).
Definition header_syntax (q : sps) (p : pps) (type : Z) (h : header) : list bool :=
  ue_code (e_first h) ++ ue_code (e_type h) ++ ue_code (e_pps h)
  ++ (match e_colour h with Some c => field_bits c 2 | None => [] end)
  ++ field_bits (e_frame_num h) (Z.to_nat (q_frame_num q + 4))
  ++ (match q_field q with None => [] | Some _ => match e_field h with None => [false] | Some b => true :: match b with Some b => flag b | None => [] end end end)
  ++ (match e_idr h with Some i => ue_code i | None => [] end)
  ++ (match q_order q, e_order h with
      | Order0 n, lsb :: r => field_bits lsb (Z.to_nat (n + 4)) ++ concat (map se_code r)
      | _, l => concat (map se_code l)
      end)
  ++ (match e_redundant h with Some r => ue_code r | None => [] end)
  ++ (match e_direct h with Some d => flag d | None => [] end)
  ++ (if is_p (e_type h) || is_sp (e_type h) || is_b (e_type h) then match e_refs h with None => [false] | Some l => true :: concat (map ue_code l) end else []).
(** which elements there are, and their ranges *)
Definition header_ok (q : sps) (p : pps) (type : Z) (h : header) : Prop :=
  is_ue (e_first h) /\ 0 <= e_type h <= 9 /\ is_ue (e_pps h)
  /\ (has (e_colour h) = colour_planes q) /\ given (is_u 2) (e_colour h)
  /\ 0 <= q_frame_num q <= 12 /\ is_u (Z.to_nat (q_frame_num q + 4)) (e_frame_num h)
  /\ (q_field q = None -> e_field h = None) /\ given (fun b => exists v, b = Some v /\ is_flag v) (e_field h)
  /\ has (e_idr h) = (type =? 5) /\ given is_ue (e_idr h)
  /\ (match q_order q with
      | Order0 n => 0 <= n <= 12 /\ exists lsb r, e_order h = lsb :: r /\ is_u (Z.to_nat (n + 4)) lsb /\ Forall is_se r /\ length r = (if pair_of_frame q p h then 1 else 0)%nat
      | Order1 z _ _ _ => Forall is_se (e_order h) /\ length (e_order h) = (if (z =? 0)%Z then if pair_of_frame q p h then 2 else 1 else 0)%nat
      | OrderOther _ => e_order h = []
      end)
  /\ has (e_redundant h) = (p_redundant p =? 1) /\ given is_ue (e_redundant h)
  /\ has (e_direct h) = is_b (e_type h) /\ given is_flag (e_direct h)
  /\ (if is_p (e_type h) || is_sp (e_type h) || is_b (e_type h)
      then given (fun l => Forall is_ue l /\ length l = (if is_b (e_type h) then 2 else 1)%nat) (e_refs h) else e_refs h = None).
(** the columns of the list: 0 where there is no such element, nothing known where a flag is not there *)
Definition value (o : option Z) : Z := match o with Some v => v | None => 0 end.
Definition shown_slice (q : sps) (h : header) : slice :=
  let refs := match e_refs h with Some l => l | None => [] end in
  let lsb := match q_order q with Order0 _ => true | _ => false end in
  mkSlice (e_first h) (e_type h) (e_pps h) (e_frame_num h)
    (match q_field q with None => None | Some _ => Some (match e_field h with None => (0, None) | Some b => (1, b) end) end)
    (value (e_idr h))
    (if lsb then nth 0 (e_order h) 0 else 0) (if lsb then nth 1 (e_order h) 0 else 0) (if lsb then (0, 0) else (nth 0 (e_order h) 0, nth 1 (e_order h) 0))
    (value (e_redundant h)) (e_direct h)
    (if is_p (e_type h) || is_sp (e_type h) || is_b (e_type h) then Some (match e_refs h with None => 0 | Some _ => 1 end) else None)
    (nth 0 refs 0) (nth 1 refs 0).
(** what the reader is made for: the first five slice types (and those without references), no
    separate colour planes, no second order for frames of progressive sequences *)
Definition slice_known (q : sps) (p : pps) (h : header) : Prop :=
  In (e_type h) [0; 1; 2; 3; 4; 7; 9] /\ colour_planes q = false /\ is_flag (p_order p) /\ is_flag (p_redundant p)
  /\ (q_field q = None -> p_order p = 1 -> match q_order q with Order0 _ => False | Order1 z _ _ _ => z <> 0 | OrderOther _ => True end).

(** D.1: the type or the size of a message *)
Definition ff_code (v : Z) : list bool := repeat true (8 * Z.to_nat (v / 255)) ++ field_bits (v mod 255) 8.
(** D.1.2; time_offset is signed *)
Definition clock_syntax (len : Z) (c : clock) : list bool :=
  field_bits (c_type c) 2 ++ flag (c_nuit c) ++ field_bits (c_counting c) 5 ++ (match c_time c with Full _ _ _ => [true] | Parts _ => [false] end)
  ++ flag (c_discontinuity c) ++ flag (c_dropped c) ++ field_bits (c_frames c) 8
  ++ (match c_time c with
      | Full s m h => field_bits s 6 ++ field_bits m 6 ++ field_bits h 5
      | Parts o => when o (fun x => field_bits (fst x) 6 ++ when (snd x) (fun y => field_bits (fst y) 6 ++ when (snd y) (fun h => field_bits h 5)))
      end)
  ++ field_bits (c_offset c) (Z.to_nat len).
(** Table D-1: NumClockTS *)
Definition clock_stamps : list Z := [1; 1; 1; 2; 2; 3; 3; 2; 3].
(** the HRD parameters that give the lengths: equal in both, when both are there (E.2.2) *)
Definition the_hrd (u : vui) : option hrd := match u_nal u with Some h => Some h | None => u_vcl u end.
Definition offset_length (u : vui) : Z := match the_hrd u with Some h => h_offset h | None => 0 end.
Definition timing_syntax (u : vui) (t : timing) : list bool :=
  (match the_hrd u, g_delays t with Some h, Some (a, b) => field_bits a (Z.to_nat (h_removal h + 1)) ++ field_bits b (Z.to_nat (h_output h + 1)) | _, _ => [] end)
  ++ (match g_struct t with Some (ps, l) => field_bits ps 4 ++ concat (map (fun c => when c (clock_syntax (offset_length u))) l) | None => [] end).
Definition stamp_ok (s : stamp) : Prop :=
  match s with
  | Full s m h => is_u 6 s /\ is_u 6 m /\ is_u 5 h
  | Parts o => given (fun x => is_u 6 (fst x) /\ given (fun y => is_u 6 (fst y) /\ given (is_u 5) (snd y)) (snd x)) o
  end.
Definition clock_ok (len : Z) (c : clock) : Prop :=
  is_u 2 (c_type c) /\ is_flag (c_nuit c) /\ is_u 5 (c_counting c) /\ is_flag (c_discontinuity c) /\ is_flag (c_dropped c) /\ is_u 8 (c_frames c) /\ stamp_ok (c_time c)
  /\ (if len =? 0 then c_offset c = 0 else - 2 ^ (len - 1) <= c_offset c < 2 ^ (len - 1)).
Definition timing_ok (u : vui) (t : timing) : Prop :=
  has (g_delays t) = has (the_hrd u)
  /\ (match the_hrd u, g_delays t with Some h, Some (a, b) => is_u (Z.to_nat (h_removal h + 1)) a /\ is_u (Z.to_nat (h_output h + 1)) b | _, _ => True end)
  /\ has (g_struct t) = (u_struct u =? 1)
  /\ given (fun x => 0 <= fst x <= 8 /\ Z.of_nat (length (snd x)) = nth (Z.to_nat (fst x)) clock_stamps 0 /\ Forall (given (clock_ok (offset_length u))) (snd x)) (g_struct t).
(** signed offsets come out as unsigned ones *)
Definition clock_read (len : Z) (c : clock) : clock := mkClock (c_type c) (c_nuit c) (c_counting c) (c_discontinuity c) (c_dropped c) (c_frames c) (c_time c) (c_offset c mod 2 ^ len).
Definition timing_read (u : vui) (t : timing) : timing :=
  mkTiming (g_delays t) (match g_struct t with Some (ps, l) => Some (ps, map (option_map (clock_read (offset_length u))) l) | None => None end).

(** a NAL unit, and a sample made of units with lengths of 4 bytes *)
Definition nal_unit (type ref : Z) (r : list Z) : list Z := (32 * ref + type) :: escape 0 r.
Definition with_length4 (u : list Z) : list Z := let n := Z.of_nat (length u) in [n / 2 ^ 24; n / 2 ^ 16 mod 256; n / 256 mod 256; n mod 256] ++ u.
(** the payload [r] starts with [syntax]; a final byte 3 is not part of it *)
Definition starts (r : list Z) (syntax : list bool) : Prop := bytes r /\ exists rest, bytes_bits r = syntax ++ rest /\ (last r 0 = 3 -> (8 <= length rest)%nat).
(** the line a unit gets *)
Inductive line_of (q : sps) (p : pps) : list Z -> line -> Prop :=
| line_slice type ref h r : In type [1; 2; 5] -> 0 <= ref <= 3 -> header_ok q p type h -> slice_known q p h -> starts r (header_syntax q p type h) ->
    line_of q p (nal_unit type ref r) (SliceLine (Z.of_nat (length (header_syntax q p type h))) type ref (1 + Z.of_nat (length (without_last_3 r))) (shown_slice q h))
| line_message ref pt ps r : 0 <= ref <= 3 -> 0 <= pt < 2 ^ 31 -> pt <> 1 -> 0 <= ps < 2 ^ 31 -> starts r (ff_code pt ++ ff_code ps) ->
    line_of q p (nal_unit 6 ref r) (SeiLine pt ps None)
| line_timing ref ps u t r : 0 <= ref <= 3 -> 0 <= ps < 2 ^ 31 -> q_vui q = Some u -> vui_ok u -> (u_nal u = None -> u_vcl u = None) -> timing_ok u t ->
    starts r (ff_code 1 ++ ff_code ps ++ timing_syntax u t) -> line_of q p (nal_unit 6 ref r) (SeiLine 1 ps (Some (timing_read u t)))
| line_other type ref r : (type = 0 \/ 7 <= type <= 31) -> 0 <= ref <= 3 -> line_of q p (nal_unit type ref r) (OtherLine type).
