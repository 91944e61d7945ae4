(** Model of writing a fragment, CMP4Fragment of /repo/src/mg/media/mp4fragmented.h 262-565, with
    the boxes of media/mp4/mp4_fragments.fl, cenc.fl and mp4.fl it uses (FRAGMENTEDSTYPTRUE,
    as mgmedia.h sets it), and of reading fragments back: MOOFReader.h 62-305 and the loop of
    do_moof_mux in /repo/src/mgcli/mp4info.cpp 4053-4155.  The boxes go through the writer and
    reader of Box_model.  Not modelled: the tenc box and the SSF live boxes in a fragment. *)
From Verif Require Import Util SampleTab_model HlsCrypt_model Box_model Cenc_model.
Local Open Scope Z_scope.

(** box types (mp4.fl 29-69, mp4_fragments.fl 8-27, cenc.fl) *)
Definition BOX (a b c d : Z) : Z := a * 2 ^ 24 + b * 2 ^ 16 + c * 2 ^ 8 + d.
Definition STYP := BOX 115 116 121 112.
Definition SIDX := BOX 115 105 100 120.
Definition MOOF := BOX 109 111 111 102.
Definition MFHD := BOX 109 102 104 100.
Definition TRAF := BOX 116 114 97 102.
Definition TFHD := BOX 116 102 104 100.
Definition TFDT := BOX 116 102 100 116.
Definition TRUN := BOX 116 114 117 110.
Definition SAIZ := BOX 115 97 105 122.
Definition SAIO := BOX 115 97 105 111.
Definition SENC := BOX 115 101 110 99.
Definition MDAT := BOX 109 100 97 116.
Definition AVCN := BOX 97 118 99 110.
Definition SDTP := BOX 115 100 116 112.
Definition FREE := BOX 102 114 101 101.
Definition TENC := BOX 116 101 110 99.

(** * Writing *)
(** a sample given to add_sample 336-344 *)
Record sample := mkS { s_body : list Z; s_comp : Z; s_dec : Z; s_dur : Z }.
(** what is given besides: set_timescale, start (video: first_sample_flags is not 0), set_encryption
    (cipher with the key, 0x000002 in the flags, first vector); [g1], [g2]: the two fields written
    before they are given a value (sidx.referenced_size with its type bit, trun.data_offset) *)
Record setting := mkSet { track : Z; sequence : Z; first_flags : Z; timescale : Z; crypt : option ((list Z -> list Z) * bool * list Z); g1 : Z; g2 : Z }.
Section Scale.
  (** CMP4Stream::time_scale (Double_model) *)
  Variable scale : Z -> Z -> Z.
  (** TIMESCALE 62 *)
  Definition ticks (ts t : Z) : Z := if negb (ts =? 10000000) then scale ts t else t.
  (** _trun, an item: duration, size, composition offset (add 140-153; add_sample 347-359) *)
  Definition item_of (ts : Z) (s : sample) : Z * Z * Z := (u32 (ticks ts (s_dur s)), u32 (zlen (s_body s)), u32 (ticks ts (u64 (s_comp s - s_dec s)))).
  (** add_sample 364-408: what _mdat gets, and the entries of _senc *)
  Definition samples_out (st : setting) (l : list sample) : list (list Z) * list entry :=
    match crypt st with
    | Some (E, sub, iv) => let r := encrypt_samples E sub iv (map s_body l) in (map fst r, map snd r)
    | None => (map s_body l, [])
    end.
  (** start 322-331 *)
  Definition trun_flags (st : setting) : Z := 256 + (if 0 <? first_flags st then 4 else 0) + 512 + (if 0 <? first_flags st then 2048 else 0) + 1.
  (** FullBox (mp4.fl 173-187) *)
  Definition full (version flags : Z) : list Z := be 1 version ++ be 3 flags.
  Definition styp_body : list Z := be32 (BOX 105 115 111 109) ++ be32 0 ++ be32 (BOX 105 115 111 56) ++ be32 (BOX 109 112 52 49) ++ be32 (BOX 100 97 115 104) ++ be32 (BOX 97 118 99 49) ++ be32 (BOX 99 109 102 115).
  (** sidx 433-455, SegmentIndexBox mp4.fl 862-898 with version 0 *)
  Definition sidx_body (st : setting) (base cts0 dur : Z) : list Z :=
    full 0 0 ++ be32 (track st) ++ be32 (u32 (timescale st)) ++ be32 (u32 (u64 (cts0 + base))) ++ be32 0 ++ be 2 0 ++ be 2 1 ++ be32 (g1 st) ++ be32 (u32 dur) ++ be32 (2 ^ 31 + 2 ^ 28).
  Definition mfhd_body (st : setting) : list Z := full 0 0 ++ be32 (sequence st).
  Definition tfhd_body (st : setting) : list Z := full 0 0 ++ be32 (track st).
  Definition tfdt_body (base : Z) : list Z := full 1 0 ++ be32 (base / 2 ^ 32) ++ be32 (u32 base).
  (** trun_body 104-114 *)
  Definition trun_item (flags : Z) (i : Z * Z * Z) : list Z :=
    let '(d, s, c) := i in
    (if Z.testbit flags 8 then be32 d else []) ++ (if Z.testbit flags 9 then be32 s else []) ++ (if Z.testbit flags 11 then be32 c else []).
  (** TrackRunBox 158-184, version 1 *)
  Definition trun_body (st : setting) (items : list (Z * Z * Z)) : list Z :=
    full 1 (trun_flags st) ++ be32 (Z.of_nat (length items)) ++ be32 (g2 st) ++ (if Z.testbit (trun_flags st) 2 then be32 (first_flags st) else []) ++ concat (map (trun_item (trun_flags st)) items).
  (** 513-524 and cenc.fl 128-285 *)
  Definition saiz_body (n : Z) : list Z := full 0 0 ++ be 1 16 ++ be32 n.
  Definition saio_body (off : Z) : list Z := full 0 0 ++ be32 1 ++ be32 (u32 off).
  Definition senc_entry (e : entry) : list Z := e_iv e ++ be 2 1 ++ be 2 (e_clear e) ++ be32 (e_protected e).
  Definition senc_body (l : list entry) : list Z := full 0 2 ++ be32 (Z.of_nat (length l)) ++ concat (map senc_entry l).
  (** end 413-565; [base] = _baseMediaDecodeTime; None: no sample (get_item(0), undefined) *)
  Definition end_fragment (st : setting) (base : Z) (l : list sample) (w : wr) : option wr :=
    let items := map (item_of (timescale st)) l in
    let '(bodies, entries) := samples_out st l in
    let mdat := concat bodies in
    match items with
    | [] => None
    | (_, _, cts0) :: _ =>
      let w := child_box STYP styp_body w in
      let sidx_referenced_size_position := w_pos w + (12 + 16 + 4) in
      let w := child_box SIDX (sidx_body st base cts0 (zsum (map (fun i => fst (fst i)) items))) w in
      let moof_position := w_pos w in
      let w := open_box MOOF w in
      let w := child_box MFHD (mfhd_body st) w in
      let w := open_box TRAF w in
      let w := child_box TFHD (tfhd_body st) w in
      let w := if negb (base =? 2 ^ 64 - 1) then child_box TFDT (tfdt_body base) w else w in
      let data_offset_position := w_pos w + (12 + 4) in
      let w := child_box TRUN (trun_body st items) w in
      let w := match crypt st with
               | None => w
               | Some _ =>
                 let senc_offset_position := w_pos w + 16 - moof_position + 17 + 20 in
                 child_box SENC (senc_body entries) (child_box SAIO (saio_body senc_offset_position) (child_box SAIZ (saiz_body (Z.of_nat (length entries))) w))
               end in
      match close_box w with None => None | Some w =>
      match close_box w with None => None | Some w =>
      let w := put (be32 MDAT) (put (be32 (u32 (zlen mdat + 8))) w) in
      let data_offset := w_pos w in
      let w := put mdat w in
      let end_position := w_pos w in
      let w := seek end_position (put (be32 (u32 (data_offset - moof_position))) (seek data_offset_position w)) in
      Some (seek end_position (put (be32 (u32 (end_position - moof_position))) (seek sidx_referenced_size_position w)))
      end end
    end.
End Scale.

(** * Reading *)
(** reading fields one after the other: a value and the position after it *)
Definition rdr (A : Type) := list Z -> Z -> option (A * Z).
Definition rret {A} (x : A) : rdr A := fun f p => Some (x, p).
Definition rbind {A B} (m : rdr A) (k : A -> rdr B) : rdr B := fun f p => match m f p with Some (x, p) => k x f p | None => None end.
Definition rnum (n : nat) : rdr Z := fun f p => match num_at f p n with Some v => Some (v, p + Z.of_nat n) | None => None end.
Definition rbytes (n : nat) : rdr (list Z) := fun f p => match bytes_at f p n with Some v => Some (v, p + Z.of_nat n) | None => None end.
Fixpoint rrep {A} (n : nat) (m : rdr A) : rdr (list A) := match n with O => rret [] | S n => rbind m (fun x => rbind (rrep n m) (fun l => rret (x :: l))) end.
Definition rif (b : bool) (m : rdr Z) (d : Z) : rdr Z := if b then m else rret d.
Definition sint (z : Z) : Z := if z <? 2 ^ 31 then z else z - 2 ^ 32.
(** TrackFragmentHeaderBox mp4_fragments.fl 68-102: default duration and size; what the flags leave
    out keeps the value [d0] it had in the object *)
Definition get_tfhd (d0 : Z * Z) : rdr (Z * Z) :=
  rbind (rnum 1) (fun _ => rbind (rnum 3) (fun fl => rbind (rnum 4) (fun _ =>
  rbind (rif (Z.testbit fl 0) (rnum 8) 0) (fun _ => rbind (rif (Z.testbit fl 1) (rnum 4) 0) (fun _ =>
  rbind (rif (Z.testbit fl 3) (rnum 4) (fst d0)) (fun d => rbind (rif (Z.testbit fl 4) (rnum 4) (snd d0)) (fun s =>
  rbind (rif (Z.testbit fl 5) (rnum 4) 0) (fun _ => rret (d, s))))))))).
Definition get_mfhd : rdr Z := rbind (rnum 4) (fun _ => rnum 4).
(** TrackFragmentBaseMediaDecodeTimeBox 276-289 *)
Definition get_tfdt : rdr Z := rbind (rnum 1) (fun v => rbind (rnum 3) (fun _ => if v =? 1 then rnum 8 else rnum 4)).
(** TrackRunBox 116-196: version, flags, data_offset, items *)
Record trun := mkT { t_version : Z; t_flags : Z; t_offset : Z; t_items : list (Z * Z * Z) }.
Definition get_trun_item (fl : Z) : rdr (Z * Z * Z) :=
  rbind (rif (Z.testbit fl 8) (rnum 4) 0) (fun d => rbind (rif (Z.testbit fl 9) (rnum 4) 0) (fun s =>
  rbind (rif (Z.testbit fl 10) (rnum 4) 0) (fun _ => rbind (rif (Z.testbit fl 11) (rnum 4) 0) (fun c => rret (d, s, c))))).
Definition get_trun : rdr trun :=
  rbind (rnum 1) (fun v => rbind (rnum 3) (fun fl => rbind (rnum 4) (fun n =>
  rbind (rif (Z.testbit fl 0) (rnum 4) 0) (fun off => rbind (rif (Z.testbit fl 2) (rnum 4) 0) (fun _ =>
  rbind (rrep (Z.to_nat n) (get_trun_item fl)) (fun items => rret (mkT v fl (sint off) items))))))).
(** SampleAuxiliaryInformationSizesBox, ...OffsetsBox, cenc.fl 227-285 *)
Definition get_saiz : rdr Z :=
  rbind (rnum 1) (fun _ => rbind (rnum 3) (fun fl => rbind (rif (Z.testbit fl 0) (rnum 8) 0) (fun _ => rbind (rnum 1) (fun d => rbind (rnum 4) (fun n =>
  rbind (if d =? 0 then rrep (Z.to_nat n) (rnum 1) else rret []) (fun _ => rret n)))))).
Definition get_saio : rdr (list Z) :=
  rbind (rnum 1) (fun v => rbind (rnum 3) (fun fl => rbind (rif (Z.testbit fl 0) (rnum 8) 0) (fun _ => rbind (rnum 4) (fun n =>
  rrep (Z.to_nat n) (rbind (rnum 4) (fun o => rbind (rif (negb (v =? 0)) (rnum 4) 0) (fun _ => rret o))))))).
(** SampleEncryptionBox 128-223: vectors and sub samples *)
Definition get_single (fl : Z) : rdr (list Z * list (Z * Z)) :=
  rbind (rbytes 8) (fun iv => rbind (if Z.testbit fl 1 then rbind (rnum 2) (fun n => rrep (Z.to_nat n) (rbind (rnum 2) (fun c => rbind (rnum 4) (fun p => rret (c, p))))) else rret []) (fun subs => rret (iv, subs))).
Definition get_senc : rdr (list (list Z * list (Z * Z))) :=
  rbind (rnum 1) (fun _ => rbind (rnum 3) (fun fl => rbind (rnum 4) (fun n => rrep (Z.to_nat n) (get_single fl)))).
(** MOOFReader's members *)
Record moof := mkMoof { m_moof : Z; m_mdat : Z; m_default : Z * Z; m_trun : trun; m_tfdt : option Z; m_senc : option (list (list Z * list (Z * Z))) }.
Definition moof0 : moof := mkMoof 0 0 (0, 0) (mkT 0 0 0 []) None None.
(** parse_boxes 62-171, the switch: the members and the position after the box [b] *)
Definition handle_box (f : list Z) (b : rd) (m : moof) : option (moof * Z) :=
  let t := r_type b in let p := r_pos b in
  if t =? FREE then Some (m, box_end b)
  else if t =? MOOF then Some (mkMoof (r_box b) (m_mdat m) (m_default m) (m_trun m) (m_tfdt m) (m_senc m), p)
  else if t =? TRAF then Some (m, p)
  else if t =? TFHD then match get_tfhd (m_default m) f p with Some (d, p) => Some (mkMoof (m_moof m) (m_mdat m) d (m_trun m) (m_tfdt m) (m_senc m), p) | None => None end
  else if t =? MFHD then match get_mfhd f p with Some (_, p) => Some (m, p) | None => None end
  else if t =? TFDT then match get_tfdt f p with Some (v, p) => Some (mkMoof (m_moof m) (m_mdat m) (m_default m) (m_trun m) (Some v) (m_senc m), p) | None => None end
  else if t =? TRUN then match get_trun f p with Some (r, p) => Some (mkMoof (m_moof m) (m_mdat m) (m_default m) r (m_tfdt m) (m_senc m), p) | None => None end
  else if t =? MDAT then Some (mkMoof (m_moof m) p (m_default m) (m_trun m) (m_tfdt m) (m_senc m), skip_current b)
  else if t =? SAIO then match get_saio f p with Some (_, p) => Some (m, p) | None => None end
  else if t =? SAIZ then match get_saiz f p with Some (_, p) => Some (m, p) | None => None end
  else if t =? SENC then match get_senc f p with Some (l, p) => Some (mkMoof (m_moof m) (m_mdat m) (m_default m) (m_trun m) (m_tfdt m) (Some l), p) | None => None end
  else if (t =? TENC) || (t =? uuid) then None (* not modelled *)
  else Some (m, skip_current b) (* avcn, sdtp, unknown boxes: skip_current *).
(** parse_boxes, not strict: on to the first mdat *)
Fixpoint parse_boxes (fuel : nat) (f : list Z) (b : rd) (m : moof) : option (moof * Z) :=
  match fuel with
  | O => None
  | S fuel =>
    match handle_box f b m with
    | None => None
    | Some (m, p) => if (p <? zlen f) && (m_mdat m =? 0) then match do_box f p with Some b => parse_boxes fuel f b m | None => None end else Some (m, p)
    end
  end.
(** parse 195-216 with strict = false *)
Definition parse (f : list Z) (p : Z) (m : moof) : option (moof * Z) :=
  let m := mkMoof (m_moof m) 0 (m_default m) (m_trun m) (m_tfdt m) (m_senc m) in
  if zlen f <=? p then Some (m, p)
  else match do_box f p with Some b => parse_boxes (S (length f)) f b m | None => None end.
(** get_base_offset 239-250 *)
Definition base_offset (m : moof) : Z := if Z.testbit (t_flags (m_trun m)) 0 then u64 (t_offset (m_trun m) + m_moof m) else m_mdat m.
(** get_sample_size, get_sample_composition_time_offset (signed), get_sample_duration 254-288 *)
Definition sample_size (m : moof) (i : Z * Z * Z) : Z := if Z.testbit (t_flags (m_trun m)) 9 then snd (fst i) else snd (m_default m).
Definition sample_cts (m : moof) (i : Z * Z * Z) : Z := if Z.testbit (t_flags (m_trun m)) 11 then sint (snd i) else 0.
Definition sample_dur (m : moof) (i : Z * Z * Z) : Z := if Z.testbit (t_flags (m_trun m)) 8 then sint (fst (fst i)) else fst (m_default m).
Definition s64 (z : Z) : Z := if z <? 2 ^ 63 then z else z - 2 ^ 64.
(** do_moof_mux 4094-4148: the samples of a fragment; [n] the number of the sample; the times are
    those before normalize_time *)
Fixpoint take_samples (key : option (list Z -> list Z)) (f : list Z) (m : moof) (n : nat) (items : list (Z * Z * Z)) (position decoding : Z) : option (list sample) :=
  match items with
  | [] => Some []
  | i :: items =>
    let size := sample_size m i in
    match bytes_at f position (Z.to_nat size) with
    | None => None
    | Some buffer =>
      let body := match key, m_senc m with
                  | Some E, Some l => match nth_error l n with Some (iv, subs) => Some (decrypt E iv subs buffer) | None => None end
                  | _, _ => Some buffer
                  end in
      match body, take_samples key f m (S n) items (position + size) (decoding + sample_dur m i) with
      | Some body, Some r => Some (mkS body (decoding + sample_cts m i) decoding (sample_dur m i) :: r)
      | _, _ => None
      end
    end
  end.
(** 4053-4155: all the fragments of a file; [m] carries the members of the reader on *)
Fixpoint read_fragments (fuel : nat) (key : option (list Z -> list Z)) (f : list Z) (p : Z) (m : moof) : option (list (list sample)) :=
  match fuel with
  | O => None
  | S fuel =>
    match parse f p m with
    | None => None
    | Some (m, p) =>
      if m_mdat m =? 0 then Some []
      else let base := match m_tfdt m with Some b => s64 b | None => -1 end in
           match take_samples key f m 0 (t_items (m_trun m)) (base_offset m) base, read_fragments fuel key f p m with
           | Some l, Some r => Some (l :: r)
           | _, _ => None
           end
    end
  end.
Definition read_file (key : option (list Z -> list Z)) (f : list Z) : option (list (list sample)) := read_fragments (S (length f)) key f 0 moof0.

(** * Specification vocabulary *)
Section Spec.
  Variable scale : Z -> Z -> Z.
  (** a fragment: setting, time of its first sample, samples *)
  Definition fragment : Type := setting * Z * list sample.
  (** fragments written one after the other *)
  Fixpoint write_fragments (l : list fragment) (w : wr) : option wr :=
    match l with
    | [] => Some w
    | (st, base, samples) :: l => match end_fragment scale st base samples w with Some w => write_fragments l w | None => None end
    end.
  Definition empty_file : wr := mkW [] 0 [].
  (** fits: bodies, and 28 bytes for each sample, below 2 GB *)
  Definition room (l : list sample) : Prop := zlen (concat (map s_body l)) + 28 * zlen l < 2 ^ 31 - 256.
  (** times of a sample that 31 bits (duration) and 32 bits with sign (composition) hold *)
  Definition times_ok (ts : Z) (s : sample) : Prop :=
    0 <= ticks scale ts (s_dur s) < 2 ^ 31
    /\ if ts =? 10000000 then - 2 ^ 31 <= s_comp s - s_dec s < 2 ^ 31 else 0 <= s_comp s - s_dec s < 2 ^ 64 /\ 0 <= scale ts (s_comp s - s_dec s) < 2 ^ 31.
  (** the samples with their times counted from [base] by the durations, in ticks *)
  Fixpoint counted (ts : Z) (video : bool) (base : Z) (l : list sample) : list sample :=
    match l with
    | [] => []
    | s :: l => let d := ticks scale ts (s_dur s) in
                mkS (s_body s) (base + (if video then ticks scale ts (s_comp s - s_dec s) else 0)) base d :: counted ts video (base + d) l
    end.
  (** the key to read with is the key it was encrypted with *)
  Definition key_for (key : option (list Z -> list Z)) (st : setting) : Prop :=
    match key, crypt st with
    | None, None => True
    | Some E, Some (E', _, iv) => E' = E /\ cipher E /\ is_iv iv
    | _, _ => False
    end.
  Definition fragment_ok (key : option (list Z -> list Z)) (fr : fragment) : Prop :=
    let '(st, base, l) := fr in key_for key st /\ 0 <= base < 2 ^ 63 /\ l <> [] /\ room l /\ Forall (times_ok (timescale st)) l.
End Spec.
(** every sample starts when the one before ends, the first at [base] *)
Fixpoint continuous (base : Z) (l : list sample) : Prop := match l with [] => True | s :: l => s_dec s = base /\ continuous (base + s_dur s) l end.
