(** Model of how opening an mp4 file moves through it: MP4Reader::parse and parse_boxes,
    CPM4Track::parse and parse_boxes with CPM4LTCTrack, CMP4Handler::parse and parse_boxes with the
    four handlers, CMP4VisualEntry and CMP4AudioEntry (/repo/src/mg/media/mp4parse.h 1443-1530,
    1617-1667, 1761-1808, 1867-2047, 2071-2171, 2477-2499, 2613-2699), and CMP4::do_box, skip_current
    and read_bytes (290-314, 508-524, 547-585).  What the boxes say is Movie_model's; here it is only
    where the reader goes next, one box a step, so that not ending is visible: a step is one call of
    one of the parse_boxes functions (or one turn of the loops over sample entries and over the boxes
    of an entry).  No next step: parse has returned, or an exception has ended it, or the behaviour
    is undefined.  At the end of the file do_box reads nothing and leaves the current box as it was.
    Sizes and ends of boxes are unsigned 64-bit numbers.  Simplified: where the contents of an avcC or
    esds box may end the reading with an exception, the model goes on; reading past the end of the
    file stops at the end (read_bytes) or is an exception (all other fields). *)
From Verif Require Import Util SampleTab_model Box_model Frag_model Movie_model.
Local Open Scope Z_scope.

Definition TEXT := BOX 116 101 120 116.
(** the classes derived from CMP4Handler *)
Inductive handler := Vide | Soun | Ltc | Null.
(** in which function the reader is, with what it remembers: end of the track, the track, whether it
    is a time code track; end of minf (_minf_position + _minf_size); sample entries still to read,
    this one included; _visual_end *)
Record in_track := mkIn { i_ltc : bool; i_end : Z; i_track : rtrack }.
Inductive mode :=
| Top (** MP4Reader::parse_boxes *)
| Track (k : in_track) (** CPM4Track::parse_boxes *)
| Media (k : in_track) (h : handler) (end_ : Z) (** CMP4Handler::parse_boxes *)
| Entry (k : in_track) (h : handler) (todo : Z) (** parse_sample_description *)
| Visual (k : in_track) (h : handler) (todo end_ : Z) (** CMP4VisualEntry::parse_boxes, the while *).
(** the current box with the position, the GUID of the last uuid box, and the function *)
Record state := mkSt { q_box : rd; q_guid : list Z; q_mode : mode }.

(** the position, moved *)
Definition at_pos (b : rd) (p : Z) : rd := mkR p (r_box b) (r_size b) (r_type b).
(** get_box_position_end 585 *)
Definition end_of (b : rd) : Z := u64 (r_box b + r_size b).
(** skip_current 576-580: no further than the end of the file *)
Definition skipped (f : list Z) (b : rd) : rd := at_pos b (Z.min (zlen f) (skip_current b)).
(** read_bytes 508-524 *)
Definition read_bytes (f : list Z) (b : rd) (n : Z) : rd := at_pos b (Z.min (zlen f) (r_pos b + u32 n)).
(** do_box 547-559, with the GUID *)
Definition next_box (f : list Z) (b : rd) (g : list Z) : option (rd * list Z) :=
  if zlen f <=? r_pos b then Some (b, g)
  else next (do_box f (r_pos b)) (fun b => Some (b, if r_type b =? uuid then firstn 16 (skipn (Z.to_nat (r_pos b - 16)) f) else g)).
(** IS_LTC_BOX_Y (media/mp4/ltcextension.fl 15): the first 15 bytes *)
Definition is_ltc (y : Z) (g : list Z) : bool :=
  if list_eq_dec Z.eq_dec (firstn 15 g) [y; 249; 212; 166; 49; 96; 76; 249; 162; 156; 140; 118; 63; 230; 3] then true else false.

(** the ends of the functions.  parse_boxes 2671-2675 *)
Definition back_top (f : list Z) (b : rd) (g : list Z) : option state :=
  if r_pos b <? zlen f then next (next_box f b g) (fun r => Some (mkSt (fst r) (snd r) Top)) else None.
(** 2149-2153 *)
Definition back_track (f : list Z) (k : in_track) (b : rd) (g : list Z) : option state :=
  if r_pos b <? i_end k then next (next_box f b g) (fun r => Some (mkSt (fst r) (snd r) (Track k))) else back_top f b g.
(** not_sample_description_found 1460-1467, 1984-1995, 2029-2033 *)
Definition not_found (f : list Z) (k : in_track) (h : handler) (end_ : Z) (b : rd) (g : list Z) : option state :=
  let go := next (next_box f b g) (fun r => Some (mkSt (fst r) (snd r) (Media k h end_))) in
  match h with
  | Null => back_track f k (skipped f b) g
  | Ltc => if end_ <=? r_pos b then back_track f k b g else go
  | _ => if end_ <=? r_pos b then None else go
  end.
(** the for loop 1484-1489, after one entry *)
Definition back_entry (f : list Z) (k : in_track) (h : handler) (todo : Z) (b : rd) (g : list Z) : option state :=
  if todo <=? 1 then back_track f k b g else next (next_box f b g) (fun r => Some (mkSt (fst r) (snd r) (Entry k h (todo - 1)))).

(** CMP4Handler::parse 1507-1519 with parse_header 1873-1883, 1924-1935, 1974-1982, 2022-2027 *)
Definition media (f : list Z) (k : in_track) (h : handler) (b : rd) (g : list Z) : option state :=
  let end_ := end_of b in
  let loop r := Some (mkSt (fst r) (snd r) (Media k h end_)) in
  next (next_box f b g) (fun r => let '(b, g) := r in
  match h with
  | Vide => if r_type b =? VMHD then next (rskip 12 f (r_pos b)) (fun r => next (next_box f (at_pos b (snd r)) g) loop) else loop (b, g)
  | Soun => if r_type b =? SMHD then next (rskip 8 f (r_pos b)) (fun r => next (next_box f (at_pos b (snd r)) g) loop) else loop (b, g)
  | Ltc => if r_type b =? SMHD then next (rskip 8 f (r_pos b)) (fun r => next (next_box f (at_pos b (snd r)) g) loop) else None
  | Null => next (next_box f (skipped f b) g) loop
  end).
(** 2090-2111 *)
Definition handler_of (k : in_track) : option handler :=
  if i_ltc k then Some Ltc
  else if x_handler (i_track k) =? VIDE then Some Vide
  else if x_handler (i_track k) =? SOUN then Some Soun
  else if x_handler (i_track k) =? TEXT then Some Null
  else None.

(** one step *)
Definition step (f : list Z) (s : state) : option state :=
  let b := q_box s in
  let g := q_guid s in
  let ty := r_type b in
  match q_mode s with
  | Top => (* 2619-2675 *)
    if (ty =? FTYP) || (ty =? STYP) then next (get_ftyp (r_size b) f (r_pos b)) (fun r => back_top f (at_pos b (snd r)) g)
    else if ty =? MVHD then next (get_mvhd f (r_pos b)) (fun r => back_top f (at_pos b (snd r)) g)
    else if (ty =? MDAT) || (ty =? FREE) then back_top f (at_pos b (Z.min (zlen f) (end_of b))) g
    else if ty =? MOOV then back_top f b g
    else if ty =? TRAK then Some (mkSt b g (Track (mkIn false (end_of b) (rtrack0 0))))
    else if (ty =? uuid) && is_ltc 143 g then next (next_box f b g) (fun r => Some (mkSt (fst r) (snd r) (Track (mkIn true (end_of b) (rtrack0 0)))))
    else back_top f (skipped f b) g
  | Track k => (* 2073-2153 *)
    if ty =? MINF then next (handler_of k) (fun h => media f k h b g)
    else next (track_box f b (i_track k)) (fun r => back_track f (mkIn (i_ltc k) (i_end k) (fst r)) (at_pos b (Z.min (zlen f) (snd r))) g)
  | Media k h end_ => (* 1471-1501 *)
    if (ty =? STBL) || (ty =? DINF) then not_found f k h end_ b g
    else if ty =? DREF then next (parse_dref f (r_pos b)) (fun p => not_found f k h end_ (at_pos b p) g)
    else if ty =? STSD then
      next (rbind (rskip 4) (fun _ => rnum 4) f (r_pos b)) (fun r =>
        if fst r =? 0 then not_found f k h end_ (at_pos b (snd r)) g
        else next (next_box f (at_pos b (snd r)) g) (fun q => Some (mkSt (fst q) (snd q) (Entry k h (fst r)))))
    else not_found f k h end_ (skipped f b) g
  | Entry k h todo =>
    match h with
    | Vide => (* 1650-1667 *) next (get_visual f (r_pos b)) (fun r => Some (mkSt (at_pos b (snd r)) g (Visual k h todo (end_of b))))
    | Soun => (* 1761-1773 *) next (get_audio f (r_pos b)) (fun r =>
        let b' := at_pos b (snd r) in
        back_entry f k h todo (if snd r <? end_of b then read_bytes f b' (end_of b - snd r) else b') g)
    | Ltc => (* 1997-2005 *) if is_ltc 239 g then next (rskip 4 f (r_pos b)) (fun r => back_entry f k h todo (at_pos b (snd r)) g)
      else back_entry f k h todo (at_pos b (r_box b)) g
    | Null => (* 2035-2038 *) back_entry f k h todo (skipped f b) g
    end
  | Visual k h todo end_ => (* 1619-1646 *)
    if r_pos b <? end_ then
      next (next_box f b g) (fun r => let '(b, g) := r in
      let again b := Some (mkSt b g (Visual k h todo end_)) in
      if r_type b =? AVCC then again (read_bytes f b (r_size b - 8))
      else if r_type b =? BTRT then next (rskip 12 f (r_pos b)) (fun r => again (at_pos b (snd r)))
      else if r_type b =? PASP then next (rskip 8 f (r_pos b)) (fun r => again (at_pos b (snd r)))
      else again (skipped f b))
    else back_entry f k h todo b g
  end.
(** MP4Reader::parse 2687-2699: the first box, ftyp or styp.  (On an empty file the current box is
    not initialised: None.) *)
Definition start (f : list Z) : option state :=
  next (do_box f 0) (fun b => if (r_type b =? FTYP) || (r_type b =? STYP) then Some (mkSt b [] Top) else None).
(** [n] steps on; None once there is no next step *)
Fixpoint after (f : list Z) (n : nat) (s : state) : option state :=
  match n with O => Some s | S n => next (step f s) (after f n) end.

(** * Specification vocabulary *)
(** opening a file: the box looked at after [n] steps; None = opening has ended before *)
Definition looks_at (f : list Z) (n : nat) : option state := match start f with Some s => after f n s | None => None end.
(** the box says of itself that it goes on after the end of the file *)
Definition outside (f : list Z) (b : rd) : Prop := zlen f < (r_box b + r_size b) mod 2 ^ 64.
(** the box says of itself that it ends where it starts, or before *)
Definition stuck (b : rd) : Prop := (r_box b + r_size b) mod 2 ^ 64 <= r_box b.
(** a sample entry, of which the type is not fixed *)
Definition is_entry (s : state) : Prop := match q_mode s with Entry _ _ _ => True | _ => False end.
(** a time code track: a uuid box with GUID 8FF9D4A6-3160-4CF9-A29C-8C763FE62E (last byte ignored) *)
Definition is_time_code (s : state) : Prop :=
  r_type (q_box s) = uuid /\ firstn 15 (q_guid s) = [143; 249; 212; 166; 49; 96; 76; 249; 162; 156; 140; 118; 63; 230; 3].
(** the boxes the reader must be able to trust: media data and free space are skipped by their end;
    tracks, their media information and their sample entries are read until their end *)
Definition honest (f : list Z) (s : state) : Prop :=
  let b := q_box s in
  (In (r_type b) [MDAT; FREE] -> ~ stuck b) /\ (In (r_type b) [TRAK; MINF] \/ is_time_code s \/ is_entry s -> ~ outside f b).
