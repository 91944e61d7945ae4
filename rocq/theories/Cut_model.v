(** Model of cutting a piece out of a movie: MP4Reader::move, /repo/src/mg/media/mp4parse.h
    2320-2326, 2398-2420, 2987-3066, and add_frames_to_m4f, /repo/src/mg/media/mp4fragmented.h
    571-690.  Times of the streams are in units of 100 ns.  The fragment has the default time
    scale 10^7 (set_baseMediaDecodeTime 262-265 keeps the time).  The bytes of the samples are
    in Frag_model. *)
From Verif Require Import Util RangeMap_model SampleTab_model TimeTab_model Walk_model.
Local Open Scope Z_scope.

(** CPM4Track: time tables, media time scale, place and size of the samples, get_stream_offset
    (2374-2378), the number of entries of the ctts box and ctts_stream_offset (2457-2462), LTC
    track or not, _current_sample *)
Record trk := mkTrk { k_track : track; k_ts : Z; k_places : list (Z * Z); k_offset : Z; k_ctts_entries : Z; k_ctts_offset : Z; k_ltc : bool; k_cur : nat }.
(** pick_sample 2408-2426 for each sample.  There are as many samples in the time tables as in
    the size table (otherwise exceptions, not modelled: 0 is put here) *)
Definition sample_at (k : trk) (i : nat) (p : Z * Z) : sample :=
  let time o := match o with Some t => to_hns (k_ts k) t | None => 0 end in
  mkS (fst p) (snd p) (time (composition_time (k_track k) (Z.of_nat i))) (time (decoding_time (k_track k) (Z.of_nat i))) (time (duration_of (k_track k) (Z.of_nat i)))
      (match is_iframe (k_track k) (Z.of_nat i) with Some b => b | None => false end).
Definition samples_of (k : trk) : list sample := map (fun ip => sample_at k (fst ip) (snd ip)) (combine (seq 0 (length (k_places k))) (k_places k)).
(** get_IFrame_number 2320-2326, 1299-1310; None = an empty table is read *)
Definition iframe_number (k : trk) (time : Z) : option Z :=
  let t := of_hns (k_ts k) time in
  match t_keys (k_track k) with
  | None => composition_sample (k_track k) t
  | Some m => match decoding_sample (k_track k) t with Some s => option_map fst (iframe_at m s) | None => None end
  end.
(** move 3019-3028: the sample of the stream asked for *)
Definition target (k : trk) (time : Z) : option Z :=
  match iframe_number k time with
  | None => None
  | Some s =>
    match t_keys (k_track k) with
    | Some _ => Some s
    | None => match composition_sample_hns (k_ts k) (k_track k) (u64 (time - k_offset k)) with
              | Some s => Some (if time <? k_offset k then 0 else s)
              | None => None
              end
    end
  end.
(** 3035-3062: where another stream goes, for the composition time (with the offset) and
    decoding time of that sample.  A position after the end is the end. *)
Definition move_stream (comp dec : Z) (k : trk) : option nat :=
  match k_places k with
  | [] => Some (k_cur k)
  | _ =>
    let sn := match t_keys (k_track k), k_ltc k with
              | None, false => if k_offset k <? comp then composition_sample_hns (k_ts k) (k_track k) (u64 (comp - k_offset k)) else Some 0
              | _, _ => decoding_sample_hns (k_ts k) (k_track k) dec
              end in
    option_map (fun s => Z.to_nat (Z.min s (Z.of_nat (length (k_places k))))) sn
  end.
Fixpoint all_some {A} (l : list (option A)) : option (list A) :=
  match l with [] => Some [] | None :: _ => None | Some x :: l => match all_some l with Some l => Some (x :: l) | None => None end end.
(** move 2998-3066 for a given stream: the reader after it; None = outside the tables *)
Definition move (ks : list trk) (mdat_end time : Z) (id : nat) : option reader :=
  match nth_error ks id with
  | None => None
  | Some k =>
    match target k time with
    | None => None
    | Some s =>
      match decoding_time (k_track k) s, composition_time (k_track k) s with
      | Some d, Some c =>
        let comp := u64 (to_hns (k_ts k) c + k_offset k) in
        match all_some (map (move_stream comp (to_hns (k_ts k) d)) ks) with
        | Some pos => Some (mkRd (map (fun kp => mkStream (samples_of (fst kp)) (snd kp)) (combine ks pos)) 0 mdat_end)
        | None => None
        end
      | _, _ => None
      end
    end
  end.
(** the loop 609-683: the samples added; None = still running after [n] rounds *)
Fixpoint frames (n : nat) (r : reader) (id : nat) (off start end_ : Z) : option (list sample) :=
  match n with
  | O => None
  | S n =>
    match next r with
    | (r, Some (i, x, true)) =>
      if (i =? id)%nat then
        if end_ <=? u64 (s_comp x + off) then Some []
        else match frames n r id off start end_ with Some l => Some (if u64 (s_comp x + off) <? start then l else x :: l) | None => None end
      else frames n r id off start end_
    | _ => Some []
    end
  end.
(** 624-628 *)
Definition frame_dec (k : trk) (x : sample) : Z := if k_ctts_entries k =? 1 then s_dec x + k_ctts_offset k else s_dec x.
(** 668-679: base time of the fragment; UINT64_MAX = none *)
Definition base_time (k : trk) (base_arg start : Z) (l : list sample) : Z :=
  fold_left (fun b x => if b =? U64MAX then u64 ((if base_arg =? U64MAX then start else base_arg) - u64 (s_comp x - frame_dec k x)) else b) l U64MAX.
(** add_frames_to_m4f 571-690 into a new fragment: the samples, the base time *)
Definition add_frames (n : nat) (ks : list trk) (mdat_end : Z) (id : nat) (start end_ base_arg : Z) : option (list sample * Z) :=
  match nth_error ks id, move ks mdat_end start id with
  | Some k, Some r => match frames n r id (k_offset k) start end_ with Some l => Some (l, base_time k base_arg start l) | None => None end
  | _, _ => None
  end.

(** * Specification vocabulary *)
(** the elements before the first which is not [P] *)
Fixpoint while {A} (P : A -> bool) (l : list A) : list A := match l with [] => [] | x :: l => if P x then x :: while P l else [] end.
(** when a sample is presented *)
Definition presented (k : trk) (x : sample) : Z := s_comp x + k_offset k.
(** when a sample is decoded in the piece: a composition table of one entry is one constant
    delay, which is added; otherwise the delay stays in the piece's own composition offsets *)
Definition decoded_at (k : trk) (x : sample) : Z := s_dec x + (if k_ctts_entries k =? 1 then k_ctts_offset k else 0).
(** the track was read from a time table of these runs, with positive counts and durations; as
    many samples were found in the size table *)
Definition timed (rs : list (nat * Z)) (k : trk) : Prop :=
  Forall (fun r => 0 < fst r)%nat rs /\ Forall (fun r => 0 < snd r < 2 ^ 32) rs /\ rs <> [] /\ Z.of_nat (length (expand rs)) < 2 ^ 31
  /\ parse_stts (0 :: Z.of_nat (length rs) :: enc2 rs) = Some (t_times (k_track k), t_table (k_track k), []) /\ length (k_places k) = length (expand rs)
  /\ 0 < k_ts k <= 10000000 /\ 10000000 * zsum (expand rs) < 2 ^ 63 /\ 0 <= k_offset k < 2 ^ 62.
(** presented in the order of decoding, every sample a key frame, as in an audio track: without
    composition offsets, or with such as keep the order *)
Definition steady (k : trk) : Prop := t_keys (k_track k) = None /\ k_ltc k = false
  /\ ((t_has_ctts (k_track k) = false /\ t_offsets (k_track k) = [])
      \/ (t_has_ctts (k_track k) = true /\ length (t_order (k_track k)) = length (k_places k)
         /\ forall i, (i < length (k_places k))%nat -> exists c, composition_time (k_track k) (Z.of_nat i) = Some c /\ nth_error (t_order (k_track k)) i = Some (c, Z.of_nat i)
                      /\ forall c', composition_time (k_track k) (Z.of_nat i + 1) = Some c' -> c < c')).
(** the key frames are the samples flagged *)
Definition keyed (flags : list bool) (k : trk) : Prop :=
  length flags = length (k_places k) /\ exists m, t_keys (k_track k) = Some m /\ parse_stss (skipn 2 (write_stss (iframes 0 flags))) = Some (m, []).
(** composition offsets of 32 bits *)
Definition offsets_ok (k : trk) : Prop := Forall (fun o => 0 <= o < 2 ^ 32) (t_offsets (k_track k)).
(** the file is whole: every sample inside the media data *)
Definition whole (ks : list trk) (mdat_end : Z) : Prop := mdat_end < 2 ^ 64 - 1 /\ forall k, In k ks -> Forall (fun p => 0 <= fst p /\ 0 <= snd p /\ fst p + snd p <= mdat_end) (k_places k).
(** every track with samples has such tables *)
Definition sound (ks : list trk) : Prop := forall k, In k ks -> k_places k = [] \/ ((exists rs, timed rs k) /\ Forall (fun x => 0 <= snd x) (t_order (k_track k))).
(** the number of samples in the file *)
Definition total (ks : list trk) : nat := list_sum (map (fun k => length (k_places k)) ks).
(** the spans between cut times *)
Fixpoint spans (cuts : list Z) : list (Z * Z) := match cuts with a :: (b :: _) as r => (a, b) :: spans r | _ => [] end.
