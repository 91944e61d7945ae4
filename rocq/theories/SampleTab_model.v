(** Model of the tables which say where the samples of a track are: written by
    /repo/src/mg/media/mp4write.h 300-310, 558-685, 723-751, 791-822, 1150-1154 and read by
    /repo/src/mg/media/mp4parse.h 662-875, 2071-2155.  The file is a list of 32-bit words (both
    sides use 32 bit reads and writes at multiples of 4 bytes: C04, C05).  Not modelled: the
    contents and times of the samples (see TimeTab_model). *)
From Verif Require Import Util RangeMap_model.
Local Open Scope Z_scope.

Definition u32 (z : Z) : Z := z mod 2 ^ 32.
Definition u64 (z : Z) : Z := z mod 2 ^ 64.
Definition U64MAX : Z := 2 ^ 64 - 1.
Definition box_stsc : Z := 0x73747363.
Definition box_stsz : Z := 0x7374737a.
Definition box_stco : Z := 0x7374636f.

(** ** Writer *)
(** mp4write.h 212-234.  [w_chunks]: position and number of samples (the field continuity is
    only asserted on). *)
Record wstate := mkW { w_end : Z; w_start : Z; w_in : Z; w_chunks : list (Z * Z); w_sizes : list Z; w_has_size : bool; w_flushed : bool }.
(** 911-938 *)
Definition w_init : wstate := mkW U64MAX 0 0 [] [] false true.
(** register_chunk 300-310 *)
Definition register_chunk (w : wstate) : wstate := mkW (w_end w) (w_start w) (w_in w) (w_chunks w ++ [(w_start w, w_in w)]) (w_sizes w) (w_has_size w) true.
(** sample_written 791-822, 888, 906: a sample of [size] bytes was written at [pos] *)
Definition sample_written (w : wstate) (pos size : Z) : wstate :=
  let w := if w_end w =? U64MAX then mkW pos pos 0 (w_chunks w) (w_sizes w) (w_has_size w) (w_flushed w) else w in
  let w := if w_end w =? pos then mkW (w_end w) (w_start w) (w_in w + 1) (w_chunks w) (w_sizes w) (w_has_size w) (w_flushed w)
           else let r := register_chunk w in mkW (w_end r) pos 1 (w_chunks r) (w_sizes r) (w_has_size r) (w_flushed r) in
  let has := if negb (w_has_size w) && (0 <? length (w_sizes w))%nat then negb (size =? last (w_sizes w) 0) else w_has_size w in
  mkW (u64 (pos + size)) (w_start w) (w_in w) (w_chunks w) (w_sizes w ++ [size]) has false.
(** flush 1150-1154 *)
Definition flush (w : wstate) : wstate := if w_flushed w then w else register_chunk w.
Definition write_all (l : list (Z * Z)) : wstate := flush (fold_left (fun w s => sample_written w (fst s) (snd s)) l w_init).

(** a full box with version and flags 0 (FullBox, CMP4W::open_box/close_box 73-194) *)
Definition fullbox (ty : Z) (body : list Z) : list Z := u32 (12 + 4 * Z.of_nat (length body)) :: ty :: 0 :: body.
(** loop 591-617 of write_stsc: the words written, how many entries, and chunk_start, sample_count after it *)
Fixpoint stsc_loop (i : Z) (cs : list Z) (start count : Z) : list Z * Z * Z * Z :=
  match cs with
  | [] => ([], 0, start, count)
  | c :: cs =>
    let start := if i =? 0 then i + 1 else start in
    let count := if i =? 0 then u32 c else count in
    if c =? count then stsc_loop (i + 1) cs start count
    else let '(ws, n, s', c') := stsc_loop (i + 1) cs (u32 (i + 1)) (u32 c) in (start :: count :: 1 :: ws, n + 1, s', c')
  end.
(** write_stsc 558-656; None = the exception of 576 *)
Definition write_stsc (allow_empty : bool) (cs : list Z) : option (list Z) :=
  match cs with
  | [] => if allow_empty then Some (fullbox box_stsc [0]) else None
  | _ =>
    let '(ws, n, s, c) := stsc_loop 0 (removelast cs) 0 0 in
    let '(ws, n) := if (1 <? length cs)%nat then (ws ++ [s; c; 1], n + 1) else (ws, n) in
    let ws := ws ++ [u32 (Z.of_nat (length cs)); u32 (last cs 0); 1] in
    Some (fullbox box_stsc (u32 (n + 1) :: ws))
  end.
(** write_stsz 657-685 *)
Definition write_stsz (w : wstate) : list Z :=
  fullbox box_stsz (0 :: u32 (Z.of_nat (length (w_sizes w))) :: if w_has_size w then map u32 (w_sizes w) else []).
(** write_stco 723-751, after the media data got its final place [mdat] *)
Definition write_stco (mdat : Z) (w : wstate) : list Z :=
  fullbox box_stco (u32 (Z.of_nat (length (w_chunks w))) :: map (fun c => u32 (fst c + mdat)) (w_chunks w)).
(** 783-785 of write_stbl *)
Definition write_tables (allow_empty : bool) (mdat : Z) (w : wstate) : option (list Z) :=
  match write_stsc allow_empty (map snd (w_chunks w)) with
  | Some a => Some (a ++ write_stsz w ++ write_stco mdat w)
  | None => None
  end.

(** ** Reader *)
(** mp4parse.h 623-628 *)
Record chunk := mkC { c_spc : Z; c_sdi : Z; c_first_sample : Z; c_first_chunk : Z }.
Definition c0 : chunk := mkC 0 0 0 0.
(** 611-630; a missing table is empty *)
Record pstate := mkP { p_stsc : table chunk; p_size : Z; p_count : Z; p_sizes : list Z; p_chunks : list Z }.
Definition p_init : pstate := mkP [] 0 0 [] [].
(** loop 679-713 of parse_stsc ([n] entries left; previus_first_chunk and
    previus_samples_per_chunk always equal first_chunk and samples_per_chunk there).  None =
    the end of the file. *)
Fixpoint stsc_read (n : nat) (i : Z) (fc spc sdi samples : Z) (t : table chunk) (ws : list Z) : option (table chunk * chunk * list Z) :=
  match n with
  | O => Some (t, mkC spc sdi samples fc, ws)
  | S n =>
    match ws with
    | fc' :: spc' :: sdi' :: ws =>
      let ch := mkC spc sdi samples fc in
      let samples' := if 0 <? i then u64 (samples + u32 (u32 (fc' - fc) * spc)) else samples in
      let t := if (0 <? i) && (0 <? c_spc ch) then rm_add samples' ch t else t in
      stsc_read n (i + 1) fc' spc' sdi' samples' t ws
    | _ => None
    end
  end.
(** parse_stsc 662-727 *)
Definition parse_stsc (ws : list Z) : option (table chunk * list Z) :=
  match ws with
  | _ :: n :: ws =>
    match stsc_read (Z.to_nat n) 0 0 0 0 0 [] ws with
    | Some (t, ch, ws) => Some (if 0 <? c_spc ch then rm_add (u64 (c_first_sample ch + c_spc ch)) ch t else t, ws)
    | None => None
    end
  | _ => None
  end.
Definition take (n : Z) (ws : list Z) : option (list Z * list Z) :=
  if (Z.of_nat (length ws) <? n)%Z then None else Some (firstn (Z.to_nat n) ws, skipn (Z.to_nat n) ws).
(** parse_stsz 776-803: sample_size, sample_count, the sizes *)
Definition parse_stsz (ws : list Z) : option (Z * Z * list Z * list Z) :=
  match ws with
  | _ :: sz :: n :: ws => if sz =? 0 then match take n ws with Some (l, r) => Some (sz, n, l, r) | None => None end else Some (sz, n, [], ws)
  | _ => None
  end.
(** parse_stco 821-838 *)
Definition parse_stco (ws : list Z) : option (list Z * list Z) :=
  match ws with _ :: n :: ws => take n ws | _ => None end.
(** skip_current 576-580 *)
Definition skip (n : Z) (ws : list Z) : list Z := if Z.of_nat (length ws) <? n then [] else skipn (Z.to_nat n) ws.
(** parse_boxes 2071-2155 of a track: the boxes one after the other until the end of the track
    (no box is skipped to its end after it is read).  The other boxes are skipped; sizes that
    are no multiple of 4 are rounded down. *)
Fixpoint parse_boxes (fuel : nat) (p : pstate) (ws : list Z) : option pstate :=
  match fuel with
  | O => None
  | S f =>
    match ws with
    | [] => Some p
    | size :: ty :: ws =>
      if ty =? box_stsc then
        match parse_stsc ws with Some (t, ws) => parse_boxes f (mkP t (p_size p) (p_count p) (p_sizes p) (p_chunks p)) ws | None => None end
      else if ty =? box_stsz then
        match parse_stsz ws with Some (sz, n, l, ws) => parse_boxes f (mkP (p_stsc p) sz n l (p_chunks p)) ws | None => None end
      else if ty =? box_stco then
        match parse_stco ws with Some (l, ws) => parse_boxes f (mkP (p_stsc p) (p_size p) (p_count p) (p_sizes p) l) ws | None => None end
      else parse_boxes f p (skip ((size - 8) / 4) ws)
    | _ => None
    end
  end.
Definition parse_tables (ws : list Z) : option pstate := parse_boxes (S (length ws)) p_init ws.

(** get_sample_size 805-817; None = outside the table *)
Definition sample_size (p : pstate) (s : Z) : option Z :=
  if p_size p =? 0 then (if s <? 0 then None else nth_error (p_sizes p) (Z.to_nat s)) else Some (p_size p).
(** get_chunk_number 729-757: chunk_number, remains, sample_description_index; None = the
    table is empty *)
Definition chunk_number (p : pstate) (s : Z) : option (Z * Z * Z) :=
  match rm_get c0 (p_stsc p) s with
  | Some (_, i) =>
    let c := val c0 (p_stsc p) i in
    let samples := u64 (s - c_first_sample c) in
    Some (u64 (samples / c_spc c + c_first_chunk c), samples mod c_spc c, c_sdi c)
  | None => None
  end.
(** get_chunk_offset 840-847 *)
Definition chunk_offset (p : pstate) (c : Z) : option Z := if c <=? 0 then None else nth_error (p_chunks p) (Z.to_nat (c - 1)).
(** loop 868-871 *)
Fixpoint add_sizes (p : pstate) (s : Z) (n : nat) (off : Z) : option Z :=
  match n with
  | O => Some off
  | S n => match sample_size p s with Some z => add_sizes p (s + 1) n (u64 (off + z)) | None => None end
  end.
(** get_sample_offset 849-875 *)
Definition sample_offset (p : pstate) (s : Z) : option Z :=
  match chunk_number p s with
  | Some (c, remains, _) => match chunk_offset p (u32 c) with Some o => add_sizes p (s - remains) (Z.to_nat remains) o | None => None end
  | None => None
  end.

(** * Specification vocabulary *)
(** a sample (position, size) which fits in the 32-bit tables when the media data is moved by [mdat] *)
Definition fits (mdat : Z) (s : Z * Z) : Prop := 0 <= fst s /\ 0 <= snd s /\ fst s + snd s + mdat < 2 ^ 32.
Definition all_same_size (l : list (Z * Z)) : Prop := forall a b, In a l -> In b l -> snd a = snd b.
(** a list given by runs of equal elements, spread out *)
Definition expand (rs : list (nat * Z)) : list Z := concat (map (fun r => repeat (snd r) (fst r)) rs).
(** sum of a list *)
Definition zsum (l : list Z) : Z := fold_right Z.add 0 l.
