(** Model of the time tables of a track: written by /repo/src/mg/media/mp4write.h 421-556,
    754-774, 791-909 and read by /repo/src/mg/media/mp4parse.h 906-1360, 2297-2372.  As in
    SampleTab_model the file is a list of 32-bit words.  The conversions between units of 100 ns
    and ticks of the writer (261-298) are in double precision: here they are two functions
    [scale] and [unscale] (see [conversion] below, and Double_model for the doubles). *)
From Verif Require Import Util RangeMap_model SampleTab_model.
Local Open Scope Z_scope.

Definition box_stts : Z := 0x73747473.
Definition box_ctts : Z := 0x63747473.
Definition box_stss : Z := 0x73747373.

(** ** Writer *)
(** loop 440-475 of write_stts: the words written, the number of entries, sample_delta and
    current_count after it *)
Fixpoint stts_loop (scale unscale : Z -> Z) (i : Z) (ds : list Z) (last delta count : Z) : list Z * Z * Z * Z :=
  match ds with
  | [] => ([], 0, delta, count)
  | d :: ds =>
    let cur := scale (u64 (d - last)) in
    let last := u64 (last + unscale cur) in
    let delta := if i =? 1 then u32 cur else delta in
    let count := if i =? 1 then 0 else count in
    if negb (cur =? delta) && (0 <? i) then
      let '(ws, n, delta', count') := stts_loop scale unscale (i + 1) ds last (u32 cur) 1 in (u32 count :: delta :: ws, n + 1, delta', count')
    else stts_loop scale unscale (i + 1) ds last delta (count + 1)
  end.
(** write_stts 421-493: the decoding times of the samples *)
Definition write_stts (scale unscale : Z -> Z) (allow_empty : bool) (ds : list Z) : list Z :=
  let '(ws, n, delta, count) := stts_loop scale unscale 0 ds 0 0 0 in
  if (0 <? length ds)%nat || negb allow_empty then fullbox box_stts (u32 (n + 1) :: ws ++ [u32 (count + 1); delta])
  else fullbox box_stts (u32 n :: ws).
(** loop 516-542 of write_ctts.  A sample: composition, decoding time. *)
Fixpoint ctts_loop (scale : Z -> Z) (off : Z) (i : Z) (l : list (Z * Z)) (delta count : Z) : list Z * Z * Z * Z :=
  match l with
  | [] => ([], 0, delta, count)
  | (c, d) :: l =>
    let cur := scale (u64 (c - d + off)) in
    let delta := if i =? 0 then u32 cur else delta in
    if negb (cur =? delta) then
      let '(ws, n, delta', count') := ctts_loop scale off (i + 1) l (u32 cur) 1 in (u32 count :: delta :: ws, n + 1, delta', count')
    else ctts_loop scale off (i + 1) l delta (count + 1)
  end.
(** write_ctts 495-556; [] = the box is not written.  [has] is _has_composition. *)
Definition write_ctts (scale : Z -> Z) (has : bool) (off : Z) (l : list (Z * Z)) : list Z :=
  if negb has && (off =? 0) then []
  else let '(ws, n, delta, count) := ctts_loop scale off 0 l 0 0 in fullbox box_ctts (u32 (n + 1) :: ws ++ [u32 count; delta]).
(** 818-819: _has_composition after the samples were written *)
Definition has_composition (l : list (Z * Z)) : bool := existsb (fun s => negb (fst s =? snd s)) l.
(** 900-904: the numbers of the key frames, among samples marked as key frames or not *)
Fixpoint iframes (i : Z) (l : list bool) : list Z := match l with [] => [] | b :: l => (if b then [i] else []) ++ iframes (i + 1) l end.
(** write_stss 754-774; [] = not written *)
Definition write_stss (ks : list Z) : list Z :=
  match ks with [] => [] | _ => fullbox box_stss (u32 (Z.of_nat (length ks)) :: map (fun k => u32 (k + 1)) ks) end.

(** ** Reader *)
(** 906-910 *)
Record decoding := mkD { d_samples : Z; d_duration : Z; d_delta : Z }.
Definition d0 : decoding := mkD 0 0 0.
(** 1055-1065: decoding time and duration of [n] samples *)
Fixpoint stts_run (n : nat) (time delta : Z) : list (Z * Z) := match n with O => [] | S n => (time, delta) :: stts_run n (u64 (time + delta)) delta end.
(** total_time after them *)
Fixpoint stts_total (n : nat) (time delta : Z) : Z := match n with O => time | S n => stts_total n (u64 (time + delta)) delta end.
(** loop 1050-1071 of parse_stts *)
Fixpoint stts_read (n : nat) (samples duration : Z) (times : list (Z * Z)) (t : table decoding) (ws : list Z) : option (list (Z * Z) * table decoding * list Z) :=
  match n with
  | O => Some (times, t, ws)
  | S n =>
    match ws with
    | cnt :: delta :: ws =>
      let total := stts_total (Z.to_nat cnt) duration delta in
      stts_read n (u64 (samples + cnt)) total (times ++ stts_run (Z.to_nat cnt) duration delta) (rm_add total (mkD samples duration delta) t) ws
    | _ => None
    end
  end.
(** parse_stts 1033-1076: decoding time and duration of each sample, table for the search *)
Definition parse_stts (ws : list Z) : option (list (Z * Z) * table decoding * list Z) :=
  match ws with _ :: n :: ws => stts_read (Z.to_nat n) 0 0 [] [] ws | _ => None end.
(** add_ordered 958-999, from the end of the vector on; None = the element before the first is read *)
Fixpoint insert_rev (r : list (Z * Z)) (n : Z * Z) : option (list (Z * Z)) :=
  match r with
  | [] => None
  | x :: r => if fst n <? fst x then match insert_rev r n with Some r => Some (x :: r) | None => None end else Some (n :: x :: r)
  end.
Definition add_ordered (l : list (Z * Z)) (n : Z * Z) : option (list (Z * Z)) :=
  match l with [] => Some [n] | _ => match insert_rev (rev l) n with Some r => Some (rev r) | None => None end end.
(** 1108-1137: [cnt] samples with one offset.  [times] the samples not reached yet; the offsets
    found and the samples in presentation order (composition time, number) *)
Fixpoint ctts_run (cnt : nat) (off num : Z) (times : list (Z * Z)) (ord : list (Z * Z)) : option (list Z * Z * list (Z * Z) * list (Z * Z)) :=
  match cnt with
  | O => Some ([], num, times, ord)
  | S cnt =>
    match times with
    | [] => ctts_run cnt off (num + 1) [] ord
    | (d, _) :: times =>
      match add_ordered ord (u64 (d + off), num) with
      | None => None
      | Some ord => match ctts_run cnt off (num + 1) times ord with Some (o, num, times, ord) => Some (off :: o, num, times, ord) | None => None end
      end
    end
  end.
(** loop 1097-1138; None = end of file or memory error *)
Fixpoint ctts_read (n : nat) (num : Z) (times ord : list (Z * Z)) (ws : list Z) : option (list Z * list (Z * Z) * list Z) :=
  match n with
  | O => Some ([], ord, ws)
  | S n =>
    match ws with
    | cnt :: off :: ws =>
      match ctts_run (Z.to_nat cnt) off num times ord with
      | Some (o, num, times, ord) => match ctts_read n num times ord ws with Some (o', ord, ws) => Some (o ++ o', ord, ws) | None => None end
      | None => None
      end
    | _ => None
    end
  end.
(** parse_ctts 1079-1154: the composition offsets, the samples in presentation order *)
Definition parse_ctts (times : list (Z * Z)) (ws : list Z) : option (list Z * list (Z * Z) * list Z) :=
  match ws with _ :: n :: ws => ctts_read (Z.to_nat n) 0 times [] ws | _ => None end.
(** parse_stss 1155-1180 *)
Fixpoint stss_read (i prev : Z) (ks : list Z) (t : table Z) : table Z :=
  match ks with
  | [] => rm_add (u32 (prev + 1)) prev t
  | k :: ks => let s := u32 (k - 1) in stss_read (i + 1) s ks (if 0 <? i then rm_add (u32 (s - 1)) prev t else t)
  end.
Definition parse_stss (ws : list Z) : option (table Z * list Z) :=
  match ws with _ :: n :: ws => match take n ws with Some (ks, ws) => Some (stss_read 0 0 ks [], ws) | None => None end | _ => None end.

(** The track as read: decoding time and duration of the samples, offsets ([None] = no ctts),
    presentation order, search table, key frame table ([None] = no stss). *)
Record track := mkT { t_times : list (Z * Z); t_offsets : list Z; t_has_ctts : bool; t_order : list (Z * Z); t_table : table decoding; t_keys : option (table Z) }.
(** get_decoding_time 1324, get_duration 1335; None = outside the vector *)
Definition decoding_time (t : track) (s : Z) : option Z := if s <? 0 then None else option_map fst (nth_error (t_times t) (Z.to_nat s)).
Definition duration_of (t : track) (s : Z) : option Z := if s <? 0 then None else option_map snd (nth_error (t_times t) (Z.to_nat s)).
(** get_composition_time 1273 (an offset not set is 0) *)
Definition composition_time (t : track) (s : Z) : option Z := option_map (fun d => u64 (d + nth (Z.to_nat s) (t_offsets t) 0)) (decoding_time t s).
(** get_decoding_sample_number 1199-1219 *)
Definition decoding_sample (t : track) (time : Z) : option Z :=
  match rm_get d0 (t_table t) time with
  | Some (_, i) => let d := val d0 (t_table t) i in let ref := u64 (time - d_duration d) in
                   Some (u64 (d_samples d + (if d_delta d =? 0 then 0 else ref / d_delta d)))
  | None => None
  end.
(** std::lower_bound *)
Fixpoint lower_bound (time : Z) (l : list (Z * Z)) : nat := match l with [] => O | x :: l => if fst x <? time then S (lower_bound time l) else O end.
(** get_composition_sample_number 1221-1269 *)
Definition composition_sample (t : track) (time : Z) : option Z :=
  if t_has_ctts t then
    let i := lower_bound time (t_order t) in
    if (i <? length (t_order t))%nat && (0 <? i)%nat then
      let i := if time <? fst (nth i (t_order t) (0, 0)) then (i - 1)%nat else i in Some (snd (nth i (t_order t) (0, 0)))
    else Some 0
  else decoding_sample t time.
(** is_IFrame 1346-1358 *)
Definition is_iframe (t : track) (s : Z) : option bool :=
  match t_keys t with
  | None => Some true
  | Some [] => Some true
  | Some m => match rm_get 0 m s with Some (_, i) => Some (val 0 m i =? s) | None => None end
  end.
(** get_IFrame_number 1299-1310 on the decoding sample number, and the upper limit the search
    leaves behind (88, 168-219) *)
Definition iframe_at (m : table Z) (s : Z) : option (Z * Z) := match rm_get 0 m s with Some (_, i) => Some (val 0 m i, key 0 m i) | None => None end.
(** get_next_IFrame_number 1312-1322 after a search that left [limit] *)
Definition next_iframe (m : table Z) (limit : Z) : option (Z * Z) := iframe_at m (u64 (limit + 1)).
(** 2297-2341: the same in units of 100 ns *)
Definition to_hns (ts ticks : Z) : Z := u64 (10000000 * ticks) / ts.
Definition of_hns (ts time : Z) : Z := u64 (time * ts) / 10000000.
Definition decoding_time_hns (ts : Z) (t : track) (s : Z) : option Z := option_map (to_hns ts) (decoding_time t s).
Definition decoding_sample_hns (ts : Z) (t : track) (time : Z) : option Z := decoding_sample t (of_hns ts time).
(** get_composition_sample_number 2343-2372 of the track *)
Definition composition_sample_hns (ts : Z) (t : track) (time : Z) : option Z :=
  let n := Z.of_nat (length (t_times t)) in
  match composition_sample t (of_hns ts time) with
  | Some s =>
    if s =? 0 then Some 0
    else if n <=? s then Some (n - 1)
    else match composition_time t s with
         | Some c => let s := if c <? of_hns ts time then s + 1 else s in Some (if n <=? s then n - 1 else s)
         | None => None
         end
  | None => None
  end.

(** reading what was written: stts, ctts if there, stss if there (write_stbl 781-786) *)
Definition read_track (stts ctts stss : list Z) : option track :=
  match parse_stts (skipn 2 stts) with
  | None => None
  | Some (times, tb, _) =>
    let keys := match stss with [] => Some None | _ => match parse_stss (skipn 2 stss) with Some (m, _) => Some (Some m) | None => None end end in
    match keys with
    | None => None
    | Some k =>
      match ctts with
      | [] => Some (mkT times [] false [] tb k)
      | _ => match parse_ctts times (skipn 2 ctts) with Some (o, ord, _) => Some (mkT times o true ord tb k) | None => None end
      end
    end
  end.

(** * Specification vocabulary *)
(** conversions between units of 100 ns and ticks of 1/[ts] seconds, for times below [h]:
    rounded down, or one less if exact (as doubles may do) *)
Definition conversion (ts h : Z) (scale unscale : Z -> Z) : Prop :=
  0 < ts /\ (forall t, 0 <= t < h -> 0 <= scale t /\ 10000000 * scale t <= ts * t <= 10000000 * (scale t + 1))
  /\ (forall t, 0 <= t -> 10000000 * t <= ts * h -> 0 <= unscale t /\ ts * unscale t <= 10000000 * t <= ts * (unscale t + 1)).
(** exact arithmetic, rounded down *)
Definition floor_scale (ts t : Z) : Z := ts * t / 10000000.
Definition floor_unscale (ts t : Z) : Z := 10000000 * t / ts.
(** a time below [h] which fits in 32 bits of ticks *)
Definition fit (ts h d : Z) : Prop := 0 <= d < h /\ ts * d < 10000000 * 2 ^ 32.
(** more than a tick and a unit of 100 ns, in units of 100 ns *)
Definition slack (ts : Z) : Z := 10000000 / ts + 2.
(** times of 64 bits which never go back, from [prev] on; each is less than [h] after the one
    before (with [slack] to spare) *)
Fixpoint paced (ts h prev : Z) (l : list Z) : Prop :=
  match l with [] => True | x :: r => prev <= x < 2 ^ 64 /\ fit ts h (x - prev + slack ts) /\ paced ts h x r end.
(** the words of a table of runs *)
Fixpoint enc2 (rs : list (nat * Z)) : list Z := match rs with [] => [] | (n, c) :: r => Z.of_nat n :: c :: enc2 r end.
(** decoding time and duration of samples with these durations, from [t] on *)
Fixpoint times_of (t : Z) (ds : list Z) : list (Z * Z) := match ds with [] => [] | d :: ds => (t, d) :: times_of (t + d) ds end.
(** the composition offsets in ticks of samples (composition, decoding time) *)
Definition offsets (scale : Z -> Z) (off : Z) (l : list (Z * Z)) : list Z := map (fun s => scale (fst s - snd s + off)) l.
(** they fit their fields *)
Definition ctts_tame (scale : Z -> Z) (off : Z) (l : list (Z * Z)) : Prop := Forall (fun s => 0 <= fst s - snd s + off < 2 ^ 64 /\ 0 <= scale (fst s - snd s + off) < 2 ^ 32) l.
(** [n] samples every 200 ns *)
Definition two (n : nat) : list Z := map (fun i => 2 * i) (zseq 0 n).
(** presented no later (composition time, number) *)
Definition leT (a b : Z * Z) : Prop := fst a <= fst b.
