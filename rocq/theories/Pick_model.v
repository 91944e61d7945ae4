(** Listing the samples of a movie, and trying out decoding times made up from presentation
    times: pick_samples and simulate_auto_decoding, /repo/src/mgcli/mp4info.cpp 2579-2694 and
    2768-2905 (the operations "pick" and "simul", 5712-5760).  A time table the seek cannot look into is
    the outcome None of Cut_model.move.  Not modelled: the summary of each stream before the
    listing (2790-2822) and the raw times in the rows (2879-2883). *)
From Verif Require Import Util SampleTab_model TimeTab_model Walk_model Cut_model AutoDec_model.
Local Open Scope Z_scope.

(** static_cast<int64_t> of a 64-bit number *)
Definition as_i64 (z : Z) : Z := let z := z mod 2 ^ 64 in if z <? 2 ^ 63 then z else z - 2 ^ 64.
(** streams[i] = b: 2635, 2886 *)
Fixpoint set_flag (i : nat) (b : bool) (l : list bool) : list bool :=
  match l, i with [], _ => [] | _ :: l, O => b :: l | x :: l, S i => x :: set_flag i b l end.
(** the samples of this stream are wanted: 2627-2628, 2858-2859; stream -1 = all *)
Definition wanted (stream : Z) (i : nat) : bool := (stream <? 0) || (stream =? Z.of_nat i).
(** 2635, 2886 *)
Definition goes_on (end_ : Z) (x : sample) : bool := (s_dec x <? as_i64 end_) || (end_ =? 0).

(** The loop 2851-2899 without the distance: the rows written, each of a stream and a sample;
    None = still running after [n] rounds *)
Fixpoint pick_loop (n : nat) (r : reader) (flags : list bool) (stream end_ : Z) : option (list (nat * sample)) :=
  match n with
  | O => None
  | S n =>
    match next r with
    | (r, Some (i, x, true)) =>
      if wanted stream i then
        let flags := set_flag i (goes_on end_ x) flags in
        if forallb (fun b => b) flags then option_map (cons (i, x)) (pick_loop n r flags stream end_) else Some [(i, x)]
      else pick_loop n r flags stream end_
    | _ => Some []
    end
  end.
(** 2891-2897 over the rows: max_distance, max_distance_time *)
Definition max_distance (rows : list (nat * sample)) : Z * Z :=
  fold_left (fun m row => let d := u64 (s_comp (snd row) - s_dec (snd row)) in if fst m <? d then (d, s_comp (snd row)) else m) rows (0, 0).
(** reader.move(time): 2998-3015, the first video stream or stream 0; [visual] = IsVisual of each
    stream *)
Fixpoint first_visual (i : nat) (visual : list bool) : nat :=
  match visual with [] => 0 | true :: _ => i | false :: visual => first_visual (S i) visual end.
(** the reader as parse leaves it *)
Definition opened (ks : list trk) (mdat_end : Z) : reader := mkRd (map (fun k => mkStream (samples_of k) 0) ks) 0 mdat_end.
(** pick_samples 2824-2902 *)
Definition pick_samples (n : nat) (ks : list trk) (visual : list bool) (mdat_end start end_ stream : Z) : option (list (nat * sample) * (Z * Z)) :=
  match (if 0 <? start then move ks mdat_end start (first_visual 0 visual) else Some (opened ks mdat_end)) with
  | None => None
  | Some r => option_map (fun rows => (rows, max_distance rows)) (pick_loop n r (map (fun _ => true) ks) stream end_)
  end.

(** What the loop 2623-2642 collects.  Wild = streams[ms.stream] with a stream number never set *)
Inductive collected := Unfinished | Wild | Times (l : list Z).
Definition add_time (c : Z) (l : collected) : collected := match l with Times l => Times (c :: l) | o => o end.
(** 2623-2642: [ms] is the sample read last, if there was one.  When next_file_chunks returns
    false, ms is looked at all the same, whatever its stream (2627-2630) *)
Fixpoint simul_loop (n : nat) (r : reader) (ms : option sample) (flags : list bool) (stream end_ : Z) : collected :=
  match n with
  | O => Unfinished
  | S n =>
    match next r with
    | (r, Some (i, x, true)) =>
      if stream =? Z.of_nat i then
        let flags := set_flag i (goes_on end_ x) flags in
        if forallb (fun b => b) flags then add_time (s_comp x) (simul_loop n r (Some x) flags stream end_) else Times [s_comp x]
      else simul_loop n r (Some x) flags stream end_
    | (_, Some (_, x, false)) => Times [s_comp x]
    | (_, None) => match ms with Some x => Times [s_comp x] | None => Wild end
    end
  end.
(** 2653-2690: the totals, the largest distance and its time; [first] = (i == 0), [tot] so far *)
Fixpoint totals (v : list Z) (first : bool) (tot : Z) (m : Z * Z) (l : list Z) : list Z * (Z * Z) :=
  match l with
  | [] => ([], m)
  | c :: l =>
    let tot := if first then match v with t :: _ => t | [] => 0 end else u64 (tot + gap v c) in
    let distance := as_i64 (tot - c) in
    let m := if fst m <? distance then (distance, c) else m in
    let '(ts, m) := totals v false tot m l in (tot :: ts, m)
  end.
(** 2644-2690 *)
Definition simulate (l : list Z) : list Z * (Z * Z) := totals (sort l) true 0 (0, 0) l.
(** simulate_auto_decoding 2588-2617 and the loop: stream -1 = stream 0; it seeks even for 0 *)
Definition simul_times (n : nat) (ks : list trk) (visual : list bool) (mdat_end start end_ stream : Z) : option collected :=
  match move ks mdat_end start (first_visual 0 visual) with
  | None => None
  | Some r => Some (simul_loop n r None (map (fun _ => true) ks) (if stream =? -1 then 0 else stream) end_)
  end.

(** the reader a listing begins with: 2817-2824 *)
Definition begins (ks : list trk) (visual : list bool) (e start : Z) (r : reader) : Prop := (start = 0 /\ r = opened ks e) \/ (0 < start /\ move ks e start (first_visual 0 visual) = Some r).

(** * Specification vocabulary *)
(** the elements up to the first one which is [P], and this one *)
Fixpoint through {A} (P : A -> bool) (l : list A) : list A := match l with [] => [] | x :: l => x :: (if P x then [] else through P l) end.
(** there is an end time, and the sample is decoded at it or later *)
Definition at_end (end_ : Z) (x : sample) : bool := negb (end_ =? 0) && (end_ <=? s_dec x).
(** the times of a sample as a reader gives them *)
Definition times_ok (x : sample) : Prop := 0 <= s_dec x <= s_comp x /\ s_comp x < 2 ^ 63.
(** the rows of stream [i] *)
Definition rows_of (i : nat) (rows : list (nat * sample)) : list sample := map snd (filter (fun p => (fst p =? i)%nat) rows).
(** times whose sums fit in 63 bits *)
Definition fair (l : list Z) : Prop := Forall (fun c => 0 <= c) l /\ forall c, In c l -> c * (Z.of_nat (length l) + 1) < 2 ^ 63.
