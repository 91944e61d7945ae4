(** Model of what is published to the index of a dynamic stream:
    /repo/src/mg/media/mp4dynamic.cpp 48-90 and 454-469 (streams with key frames), 300-450
    (streams without); /repo/src/mg/media/mp4dynamic.h 110-130, 195-206 (stream ends).
    Times are integers in units of 100 ns, unsigned 64 bits where the code can wrap. *)
From Verif Require Import Util.
Local Open Scope Z_scope.

Definition NO_TIME : Z := 2 ^ 64 - 1.
(** a published point: original (composition) and computed time; a point joining two files *)
Inductive event := Seg (orig computed : Z) | Cross (orig computed orig2 computed2 : Z).

(** * Streams with key frames *)
(** 454-469: _last_fragment is NO_TIME at the start of a file (mp4dynamic.h 359) *)
Definition publish_composition (len tol last : Z) (k : Z * Z) : Z * list event :=
  let '(comp, computed) := k in
  if (last =? NO_TIME) || ((last - tol) mod 2 ^ 64 <=? computed)
  then ((computed + len) mod 2 ^ 64, [Seg comp computed]) else (last, []).
(** 67-87: the key frames (composition, computed), while composition grows and is before [stop] *)
Fixpoint publish_keys (len tol stop : Z) (prev : option Z) (last : Z) (ks : list (Z * Z)) : list event :=
  match ks with
  | [] => []
  | k :: r =>
    if (fst k <? stop) && match prev with None => true | Some p => p <? fst k end
    then let '(last, e) := publish_composition len tol last k in e ++ publish_keys len tol stop (Some (fst k)) last r
    else []
  end.
Definition publish_video (len tol stop : Z) (ks : list (Z * Z)) : list event := publish_keys len tol stop None NO_TIME ks.

(** * Streams without key frames *)
(** A track without composition offsets and with one sample duration, as the reader presents it
    (mp4parse.h 2297-2372, 1199-1219): number of samples, duration and time scale in ticks,
    stream offset, and what computed_time (mp4dynamic.h 239-256) adds. *)
Record track := mktrack { t_count : Z; t_delta : Z; t_scale : Z; t_off : Z; t_base : Z }.
(** get_decoding_time *)
Definition sample_time (t : track) (p : Z) : Z := 10000000 * (p * t_delta t) / t_scale t.
(** get_sample_duration *)
Definition sample_dur (t : track) : Z := 10000000 * t_delta t / t_scale t.
(** get_composition_sample_number *)
Definition sample_number (t : track) (time : Z) : Z :=
  let dtime := time * t_scale t / 10000000 in
  let s := dtime / t_delta t in
  if s =? 0 then 0 else if t_count t <=? s then t_count t - 1 else
  let s := if s * t_delta t <? dtime then s + 1 else s in
  if t_count t <=? s then t_count t - 1 else s.
Definition comp_of (t : track) (p : Z) : Z := sample_time t p + t_off t.
Definition computed_of (t : track) (p : Z) : Z := t_base t + comp_of t p.

(** _reporting_start_time, _reporting_computed_start_time, _reporting_samples *)
Record pending := mkpending { r_start : Z; r_computed : Z; r_samples : Z }.
Inductive result := Done (es : list event) (rep : option pending) | Hang | OutOfRange.
Definition emit (e : event) (r : result) : result := match r with Done es rep => Done (e :: es) rep | _ => r end.
(** 389-448 *)
Fixpoint segments_from (fuel : nat) (t : track) (jump stop p : Z) (rep : option pending) : result :=
  match fuel with
  | O => Hang
  | S k =>
    if (comp_of t p <? stop) && (p <? t_count t) then
      emit (Seg (comp_of t p) (computed_of t p))
        (let p := p + jump in
         if t_count t <=? p then Done [] rep
         else if t_count t - p <? jump then Done [] (Some (mkpending (comp_of t p) (computed_of t p) (t_count t - p)))
         else segments_from k t jump stop p rep)
    else Done [] rep
  end.
(** 300-388: with _generate_only_full_fragment; 333-342: the loop changes nothing it tests *)
Definition publish_audio (len : Z) (t : track) (start stop : Z) (rep : option pending) : result :=
  let p := sample_number t (if t_off t <? start then start - t_off t else 0) in
  let jump := len / sample_dur t in
  if comp_of t p <? start then Hang else
  match rep with
  | Some r =>
    let q := p + (jump - r_samples r) in
    if t_count t <=? q then OutOfRange
    else emit (Cross (r_start r) (r_computed r) (comp_of t p) (computed_of t p))
           (segments_from (Z.to_nat (t_count t) + 1) t jump stop q None)
  | None => segments_from (Z.to_nat (t_count t) + 1) t jump stop p None
  end.
(** one call per file (and per stream: the pending samples are one variable); all from time 0 *)
Fixpoint publish_files (len stop : Z) (fs : list track) (rep : option pending) : result :=
  match fs with
  | [] => Done [] rep
  | f :: r => match publish_audio len f 0 stop rep with
    | Done es rep => match publish_files len stop r rep with Done es' rep => Done (es ++ es') rep | x => x end
    | x => x
    end
  end.

(** * Where a stream ends *)
(** mp4dynamic.h 110-114, 126-130: samples (composition, duration) *)
Definition mux_end (samples : list (Z * Z)) : Z :=
  let '(e, d) := fold_left (fun s x => if fst s <? fst x then x else s) samples (0, 0) in e + d.
(** mp4dynamic.h 201-205 *)
Definition composition_end (samples : list (Z * Z)) : Z :=
  fold_left (fun e x => if e <? fst x then fst x + snd x else e) samples 0.

(** * Specification vocabulary *)
Definition seg_of (k : Z * Z) : event := Seg (fst k) (snd k).
(** [chosen gap ks es]: es is chosen among ks, in order, starting with the first: after a chosen
    point the next one is the first at least [gap] later. *)
Fixpoint skip_until (limit : Z) (ks : list (Z * Z)) : list (Z * Z) :=
  match ks with [] => [] | k :: r => if limit <=? snd k then ks else skip_until limit r end.
Inductive chosen (gap : Z) : list (Z * Z) -> list event -> Prop :=
| chosen_nil : chosen gap [] []
| chosen_cons : forall k r es, chosen gap (skip_until (snd k + gap) r) es -> chosen gap (k :: r) (seg_of k :: es).
(** all the samples of the files, one after the other: original and computed time *)
Definition samples_of (t : track) : list (Z * Z) :=
  map (fun i => (comp_of t (Z.of_nat i), computed_of t (Z.of_nat i))) (seq 0 (Z.to_nat (t_count t))).
Definition all_samples (fs : list track) : list (Z * Z) := flat_map samples_of fs.
(** where the files after the first start, counted in samples *)
Fixpoint file_bounds (at_ : Z) (fs : list track) : list Z :=
  match fs with [] => [] | f :: r => at_ :: file_bounds (at_ + t_count f) r end.
(** the segment of [n] samples from number [g] *)
Definition describes (fs : list track) (n g : Z) (e : event) : Prop :=
  match e with
  | Seg c t => nth_error (all_samples fs) (Z.to_nat g) = Some (c, t) /\ forall b, In b (file_bounds 0 fs) -> b <= g \/ g + n <= b
  | Cross c t c2 t2 => nth_error (all_samples fs) (Z.to_nat g) = Some (c, t)
    /\ exists b, In b (file_bounds 0 fs) /\ g < b < g + n /\ nth_error (all_samples fs) (Z.to_nat b) = Some (c2, t2)
  end.
Definition track_ok (len stop : Z) (n : Z) (t : track) : Prop :=
  0 < t_delta t /\ 0 < t_scale t /\ 0 <= t_off t /\ 0 < sample_dur t /\ len / sample_dur t = n /\ 2 * n <= t_count t
  /\ forall p, 0 <= p < t_count t -> comp_of t p < stop.
