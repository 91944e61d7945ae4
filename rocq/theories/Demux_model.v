(** Model of reading a whole movie sample by sample: MP4Reader as it is opened (Movie_model), the
    samples of its streams (CPM4Track::pick_sample 2408-2431 and get_stream_offset 2374-2378 of
    /repo/src/mg/media/mp4parse.h), all streams together in the order of the file
    (next_file_chunks, Walk_model), and the bytes of every sample, as the loop of
    /repo/src/mg/media/mp4fragmented.h 609-617 reads them.  Simplified: the samples are looked up
    in the tables before the loop, and not when they are reached; None for the whole reading if a
    table has no entry for one of them (an exception or memory outside a vector is read). *)
From Verif Require Import Util SampleTab_model TimeTab_model Box_model Movie_model.
From Verif Require Walk_model.
Local Open Scope Z_scope.

(** pick_sample 2408-2431; None = outside the tables, or a time scale of 0 *)
Definition pick_sample (x : rtrack) (i : nat) : option Walk_model.sample :=
  let n := Z.of_nat i in
  match SampleTab_model.sample_offset (x_tables x) n, SampleTab_model.sample_size (x_tables x) n, composition_time (x_track x) n, decoding_time (x_track x) n, duration_of (x_track x) n, is_iframe (x_track x) n with
  | Some off, Some size, Some c, Some d, Some du, Some key =>
    if x_ts x =? 0 then None else Some (Walk_model.mkS off size (to_hns (x_ts x) c) (to_hns (x_ts x) d) (to_hns (x_ts x) du) key)
  | _, _, _, _, _, _ => None
  end.
(** get_stream_offset 2374-2378 *)
Definition stream_offset (x : rtrack) : Z := to_hns (x_mvts x) (x_offset x).
Fixpoint all_some {A} (l : list (option A)) : option (list A) :=
  match l with [] => Some [] | None :: _ => None | Some x :: l => match all_some l with Some l => Some (x :: l) | None => None end end.
(** the samples of a stream: numbers below get_sample_count *)
Definition samples_of (x : rtrack) : option (list Walk_model.sample) := all_some (map (pick_sample x) (seq 0 (Z.to_nat (p_count (x_tables x))))).
(** set_position(sample.offset), read_bytes(sample.size) *)
Definition with_bytes (file : list Z) (p : nat * Walk_model.sample) : option (nat * Walk_model.sample * list Z) :=
  match bytes_at file (Walk_model.s_off (snd p)) (Z.to_nat (Walk_model.s_size (snd p))) with Some b => Some (p, b) | None => None end.
(** while(reader.next_file_chunks(sample)): every sample with its stream and its bytes *)
Definition demux (file : list Z) : option (movie * list (nat * Walk_model.sample * list Z)) :=
  match read_movie file with
  | None => None
  | Some mv =>
    match all_some (map samples_of (v_streams mv)) with
    | None => None
    | Some ls =>
      match Walk_model.walk (S (length (concat ls))) (Walk_model.mkRd (map (fun l => Walk_model.mkStream l 0) ls) 0 (v_end mv)) with
      | Some (l, _) => match all_some (map (with_bytes file) l) with Some out => Some (mv, out) | None => None end
      | None => None
      end
    end
  end.

(** * Specification vocabulary *)
(** what was read of stream [k] *)
Definition got (k : nat) (out : list (nat * Walk_model.sample * list Z)) : list (Walk_model.sample * list Z) :=
  map (fun o => (snd (fst o), snd o)) (filter (fun o => Nat.eqb (fst (fst o)) k) out).
(** all the bytes read *)
Definition read_bytes (out : list (nat * Walk_model.sample * list Z)) : list Z := concat (map snd out).
(** what should be read of a stream set up by [g], with the samples written to it, when the
    reader announces [delay] for the stream: every sample once, in order, with its bytes and
    whether it is a key frame (every sample, if the stream has no key frames); in units of 100 ns
    (the differences multiplied by the time scale), its decoding time from that of the first
    sample on, up to a tick and two units below, a tick and one unit more per sample above; its
    composition time, with the delay, is that written moved by [shift], up to two ticks, two units
    and a millisecond below; it lasts until the next one, to a unit, the last one as long as the
    one before *)
Definition reads_as (g : setting) (shift delay : Z) (l : list (MuxQueue_model.sample * Z)) (ys : list (Walk_model.sample * list Z)) : Prop :=
  let d0 := MuxQueue_model.s_dec (fst (hd (MuxQueue_model.mkS 0 0 [] false, 0) l)) in let ts := g_ts g in
  length ys = length l /\ forall i s p, nth_error l i = Some (s, p) -> exists y, nth_error ys i = Some (y, MuxQueue_model.s_body s)
  /\ Walk_model.s_sync y = (if (match g_codec g with Video _ _ _ _ => existsb (fun y => MuxQueue_model.s_key (fst y)) l | Audio _ _ _ => false end) then MuxQueue_model.s_key s else true)
  /\ - (10000000 + 2 * ts) <= ts * (Walk_model.s_dec y - (MuxQueue_model.s_dec s - d0)) <= 10000000 + ts + ts * Z.of_nat i
  /\ - (20000000 + 2 * ts + 10000 * ts) <= ts * (Walk_model.s_comp y + delay - (MuxQueue_model.s_comp s + shift)) <= 10000000 + ts + ts * Z.of_nat i
  /\ match nth_error ys (S i) with
     | Some y' => Walk_model.s_dec y + Walk_model.s_dur y <= Walk_model.s_dec (fst y') <= Walk_model.s_dec y + Walk_model.s_dur y + 1
     | None => forall y', nth_error ys (i - 1) = Some y' -> Walk_model.s_dur y = Walk_model.s_dur (fst y')
     end.
