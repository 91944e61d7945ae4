(** Model of reading the samples of all streams in the order of the file:
    /repo/src/mg/media/mp4parse.h 2408-2447 and 3067-3177, and the loops of its users
    (mp4fragmented.h 609, mp4info.cpp 4410).  A sample is what pick_sample fills in; where it
    comes from is the subject of SampleTab_model and TimeTab_model.  Not modelled: fewer than 15
    attempts because of _streams.size() = 0 (no stream, nothing is read either way). *)
From Verif Require Import Util SampleTab_model.
Local Open Scope Z_scope.

(** sample_info 2413-2423: place, size, composition time, decoding time, duration, sync point *)
Record sample := mkS { s_off : Z; s_size : Z; s_comp : Z; s_dec : Z; s_dur : Z; s_sync : bool }.
(** a track as far as it is read: its samples and _current_sample *)
Record stream := mkStream { st_samples : list sample; st_cur : nat }.
(** MP4Reader: _streams, _last_offset, _mdat_end *)
Record reader := mkRd { r_streams : list stream; r_last : Z; r_mdat_end : Z }.

(** pick_sample 2408-2431 *)
Definition pick (st : stream) : option sample := nth_error (st_samples st) (st_cur st).
(** move_next 2438-2447 *)
Definition move_next (st : stream) : stream := if (st_cur st <? length (st_samples st))%nat then mkStream (st_samples st) (S (st_cur st)) else st.
(** 3087-3127: the stream with the least offset, from number [i] of [n] on, and _last_offset;
    None = return false at 3123 *)
Fixpoint scan_min (n i : nat) (ss : list stream) (s : option nat) (last : Z) : option (option nat * Z) :=
  match ss with
  | [] => Some (s, last)
  | st :: ss =>
    match st_samples st with
    | [] => scan_min n (S i) ss s last
    | _ =>
      match pick st with
      | Some x => if s_off x <? last then scan_min n (S i) ss (Some i) (s_off x) else scan_min n (S i) ss s last
      | None => if (i =? n - 1)%nat && (last =? U64MAX) then None else scan_min n (S i) ss s last
      end
    end
  end.
(** 3131-3150: the stream whose sample follows *)
Fixpoint scan_eq (i : nat) (ss : list stream) (last : Z) : option nat :=
  match ss with
  | [] => None
  | st :: ss =>
    match pick st with
    | Some x => if s_off x =? last then Some i else scan_eq (S i) ss last
    | None => scan_eq (S i) ss last
    end
  end.
(** while 3075-3161: the stream found and _last_offset; at most [tries] rounds *)
Fixpoint attempt (tries : nat) (ss : list stream) (last : Z) : option nat * Z :=
  match tries with
  | O => (None, last)
  | S t =>
    if last =? 0 then
      match scan_min (length ss) 0 ss None U64MAX with
      | None => (None, U64MAX)
      | Some (Some i, l) => (Some i, l)
      | Some (None, l) => attempt t ss l
      end
    else match scan_eq 0 ss last with Some i => (Some i, last) | None => attempt t ss 0 end
  end.
Fixpoint set_nth_stream (i : nat) (st : stream) (ss : list stream) : list stream :=
  match ss, i with [] , _ => [] | _ :: ss, O => st :: ss | x :: ss, S i => x :: set_nth_stream i st ss end.
(** next_file_chunks 3069-3177: the reader after it; the stream, the sample and the value
    returned, None = false without a sample *)
Definition next (r : reader) : reader * option (nat * sample * bool) :=
  match attempt 15 (r_streams r) (r_last r) with
  | (None, l) => (mkRd (r_streams r) l (r_mdat_end r), None)
  | (Some i, l) =>
    match nth_error (r_streams r) i with
    | None => (r, None)
    | Some st =>
      match pick st with
      | None => (r, None)
      | Some x => let l := u64 (l + s_size x) in (mkRd (set_nth_stream i (move_next st) (r_streams r)) l (r_mdat_end r), Some (i, x, l <=? r_mdat_end r))
      end
    end
  end.
(** while(reader.next_file_chunks(sample)): the samples seen by the loop and the reader after it;
    None = not at the end after [n] rounds *)
Fixpoint walk (n : nat) (r : reader) : option (list (nat * sample) * reader) :=
  match n with
  | O => None
  | S n =>
    match next r with
    | (r, Some (i, x, true)) => match walk n r with Some (l, r) => Some ((i, x) :: l, r) | None => None end
    | (r, _) => Some ([], r)
    end
  end.

(** * Specification vocabulary *)
(** the samples of a stream not read yet *)
Definition rest (st : stream) : list sample := skipn (st_cur st) (st_samples st).
(** a sample inside the media data, which ends at [e] *)
Definition inside (e : Z) (x : sample) : Prop := 0 <= s_off x /\ 0 <= s_size x /\ s_off x + s_size x <= e.
(** what is left to read lies in the media data of a file of less than 2^64 - 1 bytes *)
Definition readable (r : reader) : Prop := r_mdat_end r < 2 ^ 64 - 1 /\ forall st, In st (r_streams r) -> Forall (inside (r_mdat_end r)) (rest st).
(** the samples of stream [i] in what was read *)
Definition of_stream (i : nat) (l : list (nat * sample)) : list sample := map snd (filter (fun p => (fst p =? i)%nat) l).
(** how much is left *)
Definition remaining (r : reader) : nat := list_sum (map (fun st => length (rest st)) (r_streams r)).
(** [a] is before [b] in the file, [a] not empty *)
Definition before (a b : sample) : Prop := 0 < s_size a /\ s_off a + s_size a <= s_off b.
Definition apart (a b : sample) : Prop := before a b \/ before b a.
