(** Model of the interleaving of the mp4 writer: MP4Write::add_sample, min_stream and
    CMP4Stream::write_samples of /repo/src/mg/media/mp4write.h 956-999, 1645-1663, 1737-1750,
    2109-2180, and of what MP4Mux::end (mp4mux.h 364-420) leaves behind.  The sample queue
    (media_queue.h, see FQueue_model) is a list; the file is the list of its bytes.  Time code
    streams (CMP4LTCStream), which drop repeated time codes, are not modelled. *)
From Verif Require Import Util SampleTab_model.
Local Open Scope Z_scope.

Record sample := mkS { s_comp : Z; s_dec : Z; s_body : list Z; s_key : bool }.
(** what was queued and not written, what was written and where in the file (791-909) *)
Record stream := mkSt { pending : list sample; written : list (sample * Z) }.
Definition stream0 : stream := mkSt [] [].
(** static_cast<int64_t> *)
Definition s64 (z : Z) : Z := if z <? 2 ^ 63 then z else z - 2 ^ 64.
(** 976-978 *)
Definition early (use_comp : bool) (max : Z) (s : sample) : bool := (if use_comp then s_comp s else s_dec s) <=? s64 max.
(** write_samples 968-999: the samples early enough are written; the stream, the file, whether
    something was written, and is_over *)
Fixpoint write_queue (use_comp : bool) (max : Z) (q : list sample) (w : list (sample * Z)) (file : list Z) : list sample * list (sample * Z) * list Z :=
  match q with
  | s :: q' => if early use_comp max s then write_queue use_comp max q' (w ++ [(s, Z.of_nat (length file))]) (file ++ s_body s) else (q, w, file)
  | [] => (q, w, file)
  end.
Definition write_samples (use_comp : bool) (max : Z) (st : stream) (file : list Z) : stream * list Z * bool * bool :=
  let '(q, w, file') := write_queue use_comp max (pending st) (written st) file in
  let wrote := negb (length w =? length (written st))%nat in
  (mkSt q w, file', wrote, negb (length q =? 0)%nat && negb wrote).
(** _sample_max 890-891 *)
Definition sample_max (st : stream) : Z := fold_left (fun m x => if m <? s_comp (fst x) then s_comp (fst x) else m) (written st) 0.
(** min_stream 1645-1663 *)
Definition min_stream (dist : Z) (l : list stream) : Z :=
  fold_left (fun m st => if (0 <? length (written st))%nat && (sample_max st <? m) then sample_max st else m) l (u64 (2 ^ 64 - 1 - dist)).
(** the loop 2142-2155 over the streams: [done] those behind, [w] = something was written,
    [over] = all_over *)
Fixpoint pass (use_comp : bool) (dist : Z) (done todo : list stream) (file : list Z) (maxc used : Z) (w over : bool) : list stream * list Z * Z * Z * bool * bool :=
  match todo with
  | [] => (done, file, maxc, used, w, over)
  | st :: todo =>
    let '(st', file', wrote, so) := write_samples use_comp (u64 (used + dist)) st file in
    if wrote then let m := min_stream dist (done ++ st' :: todo) in pass use_comp dist (done ++ [st']) todo file' m m true over
    else pass use_comp dist (done ++ [st']) todo file' maxc used w (over && so)
  end.
(** the loop 2127-2178; None = out of fuel *)
Fixpoint write_loop (fuel : nat) (use_comp : bool) (dist inc : Z) (l : list stream) (file : list Z) (maxc used : Z) : option (list stream * list Z * Z) :=
  match fuel with
  | O => None
  | S fuel =>
    let '(l, file, maxc, used, w, over) := pass use_comp dist [] l file maxc used false true in
    if w then write_loop fuel use_comp dist inc l file maxc used
    else if over then write_loop fuel use_comp dist inc l file maxc (u64 (used + inc))
    else Some (l, file, maxc)
  end.
(** the muxer: streams, file, _max_composition_time *)
Record mux := mkM { m_streams : list stream; m_file : list Z; m_max : Z }.
(** 1737-1750 with [n] streams added *)
Definition mux0 (dist : Z) (n : nat) : mux := mkM (repeat stream0 n) [] (u64 (2 ^ 64 - 1 - dist)).
(** queue_sample 956-966 *)
Definition queue (s : sample) (st : stream) : stream := mkSt (pending st ++ [s]) (written st).
Fixpoint on_nth {A} (n : nat) (f : A -> A) (l : list A) : list A := match l, n with [], _ => [] | x :: l, O => f x :: l | x :: l, S n => x :: on_nth n f l end.
(** add_sample 2109-2180; [inc] = _max_composition_time_increment = 100000 *)
Definition add_sample (fuel : nat) (use_comp : bool) (dist inc : Z) (m : mux) (k : nat) (s : sample) : option mux :=
  match write_loop fuel use_comp dist inc (on_nth k (queue s) (m_streams m)) (m_file m) (m_max m) (m_max m) with
  | Some (l, file, maxc) => Some (mkM l file maxc)
  | None => None
  end.

(** * Specification vocabulary *)
(** A history: samples given one after the other, each to a stream. *)
Notation history := (list (nat * sample)).
(** the muxer after a history, every call having returned *)
Inductive after (use_comp : bool) (dist inc : Z) (n : nat) : history -> mux -> Prop :=
| after_nil : after use_comp dist inc n [] (mux0 dist n)
| after_add : forall h m k s fuel m', after use_comp dist inc n h m -> (k < n)%nat -> add_sample fuel use_comp dist inc m k s = Some m' -> after use_comp dist inc n (h ++ [(k, s)]) m'.
(** what was given to stream [k] *)
Definition given (h : history) (k : nat) : list sample := map snd (filter (fun x => Nat.eqb (fst x) k) h).
(** samples one after the other in a file, from [pos] on, at the places noted *)
Fixpoint laid_out (pos : Z) (l : list (sample * Z)) : Prop := match l with [] => True | (s, p) :: l => p = pos /\ laid_out (pos + Z.of_nat (length (s_body s))) l end.
(** times and distances far from wrapping around *)
Definition good_time (s : sample) : Prop := 0 <= s_comp s < 2 ^ 62 /\ 0 <= s_dec s < 2 ^ 62.
