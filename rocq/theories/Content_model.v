(** Model of what a segment of a presentation is made of: the loop of the packaging command,
    /repo/src/mgcli/mp4info.cpp 5611-5692, with produce_m4f_chunk 4337-4390 and
    produce_m4f_chunk_cross 4268-4335, and /repo/src/mg/media/mp4fragmented.h 796-1010 which they
    call: start and end of the parts, the file of each, the samples taken from it (Cut_model) and
    the base time of the fragment.  int64_t times are handed over as uint64_t.  The bytes of a
    fragment are in Frag_model; encryption in Cenc_model. *)
From Verif Require Import Util SampleTab_model Walk_model Cut_model Points_model Fill_model.
Local Open Scope Z_scope.

(** what is asked of one file *)
Record part := mkPart { pt_path : list Z; pt_start : Z; pt_end : Z }.
Record job := mkJob { j_time : Z; j_parts : list part }.
(** 5614-5688 for the point [x] of the index [i], the sources of the bit rate being [paths]; the end
    is get_end_original_time 5625.  None: an exception, or outside of the index. *)
Definition job_at (i : index) (paths : zmap (list Z)) (x : Z * Z) : option job :=
  match index_end i (fst x) with
  | Value e =>
    if snd x =? CROSS_POINT_TIME then
      match Points_model.get (fst x) (i_cross i) with
      | Some c => match get_path paths (fst x), get_path paths (c_time2 c) with
        | Some p, Some q => Some (mkJob (u64 (fst x)) [mkPart p (u64 (c_orig c)) (u64 (c_orig c + c_time2 c - c_time c)); mkPart q (u64 (c_orig2 c)) (u64 e)])
        | _, _ => None
        end
      | None => None
      end
    else match get_path paths (fst x) with Some p => Some (mkJob (u64 (fst x)) [mkPart p (u64 (snd x)) (u64 e)]) | None => None end
  | _ => None
  end.
(** 5611-5621: every point but the last *)
Definition jobs (i : index) (paths : zmap (list Z)) : option (list job) := all_some (map (job_at i paths) (removelast (i_points i))).

(** a file as the reader presents it: its tracks and the end of the media data *)
Record movie := mkMovie { v_tracks : list trk; v_end : Z }.
(** add_frames_to_m4f for one part: every round of its loop but the last takes a sample *)
Definition part_frames (lib : list Z -> option movie) (id : nat) (base : Z) (p : part) : option (list sample * Z) :=
  match lib (pt_path p) with Some v => add_frames (S (total (v_tracks v))) (v_tracks v) (v_end v) id (pt_start p) (pt_end p) base | None => None end.
(** produce_m4f_chunk 796-849, produce_m4f_chunk_cross 890-961: the parts go into one fragment, whose
    base time is set with its first sample (668) *)
Fixpoint parts_frames (lib : list Z -> option movie) (id : nat) (base : Z) (ps : list part) : option (list sample * Z) :=
  match ps with
  | [] => Some ([], U64MAX)
  | p :: ps => match part_frames lib id base p, parts_frames lib id base ps with
    | Some (l, b), Some (l2, b2) => Some (l ++ l2, if b =? U64MAX then b2 else b)
    | _, _ => None
    end
  end.
(** a segment written: its time, its samples, its base time *)
Definition segment (lib : list Z -> option movie) (id : nat) (j : job) : option (Z * list sample * Z) :=
  match parts_frames lib id (j_time j) (j_parts j) with Some (l, b) => Some (j_time j, l, b) | None => None end.
Definition segments (lib : list Z -> option movie) (id : nat) (i : index) (paths : zmap (list Z)) : option (list (Z * list sample * Z)) :=
  match jobs i paths with Some js => all_some (map (segment lib id) js) | None => None end.

(** * Specification vocabulary *)
Definition seg_time (s : Z * list sample * Z) : Z := fst (fst s).
Definition seg_samples (s : Z * list sample * Z) : list sample := snd (fst s).
Definition seg_base (s : Z * list sample * Z) : Z := snd s.
(** a file whose stream [id] can be cut at any time: an audio track of regular tables *)
Definition cuttable (v : movie) (id : nat) (k : trk) : Prop :=
  sound (v_tracks v) /\ whole (v_tracks v) (v_end v) /\ nth_error (v_tracks v) id = Some k /\ (exists rs, timed rs k) /\ steady k /\ offsets_ok k.
(** the samples presented from a time on and before another *)
Definition between (k : trk) (a b : Z) : list sample := filter (fun x => (a <=? presented k x) && (presented k x <? b)) (samples_of k).
(** points of one file: in order in the presentation and in the file *)
Fixpoint ordered (l : list (Z * Z)) : Prop := match l with a :: ((b :: _) as r) => fst a < fst b /\ snd a <= snd b /\ ordered r | _ => True end.
(** one file after the other, each with the points published from it and its track; the computed
    times of a file's points are from where the file starts on and before it ends *)
Record clip := mkClip { c_path : list Z; c_stop : Z; c_points : list (Z * Z); c_track : trk }.
Fixpoint laid (start : Z) (cs : list clip) : Prop :=
  match cs with
  | [] => True
  | c :: r => c_points c <> [] /\ Forall (fun x => start <= fst x < c_stop c /\ 0 <= snd x < 2 ^ 61) (c_points c) /\ ordered (c_points c) /\ c_stop c < 2 ^ 61 /\ laid (c_stop c) r
  end.
(** where in its file a clip stops being used: the last segment lasts until the next clip's first
    point, the last clip is used up to [composition] *)
Definition used_until (c : clip) (r : list clip) (composition : Z) : Z :=
  match r with [] => composition | c' :: _ => snd (List.last (c_points c) (0, 0)) + (fst (hd (0, 0) (c_points c')) - fst (List.last (c_points c) (0, 0))) end.
(** everything used: of every clip the samples presented from its first point on *)
Fixpoint used (cs : list clip) (composition : Z) : list sample :=
  match cs with [] => [] | c :: r => between (c_track c) (snd (hd (0, 0) (c_points c))) (used_until c r composition) ++ used r composition end.
(** the original time of the last point *)
Fixpoint last_orig (cs : list clip) : Z := match cs with [] => 0 | [c] => snd (List.last (c_points c) (0, 0)) | _ :: r => last_orig r end.
(** the clip is what a group of files gives at a bit rate *)
Definition taken (audio : bool) (rate : Z) (g : group) (c : clip) : Prop :=
  g_points g = map (fun x => Add (fst x) (snd x)) (c_points c) /\ g_end g = c_stop c /\ exists it, file_of audio rate (g_items g) = Some it /\ it_path it = c_path c.
