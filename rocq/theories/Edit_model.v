(** Model of joining clips: /repo/src/mg/media/MediaJoin.h 27-104 and the time mapping of
    /repo/src/mg/media/mp4edit.cpp 172-782 (do_edit_mux).
    Simplified: times are unbounded integers (no 64-bit wrap); no LTC stream; every stream
    of the file is valid, so the index used for GetJoinTime (l. 520) is the index the
    stream was added with (l. 454-491); the compatibility checks (l. 190-302) are passed. *)
From Verif Require Import Util.
Local Open Scope Z_scope.

(** * MediaJoin.h *)
Record join := mkjoin { j_ends : list Z; j_starts : list Z; j_diffs : list Z; j_min : Z }.
Definition join0 : join := mkjoin [] [] [] 0.
Definition INT64_MAX := 2 ^ 63 - 1.
(** 57-64 *)
Definition max_end (ends : list Z) : Z := fold_left (fun m e => if m <? e then e else m) ends 0.
Definition min_start (starts : list Z) : Z := fold_left (fun m s => if s <? m then s else m) starts INT64_MAX.
(** 71-77 *)
Fixpoint diffs (me ms : Z) (ends starts : list Z) : list Z :=
  match ends, starts with e :: es, s :: ss => ((e - me) + (ms - s)) :: diffs me ms es ss | _, _ => [] end.
(** std::max_element (0 for an empty list, which is undefined in C++) *)
Definition max_elt (l : list Z) : Z := match l with [] => 0 | x :: r => fold_left Z.max r x end.
Definition compute (j : join) : join :=
  let d := j_diffs j ++ diffs (max_end (j_ends j)) (min_start (j_starts j)) (j_ends j) (j_starts j) in
  mkjoin (j_ends j) (j_starts j) d (max_elt d).
(** 86-91 *)
Definition get_join_time (j : join) (i : nat) : Z := nth i (j_ends j) 0 + (-1) * (nth i (j_diffs j) 0 - j_min j).
Definition join_times (ends starts : list Z) : nat -> Z := get_join_time (compute (mkjoin ends starts [] 0)).

(** * mp4edit.cpp *)
Record sample := mksample { s_stream : nat; s_comp : Z; s_dec : Z; s_dur : Z }.
(** what the reader tells about its streams: offset, random access points, composition
    times, default duration *)
Record file := mkfile { f_samples : list sample; f_offset : nat -> Z; f_rap : nat -> bool; f_has_comp : nat -> bool; f_default_dur : nat -> Z }.
Definition pres (f : file) (s : sample) : Z := s_comp s + f_offset f (s_stream s).
Record params := mkparams { p_start : Z; p_end : Z; p_discard : bool; p_look_head : Z }.

Definition upd {A} (m : nat -> A) (k : nat) (v : A) : nat -> A := fun x => if Nat.eqb x k then v else m x.
(** 304-397: the look ahead; [next] per stream (composition, decoding), None = INT64_MAX.
    [Thrown] = an exception. *)
Inductive scan_result := Thrown | Found (next : nat -> option (Z * Z)) (unread : list sample).
Definition discards (p : params) (f : file) (s : sample) : bool := (pres f s <? p_start p) && p_discard p.
Fixpoint unseen (n : nat) (next : nat -> option (Z * Z)) : bool :=
  match n with O => false | S k => match next k with None => true | Some _ => unseen k next end end.
Fixpoint look_ahead (p : params) (f : file) (streams : nat) (next : nat -> option (Z * Z)) (cur : Z) (l : list sample) : scan_result :=
  match l with
  | [] => Thrown
  | s :: r =>
    if discards p f s then (if f_rap f (s_stream s) then Thrown else look_ahead p f streams next cur r) else
    let better := match next (s_stream s) with None => true | Some (c, _) => pres f s <? c end in
    if better then look_ahead p f streams (upd next (s_stream s) (Some (pres f s, s_dec s))) 0 r else
    if unseen streams next || ((cur + 1 <? p_look_head p) && Nat.ltb 0 streams) then look_ahead p f streams next (cur + 1) r
    else Found next r
  end.

(** state kept between files, per stream: stream_composition, stream_duration, stream_decoding *)
Record track := mktrack { k_comp : Z; k_dur : Z; k_dec : Z }.
Record out := mkout { o_stream : nat; o_comp : Z; o_dec : Z; o_src : sample }.
(** 610-752: second pass.  [jc], [jd]: stream_composition and stream_decoding after the
    join; [active]: the streams still before [end]; [last]: last_composition, last_duration
    of the file and last_decoding, per stream. *)
Fixpoint any_active (n : nat) (active : nat -> bool) : bool := match n with O => false | S k => active k || any_active k active end.
Definition map_sample (f : file) (jc jd : nat -> Z) (next : nat -> option (Z * Z)) (s : sample) : out :=
  let '(nc, nd) := match next (s_stream s) with Some x => x | None => (INT64_MAX, 2 ^ 64 - 1) end in
  let c := jc (s_stream s) + (pres f s - nc) in
  let d := jd (s_stream s) + (s_dec s + f_offset f (s_stream s) - nd) in
  mkout (s_stream s) c (if f_has_comp f (s_stream s) then d else c) s.
Inductive edit_result (A : Type) := EThrown | Done (x : A). Arguments EThrown {A}. Arguments Done {A}.
Fixpoint copy_loop (p : params) (f : file) (streams : nat) (jc jd : nat -> Z) (next : nat -> option (Z * Z))
  (active : nat -> bool) (last : nat -> track) (l : list sample) : edit_result (list out * (nat -> track)) :=
  match l with
  | [] => Done ([], last)
  | s :: r =>
    let active := if 0 <? p_end p then upd active (s_stream s) (s_dec s <? p_end p) else active in
    let work := if 0 <? p_end p then any_active streams active else true in
    let go last := if work then copy_loop p f streams jc jd next active last r else Done ([], last) in
    if discards p f s then (if f_rap f (s_stream s) then EThrown else go last) else
    if (0 <? p_end p) && (p_end p <=? pres f s) then go last else
    let o := map_sample f jc jd next s in
    let dur := if s_dur s =? 0 then f_default_dur f (s_stream s) else s_dur s in
    let k := last (s_stream s) in
    let k' := if k_comp k <? o_comp o then mktrack (o_comp o) dur (o_dec o) else mktrack (k_comp k) (k_dur k) (o_dec o) in
    match go (upd last (s_stream s) k') with
    | EThrown => EThrown
    | Done (os, m) => Done (o :: os, m)
    end
  end.
(** 172-782 for one file.  [prev]: the tracks before it (all zero for the first file,
    l. 470-474); l. 756-781 keep stream_decoding as last_decoding, which is the previous
    file's when this one gave no sample. *)
Definition edit_file (p : params) (streams : nat) (prev : nat -> track) (f : file) : edit_result (list out * (nat -> track)) :=
  match look_ahead p f streams (fun _ => None) 0 (f_samples f) with
  | Thrown => EThrown
  | Found next _ =>
    let idx := seq 0 streams in
    let nc i := match next i with Some (c, _) => c | None => INT64_MAX end in
    let nd i := match next i with Some (_, d) => d | None => 2 ^ 64 - 1 end in
    let jc := join_times (map (fun i => k_comp (prev i) + k_dur (prev i)) idx) (map nc idx) in
    let jd := join_times (map (fun i => k_dec (prev i) + k_dur (prev i)) idx) (map nd idx) in
    copy_loop p f streams jc jd next (fun _ => true) (fun i => mktrack 0 0 (k_dec (prev i))) (f_samples f)
  end.
Definition track0 : nat -> track := fun _ => mktrack 0 0 0.
(** files one after the other, each with its own start and end *)
Fixpoint edit_all (streams : nat) (prev : nat -> track) (fs : list (params * file)) : edit_result (list (list out)) :=
  match fs with
  | [] => Done []
  | (p, f) :: r =>
    match edit_file p streams prev f with
    | EThrown => EThrown
    | Done (os, k) => match edit_all streams k r with EThrown => EThrown | Done l => Done (os :: l) end
    end
  end.

(** * Specification vocabulary *)
(** when a sample is presented *)
Definition shown (f : file) (s : sample) : Z := s_comp s + f_offset f (s_stream s).
(** not before the start, when samples before it are to be discarded *)
Definition from_start (p : params) (f : file) (s : sample) : bool := if p_discard p then p_start p <=? shown f s else true.
(** a sample of the range asked for *)
Definition kept (p : params) (f : file) (s : sample) : bool :=
  from_start p f s && ((p_end p <=? 0) || (shown f s <? p_end p)).
Definition dur_of (f : file) (s : sample) : Z := if s_dur s =? 0 then f_default_dur f (s_stream s) else s_dur s.
(** after the first [w] samples not discarded none is presented earlier than all those of its
    stream before it *)
Definition reorders_within (w : nat) (f : file) (l : list sample) : Prop :=
  forall l1 s l2 s', l = l1 ++ s :: l2 -> (w <= length l1)%nat -> In s' l1 -> s_stream s' = s_stream s ->
  exists s'', In s'' l1 /\ s_stream s'' = s_stream s /\ shown f s'' <= shown f s.
(** the samples of a stream come in decoding order, none presented before it is decoded *)
Definition in_decoding_order (f : file) (l : list sample) : Prop :=
  (forall l1 s l2 s', l = l1 ++ s :: l2 -> In s' l1 -> s_stream s' = s_stream s -> s_dec s' <= s_dec s)
  /\ Forall (fun s => s_dec s <= shown f s) l.
Definition of_stream (i : nat) (os : list out) (o : out) : Prop := In o os /\ o_stream o = i.
Definition streams_below (n : nat) (f : file) : Prop := Forall (fun s => (s_stream s < n)%nat) (f_samples f).
Definition not_discarded (p : params) (f : file) : list sample := filter (from_start p f) (f_samples f).
Definition well_ordered (p : params) (f : file) : Prop := reorders_within (Z.to_nat (p_look_head p)) f (not_discarded p f).
