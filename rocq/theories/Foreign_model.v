(** Fragments that other programs write, as ISO/IEC 14496-12 (8.8.4 to 8.8.12) lays them out; the
    model of the reader, MOOFReader.h 62-305 and do_moof_mux 4053-4155 of
    /repo/src/mgcli/mp4info.cpp, is read_file of Frag_model.  This file holds only the
    specification: what bytes such a fragment may have. *)
From Verif Require Import Util SampleTab_model Box_model HlsCrypt_model Cenc_model Frag_model Defrag_model.
Local Open Scope Z_scope.

(** * Specification vocabulary *)
(** a box: size, four letters, content *)
Definition a_box (letters content : list Z) : list Z := be 4 (8 + zlen content) ++ letters ++ content.
Definition other_boxes (l : list (Z * list Z)) : list Z := concat (map (fun '(t, content) => a_box (be 4 t) content) l).
(** of types the reader knows nothing of *)
Definition others_ok (l : list (Z * list Z)) : Prop := Forall (fun b => 0 <= fst b < 2 ^ 32 /\ ~ In (fst b) known /\ 8 + zlen (snd b) < 2 ^ 32) l.
(** an optional field of [n] bytes *)
Definition opt (n : nat) (o : option Z) : list Z := match o with Some v => be n v | None => [] end.
(** a bit of the flags: set if the field is there *)
Definition bit (b : bool) (k : Z) : Z := if b then 2 ^ k else 0.
Definition there (o : option Z) : bool := match o with Some _ => true | None => false end.
(** TrackFragmentHeaderBox: base_data_offset (if there, the position of the moof), sample
    description index, default duration, size and flags; [h_more]: bits 16 to 23 of the flags *)
Record header := mkH { h_base : bool; h_desc : option Z; h_dur : option Z; h_size : option Z; h_flags : option Z; h_more : Z }.
(** TrackRunBox: version, data_offset there, first_sample_flags, and which fields each sample has *)
Record run := mkU { u_version : Z; u_offset : bool; u_first : option Z; u_dur : bool; u_size : bool; u_flags : bool; u_cts : bool; u_more : Z }.
Record xsample := mkX { x_body : list Z; x_dur : Z; x_flags : Z; x_cts : Z }.
(** a fragment: boxes before it, sequence number, track, header, version of the tfdt, decoding time
    of the first sample, boxes between tfdt and trun, run, boxes after it, samples *)
Record foreign := mkFo { o_before : list (Z * list Z); o_seq : Z; o_track : Z; o_head : header; o_tfdt : Z; o_base : Z; o_inside : list (Z * list Z); o_run : run; o_after : list (Z * list Z); o_samples : list xsample }.
Definition mfhd_of (x : foreign) : list Z := a_box [109; 102; 104; 100] (be 4 0 ++ be 4 (o_seq x)).
Definition tfhd_of (x : foreign) (position : Z) : list Z :=
  let h := o_head x in
  a_box [116; 102; 104; 100] (be 1 0
    ++ be 3 (bit (h_base h) 0 + bit (there (h_desc h)) 1 + bit (there (h_dur h)) 3 + bit (there (h_size h)) 4 + bit (there (h_flags h)) 5 + 65536 * h_more h)
    ++ be 4 (o_track x) ++ (if h_base h then be 8 position else []) ++ opt 4 (h_desc h) ++ opt 4 (h_dur h) ++ opt 4 (h_size h) ++ opt 4 (h_flags h)).
Definition tfdt_of (x : foreign) : list Z := a_box [116; 102; 100; 116] (be 1 (o_tfdt x) ++ be 3 0 ++ be (if o_tfdt x =? 1 then 8 else 4) (o_base x)).
Definition entry_of (u : run) (s : xsample) : list Z :=
  (if u_dur u then be 4 (x_dur s) else []) ++ (if u_size u then be 4 (zlen (x_body s)) else []) ++ (if u_flags u then be 4 (x_flags s) else []) ++ (if u_cts u then be 4 (x_cts s mod 2 ^ 32) else []).
Definition trun_of (x : foreign) (offset : Z) : list Z :=
  let u := o_run x in
  a_box [116; 114; 117; 110] (be 1 (u_version u)
    ++ be 3 (bit (u_offset u) 0 + bit (there (u_first u)) 2 + bit (u_dur u) 8 + bit (u_size u) 9 + bit (u_flags u) 10 + bit (u_cts u) 11 + 65536 * u_more u)
    ++ be 4 (zlen (o_samples x)) ++ (if u_offset u then be 4 offset else []) ++ opt 4 (u_first u) ++ concat (map (entry_of u) (o_samples x))).
Definition moof_of (x : foreign) (position offset : Z) : list Z :=
  a_box [109; 111; 111; 102] (mfhd_of x ++ a_box [116; 114; 97; 102] (tfhd_of x position ++ tfdt_of x ++ other_boxes (o_inside x) ++ trun_of x offset ++ other_boxes (o_after x))).
(** the bytes of a fragment at [start] of a file: the data offset counts from the moof to the
    content of the mdat *)
Definition laid_out (x : foreign) (start : Z) (bytes : list Z) : Prop :=
  exists moof, moof = moof_of x (start + zlen (other_boxes (o_before x))) (zlen moof + 8)
    /\ bytes = other_boxes (o_before x) ++ moof ++ a_box [109; 100; 97; 116] (concat (map x_body (o_samples x))).
(** a file: fragments, then other boxes (mfra) *)
Inductive foreign_file : Z -> list foreign -> list Z -> Prop :=
| foreign_end : forall start l, others_ok l -> foreign_file start [] (other_boxes l)
| foreign_next : forall start x l bytes rest, laid_out x start bytes -> foreign_file (start + zlen bytes) l rest -> foreign_file start (x :: l) (bytes ++ rest).
Definition word (o : option Z) : Prop := match o with Some v => 0 <= v < 2 ^ 32 | None => True end.
(** values fit their fields; what a sample has no field for is the default of the tfhd, and no
    offset for the composition time; the moof is less than 2 GB *)
Definition sample_fits (h : header) (u : run) (s : xsample) : Prop :=
  0 <= x_dur s < 2 ^ 31 /\ (u_dur u = false -> h_dur h = Some (x_dur s))
  /\ zlen (x_body s) < 2 ^ 32 /\ (u_size u = false -> h_size h = Some (zlen (x_body s)))
  /\ (if u_cts u then (if u_version u =? 1 then - 2 ^ 31 else 0) <= x_cts s < 2 ^ 31 else x_cts s = 0).
Definition fields_ok (x : foreign) : Prop :=
  word (h_desc (o_head x)) /\ word (h_dur (o_head x)) /\ word (h_size (o_head x)) /\ word (h_flags (o_head x)) /\ 0 <= h_more (o_head x) < 256
  /\ (o_tfdt x = 0 /\ 0 <= o_base x < 2 ^ 32 \/ o_tfdt x = 1 /\ 0 <= o_base x < 2 ^ 63)
  /\ 0 <= u_version (o_run x) <= 1 /\ word (u_first (o_run x)) /\ 0 <= u_more (o_run x) < 256
  /\ zlen (o_samples x) < 2 ^ 32 /\ zlen (moof_of x 0 0) < 2 ^ 31 - 8 /\ 8 + zlen (concat (map x_body (o_samples x))) < 2 ^ 32
  /\ Forall (sample_fits (o_head x) (o_run x)) (o_samples x).
Definition foreign_ok (x : foreign) : Prop := others_ok (o_before x) /\ others_ok (o_inside x) /\ others_ok (o_after x) /\ fields_ok x.
(** the samples with their times: each starts when the one before ends *)
Fixpoint timed (time : Z) (l : list xsample) : list sample :=
  match l with [] => [] | s :: l => mkS (x_body s) (time + x_cts s) time (x_dur s) :: timed (time + x_dur s) l end.
