(** Model of do_moof_mux (/repo/src/mgcli/mp4info.cpp 3903-4165): files of fragments, given with
    the options S1, S2, S3, become one mp4 file.  What is modelled is the sequence of calls on the
    writer (MP4Mux, modelled with MP4Write in Movie_model and MuxQueue_model).  Reading the
    fragments of a file, lines 4053-4155, is read_file of Frag_model; the sample descriptions that
    MP4Reader finds in the first file of an option are given.  The option key is the decryption
    argument; reading it from its text is C14's. *)
From Verif Require Import Util SampleTab_model Box_model HlsCrypt_model Cenc_model Frag_model Double_model.
Local Open Scope Z_scope.

(** a stream MP4Reader finds in a file: IsVisual, IsSound, or neither; get_media_time_scale *)
Inductive kind := Visual | Sound | Neither.
(** what is given with one option: the streams found in the first file, and the bytes of the files,
    in order; an option not given has no file *)
Record group := mkG { g_streams : list (kind * Z); g_files : list (list Z) }.
(** a call of MP4Mux::add_sample: stream, sample with its times, sync point *)
Record call := mkC { c_stream : nat; c_sample : sample; c_sync : bool }.

(** 3942-3960: the options S1 to S3, up to the first which is not given *)
Fixpoint given (n : nat) (gs : list group) : list group :=
  match n, gs with
  | S n, g :: gs => match g_files g with [] => [] | _ :: _ => g :: given n gs end
  | _, _ => []
  end.
(** 3965-4033: astream and time_base, which are also the streams of the writer *)
Definition stream_found (k : kind * Z) : list (bool * Z) := match k with (Visual, tb) => [(false, tb)] | (Sound, tb) => [(true, tb)] | (Neither, _) => [] end.
Definition streams_found (gs : list group) : list (bool * Z) := flat_map (fun g => flat_map stream_found (g_streams g)) gs.

(** normalize_time 3801-3809: the argument is converted to unsigned, the result back to signed *)
Definition normalize_time (tb t : Z) : Z := s64 (u64 (dtrunc (dmul (ddiv (dbl 10000000) (dbl tb)) (dbl (u64 t))))).
(** 4107-4112 *)
Definition normal (tb t : Z) : Z := if tb =? 10000000 then t else normalize_time tb t.
(** 4094-4142: the calls for the samples of a fragment, [first] for s == 0 *)
Fixpoint add_samples (k : nat) (audio : bool) (tb : Z) (first : bool) (l : list sample) : list call :=
  match l with
  | [] => []
  | s :: l => mkC k (mkS (s_body s) (normal tb (s_comp s)) (normal tb (s_dec s)) (normal tb (s_dur s))) (first || audio) :: add_samples k audio tb false l
  end.
(** 4048-4158: file [i] of option [k]; None: reading fails, or astream[k] is not there *)
Definition file_calls (key : option (list Z -> list Z)) (ds : list (bool * Z)) (k : nat) (g : group) (i : nat) : option (list call) :=
  match nth_error (g_files g) i with
  | None => Some []
  | Some f => match read_file key f with
              | None => None
              | Some [] => Some []
              | Some frs => match nth_error ds k with Some (audio, tb) => Some (flat_map (add_samples k audio tb true) frs) | None => None end
              end
  end.
(** 4043: file [i] of all options *)
Fixpoint round (key : option (list Z -> list Z)) (ds : list (bool * Z)) (k : nat) (gs : list group) (i : nat) : option (list call) :=
  match gs with
  | [] => Some []
  | g :: gs => match file_calls key ds k g i, round key ds (S k) gs i with Some a, Some b => Some (a ++ b) | _, _ => None end
  end.
(** 4041: [n] rounds from file [i] on *)
Fixpoint rounds (key : option (list Z -> list Z)) (ds : list (bool * Z)) (gs : list group) (n i : nat) : option (list call) :=
  match n with
  | O => Some []
  | S n => match round key ds 0 gs i, rounds key ds gs n (S i) with Some a, Some b => Some (a ++ b) | _, _ => None end
  end.
(** do_moof_mux: count is the greatest number of files, 3953 *)
Definition moof_mux (key : option (list Z -> list Z)) (gs : list group) : option (list call) :=
  let gs := given 3 gs in rounds key (streams_found gs) gs (list_max (map (fun g => length (g_files g)) gs)) 0.

(** * Specification vocabulary *)
(** the calls for a stream *)
Definition for_stream (k : nat) (l : list call) : list call := filter (fun c => Nat.eqb (c_stream c) k) l.
(** true for the first of a list only *)
Definition first_only {A} (l : list A) : list bool := match l with [] => [] | _ :: l => true :: map (fun _ => false) l end.
(** one stream and one option: kind and time scale of the stream, first file without fragments,
    then fragments, in files *)
Record source := mkSrc { src_audio : bool; src_scale : Z; src_init : list Z; src_files : list (list fragment) }.
(** as options of the command: the files hold what was written *)
Definition option_of (scale : Z -> Z -> Z) (s : source) (g : group) : Prop :=
  g_streams g = [(if src_audio s then Sound else Visual, src_scale s)]
  /\ exists files, g_files g = src_init s :: files
     /\ Forall2 (fun frs f => exists w, write_fragments scale frs empty_file = Some w /\ f = w_file w /\ zlen f < 2 ^ 63) (src_files s) files.
(** the streams the samples of the files number [i] of the sources are for, the first source being
    stream [k]; file 0 is the one without fragments *)
Fixpoint turn (i k : nat) (srcs : list source) : list nat :=
  match srcs with
  | [] => []
  | s :: srcs => repeat k (length (concat (map snd (nth i ([] :: src_files s) [])))) ++ turn i (S k) srcs
  end.
(** a time in ticks of 1/[tb] seconds as units of 100 ns, rounded down, or one less if exact *)
Definition near (tb t n : Z) : Prop := tb * n <= 10000000 * t <= tb * (n + 1).
(** times the conversion is accurate for *)
Definition in_range (t : Z) : Prop := 0 <= t /\ 10000000 * t <= 2 ^ 51.
(** the types the reader of fragments knows of *)
Definition known : list Z := [MOOF; TRAF; TFHD; MFHD; TFDT; TRUN; MDAT; SAIO; SAIZ; SENC; TENC; uuid].
(** boxes of other types only *)
Definition no_fragment (f : list Z) : Prop := exists l, boxes f l /\ Forall (fun b => ~ In (fst b) known) l /\ zlen f < 2 ^ 60.
(** [key] is the one the fragments were encrypted with; they fit (see Frag_model) *)
Definition source_ok (scale : Z -> Z -> Z) (key : option (list Z -> list Z)) (s : source) : Prop := no_fragment (src_init s) /\ Forall (Forall (fragment_ok scale key)) (src_files s).
(** the sync flags: every sample of audio, the first sample of every fragment of video *)
Definition sync_of (s : source) : list bool := concat (map (fun fr => if src_audio s then map (fun _ => true) (snd fr) else first_only (snd fr)) (concat (src_files s))).
