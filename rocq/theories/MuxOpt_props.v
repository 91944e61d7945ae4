(** C89: the calls made on the editor for a command line. *)
From Coq Require Import String.
From Verif Require Import Util Str_model Str_proofs CmdLine_model CmdLine_proofs MuxOpt_model MuxOpt_proofs.
From Coq Require Import List.
Import ListNotations.
Local Open Scope Z_scope.

(** Each option has, in order, the values given to it: one more for each time it is on the command line. *)
Theorem C89_values : forall l m, Forall (acceptable m) l ->
  exists ok m', process (map text l) m = Some (ok, m') /\ forall n, vals n m' = vals n m ++ flat_map (gives (switch m) n) l.
Proof. exact words_process. Qed.

Definition a_line : list word :=
  [Said (Colon false (str "kind") (str "mp4mux")); Said (Colon false (str "input") (str "a.mp4")); Said (Colon false (str "starttime") (str "0")); Said (Colon true (str "endtime") (str "-1"));
   Said (Equal true (str "input") (str "b.mp4")); Said (Colon false (str "starttime") (str "10000000")); Said (Colon false (str "endtime") (str "+25000000"));
   Said (Colon false (str "output") (str "o.mp4")); Said (Equal false (str "aacfix") (str "yes")); Said (Pos (str "extra")); Said (Colon false (str "aacfix") (str "no")); Bare false (str "validate"); Bare true (str "ctts")].
Lemma acceptable_a_line : Forall (acceptable mgcli_options) a_line.
Proof.
  unfold a_line. repeat (apply Forall_cons || apply Forall_nil); cbn [acceptable]; repeat match goal with |- _ /\ _ => split end.
  all: first [ solve [repeat (apply Forall_cons || apply Forall_nil); discriminate] | solve [intros r; discriminate] | solve [intros _ r; discriminate] | solve [right; discriminate]
    | solve [intros X; vm_compute in X; repeat destruct X as [X|X]; try discriminate; exact X] | idtac ].
Qed.
Definition given_line : commands := Eval vm_compute in match process (map text a_line) mgcli_options with Some (_, m) => m | None => [] end.
Example C89_values_nonvacuous : Forall (acceptable mgcli_options) a_line /\ process (map text a_line) mgcli_options = Some (true, given_line) /\
  vals (str "input") given_line = [str "a.mp4"; str "b.mp4"] /\ vals (str "aacfix") given_line = [str "yes"; str "no"] /\ vals (str "validate") given_line = [str "T"] /\ vals (str "ctts") given_line = [[]].
Proof. split; [exact acceptable_a_line|]. repeat split; vm_compute; reflexivity. Qed.

(** With as many start and end times as inputs, an output, and numbers where numbers are due, the muxer makes the
    settings asked for, starts the output, adds each input once, in order, with its own start and end, and ends; a
    negative time is taken modulo 2^64. *)
Theorem C89_clips : forall m out ss es, readable m ->
  length (vals (str "input") m) = length (vals (str "starttime") m) -> length (vals (str "input") m) = length (vals (str "endtime") m) ->
  Forall2 is64 (vals (str "starttime") m) ss -> Forall2 is64 (vals (str "endtime") m) es -> first_value (str "output") m out ->
  exists setts, mp4_mux m = Code 0 (setts ++ Start out :: clips (vals (str "input") m) ss es ++ [End]) /\ sets m setts.
Proof. exact mux_calls. Qed.
Example C89_clips_nonvacuous : readable given_line /\ Forall2 is64 (vals (str "starttime") given_line) [0; 10000000] /\ Forall2 is64 (vals (str "endtime") given_line) [-1; 25000000] /\ first_value (str "output") given_line (str "o.mp4") /\
  mp4_mux given_line = Code 0 [AacFix true; CttsOffset false; Start (str "o.mp4"); Clip (str "a.mp4") 0 (2 ^ 64 - 1); Clip (str "b.mp4") 10000000 25000000; End].
Proof.
  assert (N : forall n, vals n given_line = [] -> forall t, ~ first_value n given_line t) by (intros n E t (r & X); rewrite E in X; discriminate).
  split. { repeat split; intros t T; exfalso; revert T; apply N; vm_compute; reflexivity. }
  assert (D : forall ds v, ds <> [] -> forallb (fun c => (48 <=? c) && (c <=? 57)) ds = true -> v = fold_left (fun v c => v * 10 + (c - 48)) ds 0 -> numeral ds v).
  { intros ds v A B C. split; [exact A|]. split; [|exact C]. apply Forall_forall. intros c I. pose proof (proj1 (forallb_forall _ _) B c I) as Q. cbv beta in Q. apply andb_prop in Q as [Q1 Q2]. apply Z.leb_le in Q1, Q2. split; assumption. }
  split. { apply Forall2_cons; [|apply Forall2_cons; [|apply Forall2_nil]]; (split; [left; eexists; split; [reflexivity|apply D; [discriminate|reflexivity|reflexivity]]|split; [vm_compute; discriminate|reflexivity]]). }
  split. { apply Forall2_cons; [|apply Forall2_cons; [|apply Forall2_nil]].
    - split; [right; left; exists [49], 1; split; [reflexivity|split; [apply D; [discriminate|reflexivity|reflexivity]|reflexivity]]|split; [vm_compute; discriminate|reflexivity]].
    - split; [right; right; exists (str "25000000"); split; [reflexivity|apply D; [discriminate|reflexivity|reflexivity]]|split; [vm_compute; discriminate|reflexivity]]. }
  split. { exists []. vm_compute. reflexivity. }
  vm_compute. reflexivity.
Qed.

(** The same for the transport stream muxer, whose only setting is a number. *)
Theorem C89_ts_clips : forall m out ss es, (forall t, first_value (str "ctts") m t -> exists z, is64 t z) ->
  length (vals (str "input") m) = length (vals (str "starttime") m) -> length (vals (str "input") m) = length (vals (str "endtime") m) ->
  Forall2 is64 (vals (str "starttime") m) ss -> Forall2 is64 (vals (str "endtime") m) es -> first_value (str "output") m out ->
  exists setts, ts_mux m = Code 0 (setts ++ Start out :: clips (vals (str "input") m) ss es ++ [End])
    /\ forall a, In a setts <-> exists t z b, first_value (str "ctts") m t /\ is64 t z /\ (b = false <-> z = 0) /\ a = CttsOffset b.
Proof. exact ts_calls. Qed.
Definition of (l : list word) : commands := match process (map text l) mgcli_options with Some (_, m) => m | None => [] end.
Definition one_clip : list word := [Said (Colon false (str "input") (str "a")); Said (Colon false (str "starttime") (str "0")); Said (Colon false (str "endtime") (str "7")); Said (Colon false (str "output") (str "o"))].
Example C89_ts_clips_nonvacuous : ts_mux (of (one_clip ++ [Said (Colon false (str "ctts") (str "1"))])) = Code 0 [CttsOffset true; Start (str "o"); Clip (str "a") 0 7; End].
Proof. vm_compute. reflexivity. Qed.

(** An input without its start or end, or one of these too many: nothing is called. *)
Theorem C89_refused : forall m, length (vals (str "input") m) <> length (vals (str "starttime") m) \/ length (vals (str "input") m) <> length (vals (str "endtime") m) ->
  mp4_mux m = Code 2020 [] /\ ts_mux m = Code 2020 [].
Proof. exact refused. Qed.
Example C89_refused_nonvacuous : length (vals (str "input") (of [Said (Colon false (str "input") (str "a"))])) <> length (vals (str "starttime") (of [Said (Colon false (str "input") (str "a"))])).
Proof. vm_compute. discriminate. Qed.
(** The transport stream muxer refuses to go on without an output. *)
Theorem C89_ts_output : forall m, length (vals (str "input") m) = length (vals (str "starttime") m) -> length (vals (str "input") m) = length (vals (str "endtime") m) -> vals (str "output") m = [] -> ts_mux m = Code 2021 [].
Proof. exact ts_no_output. Qed.
Example C89_ts_output_nonvacuous : vals (str "output") (of (firstn 3 one_clip)) = [] /\ length (vals (str "input") (of (firstn 3 one_clip))) = 1%nat.
Proof. split; vm_compute; reflexivity. Qed.

(** A switch is on for 1, true, yes, TRUE and True, and off for anything else. *)
Theorem C89_switch : forall t, bool_of t = true <-> In t yes.
Proof. exact bool_yes. Qed.
Example C89_switch_nonvacuous : bool_of (str "yes") = true /\ bool_of (str "Yes") = false.
Proof. split; reflexivity. Qed.
(** A text without a digit ends the program with an exception. *)
Theorem C89_no_number : forall t, (forall c, In c t -> ~ 48 <= c <= 57) -> int64_of t = Throws /\ uint64_of t = Throws.
Proof. exact no_digit. Qed.
Example C89_no_number_nonvacuous : forall c, In c (str "start") -> ~ 48 <= c <= 57.
Proof. intros c I. cbn in I. repeat destruct I as [<-|I]; try (intros [A B]; apply B; reflexivity). destruct I. Qed.

(** mgcli knows these options, validate alone being a switch, and these letters stand for them. *)
Theorem C89_declared : forall n, (registered n mgcli_options <-> In n [str "input"; str "kind"; str "position"; str "xml"; str "handler"; str "size"; str "output"; str "starttime"; str "endtime"; str "stream"; str "test"; str "help"; str "-help"; str "segment"; str "bitrate"; str "path"; str "audiotimescale"; str "videotimescale"; str "validate"])
  /\ (switch mgcli_options n = true <-> n = str "validate").
Proof. exact declared_ones. Qed.
Example C89_declared_nonvacuous : registered (str "kind") mgcli_options /\ ~ registered (str "ctts") mgcli_options.
Proof. split; [vm_compute; discriminate|intros H; apply H; vm_compute; reflexivity]. Qed.
Theorem C89_letters : forall v c n, nonul v -> In ([c], n) [(str "i", str "input"); (str "k", str "kind"); (str "p", str "position"); (str "x", str "xml"); (str "h", str "handler"); (str "z", str "size"); (str "o", str "output"); (str "s", str "starttime"); (str "e", str "endtime"); (str "t", str "test"); (str "b", str "bitrate"); (str "j", str "path"); (str "v", str "validate")] ->
  exists m, process [str "-" ++ [c] ++ str ":" ++ v] mgcli_options = Some (true, m) /\ vals n m = [v].
Proof. exact letters. Qed.
Example C89_letters_nonvacuous : exists m, process [str "-k:mp4mux"] mgcli_options = Some (true, m) /\ vals (str "kind") m = [str "mp4mux"].
Proof. eexists. split; vm_compute; reflexivity. Qed.

(** Refuted for the file muxer: without an output the first of no values is read. *)
Theorem C89_no_output_refuted : ~ (forall m, length (vals (str "input") m) = length (vals (str "starttime") m) -> length (vals (str "input") m) = length (vals (str "endtime") m) -> vals (str "output") m = [] -> exists n l, mp4_mux m = Code n l).
Proof.
  intros H. destruct (H (of (firstn 3 one_clip))) as (n & l & E); [vm_compute; reflexivity..|].
  replace (mp4_mux (of (firstn 3 one_clip))) with (Unspecified []) in E by (vm_compute; reflexivity). discriminate.
Qed.
(** Refuted: the time scale asked for the video is set for it.  It replaces that of the audio. *)
Theorem C89_video_scale_refuted : ~ (forall m l z t, mp4_mux m = Code 0 l -> first_value (str "videotimescale") m t -> number t z -> In (VideoTimeScale z) l) /\
  mp4_mux (of (one_clip ++ [Said (Colon false (str "audiotimescale") (str "44100")); Said (Colon false (str "videotimescale") (str "90000"))])) = Code 0 [AudioTimeScale 44100; AudioTimeScale 90000; Start (str "o"); Clip (str "a") 0 7; End].
Proof.
  split; [|vm_compute; reflexivity]. intros H.
  assert (X : mp4_mux (of (one_clip ++ [Said (Colon false (str "videotimescale") (str "9"))])) = Code 0 [AudioTimeScale 9; Start (str "o"); Clip (str "a") 0 7; End]) by (vm_compute; reflexivity).
  specialize (H _ _ 9 (str "9") X).
  assert (Y : In (VideoTimeScale 9) [AudioTimeScale 9; Start (str "o"); Clip (str "a") 0 7; End]).
  { apply H. - exists []. vm_compute. reflexivity. - left. exists (str "9"). split; [reflexivity|]. split; [discriminate|]. split; [|reflexivity]. apply Forall_cons; [split; discriminate|apply Forall_nil]. }
  destruct Y as [Y|[Y|[Y|[Y|[]]]]]; discriminate.
Qed.
(** Refuted: a switch given by its name alone is on.  It is off: an option not declared as a switch has the empty
    value, and the T of one which is isn't among the words for yes. *)
Theorem C89_bare_refuted : bool_of [] = false /\ bool_of (str "T") = false /\
  mp4_mux (of (one_clip ++ [Bare false (str "aacfix")])) = Code 0 [AacFix false; Start (str "o"); Clip (str "a") 0 7; End].
Proof. repeat split; vm_compute; reflexivity. Qed.
(** Refuted: the composition offsets are asked for with the same words in both muxers.  What switches them on for one
    ends the other with an exception, or leaves them off. *)
Theorem C89_ctts_refuted :
  mp4_mux (of (one_clip ++ [Said (Colon false (str "ctts") (str "true"))])) = Code 0 [CttsOffset true; Start (str "o"); Clip (str "a") 0 7; End] /\
  ts_mux (of (one_clip ++ [Said (Colon false (str "ctts") (str "true"))])) = Thrown [] /\
  mp4_mux (of (one_clip ++ [Said (Colon false (str "ctts") (str "2"))])) = Code 0 [CttsOffset false; Start (str "o"); Clip (str "a") 0 7; End] /\
  ts_mux (of (one_clip ++ [Said (Colon false (str "ctts") (str "2"))])) = Code 0 [CttsOffset true; Start (str "o"); Clip (str "a") 0 7; End].
Proof. repeat split; vm_compute; reflexivity. Qed.
(** Refuted: nothing is begun for a command line which can't be carried out.  The output is started, and the clips
    before the time which isn't a number are added, and it isn't ended. *)
Theorem C89_bad_time_refuted :
  mp4_mux (of (one_clip ++ [Said (Colon false (str "input") (str "b")); Said (Colon false (str "starttime") (str "x")); Said (Colon false (str "endtime") (str "9"))])) = Thrown [Start (str "o"); Clip (str "a") 0 7].
Proof. vm_compute. reflexivity. Qed.
(** Refuted: what isn't a number is refused.  What follows the digits is not looked at: 1:30 and 1.5 are 1. *)
Theorem C89_garbage_refuted : int64_of (str "1:30") = Got 1 /\ int64_of (str "1.5") = Got 1 /\ int64_of (str "12abc") = Got 12 /\ uint64_of (str "-1") = Got (2 ^ 64 - 1) /\ (forall z, ~ number (str "12abc") z).
Proof.
  do 4 (split; [vm_compute; reflexivity|]). intros z [(ds & <- & _ & F & _)|[(ds & v & E & _)|(ds & E & _)]]; try discriminate.
  do 2 apply Forall_inv_tail in F. apply Forall_inv in F. destruct F as [_ F]. apply F. reflexivity.
Qed.
(** Refuted: -h asks for the help.  The one letter stands for the first declared, in the order of the names, of the
    two options which have it: the handler. *)
Theorem C89_help_refuted : command_specified (str "help") 0 (of [Bare false (str "h")]) = false /\ vals (str "handler") (of [Bare false (str "h")]) = [[]].
Proof. split; vm_compute; reflexivity. Qed.
(** Refuted: the name of an option not declared doesn't bear on what others are.  After one, -0 is one more value of
    it. *)
Theorem C89_zero_refuted : vals (str "foo") (of [Said (Colon false (str "foo") (str "1")); Said (Colon false (str "0") (str "2"))]) = [str "1"; str "2"] /\
  vals (str "0") (of [Said (Colon false (str "0") (str "2")); Said (Colon false (str "foo") (str "1"))]) = [str "2"].
Proof. split; vm_compute; reflexivity. Qed.

Print Assumptions C89_values. Print Assumptions C89_clips. Print Assumptions C89_ts_clips. Print Assumptions C89_refused. Print Assumptions C89_ts_output. Print Assumptions C89_switch. Print Assumptions C89_no_number. Print Assumptions C89_declared. Print Assumptions C89_letters.
Print Assumptions C89_no_output_refuted. Print Assumptions C89_video_scale_refuted. Print Assumptions C89_bare_refuted. Print Assumptions C89_ctts_refuted. Print Assumptions C89_bad_time_refuted. Print Assumptions C89_garbage_refuted. Print Assumptions C89_help_refuted. Print Assumptions C89_zero_refuted.
