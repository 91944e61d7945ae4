(** Property C82: files of fragments become one movie. *)
From Verif Require Import Util SampleTab_model Box_model HlsCrypt_model Cenc_model Frag_model Frag_proofs4 Frag_props Double_model Defrag_model Defrag_proofs.
Local Open Scope Z_scope.

(** One to three streams, each with a file that describes it and holds no fragment, followed by
    any number of files of fragments as the fragment writer writes them, clear or encrypted with
    the key given, time scale 10^7, no gaps inside a fragment, audio composed when decoded.  The
    command succeeds, and every stream of the movie is given exactly the samples of its fragments,
    in the order of the files and fragments, with the bytes and times they had; audio samples are
    all marked as sync points, of video the first sample of every fragment.  The streams take
    turns file by file. *)
Theorem C82_samples : forall scale key srcs gs, (length srcs <= 3)%nat -> Forall2 (option_of scale) srcs gs -> Forall (source_ok scale key) srcs ->
  Forall (fun s => src_scale s = 10000000 /\ Forall (fun '(st, base, l) => timescale st = 10000000 /\ continuous base l /\ (first_flags st <= 0 -> Forall (fun s => s_comp s = s_dec s) l)) (concat (src_files s))) srcs ->
  exists calls, moof_mux key gs = Some calls
    /\ (forall k s, nth_error srcs k = Some s -> map c_sample (for_stream k calls) = concat (map snd (concat (src_files s))) /\ map c_sync (for_stream k calls) = sync_of s)
    /\ exists n, (forall s, In s srcs -> (length (src_files s) < n)%nat) /\ map c_stream calls = concat (map (fun i => turn i 0 srcs) (seq 0 n)).
Proof.
  intros scale key srcs gs L F A X. destruct (mux_all scale key srcs gs L F A) as (calls & H1 & H2 & H3). exists calls. split; [exact H1|]. split; [|exact H2]. intros k s Hs. destruct (H3 k s Hs) as (S1 & S2). split; [|exact S1]. rewrite S2. destruct (proj1 (Forall_forall _ _) X s (nth_error_In _ _ Hs)) as (T1 & T2). rewrite T1. clear - T2.
  induction (concat (src_files s)) as [|[[st base] l] frs IH]; [reflexivity|]. cbn [map concat snd counted_fr]. rewrite map_app, IH by exact (Forall_inv_tail T2). f_equal. destruct (Forall_inv T2) as (U1 & U2 & U3). rewrite U1, (counted_exact scale l _ base U2).
  - clear. induction l as [|x l IH]; [reflexivity|]. cbn [map]. rewrite IH. destruct x. reflexivity.
  - intros V. apply U3. apply Z.ltb_ge. exact V.
Qed.
Print Assumptions C82_samples.
(** For any time scale: the times given to the movie are the times in the fragments (counted from
    the start of the fragment by the durations, as C41 says) converted to units of 100 ns, rounded
    down, or one less where the conversion is exact. *)
Theorem C82_times : forall scale key srcs gs, (length srcs <= 3)%nat -> Forall2 (option_of scale) srcs gs -> Forall (source_ok scale key) srcs ->
  exists calls, moof_mux key gs = Some calls /\ forall k s, nth_error srcs k = Some s -> 1 <= src_scale s <= 2 ^ 32 ->
    let inside := concat (map (fun '(st, base, l) => counted scale (timescale st) (0 <? first_flags st) base l) (concat (src_files s))) in
    Forall (fun x => in_range (s_comp x) /\ in_range (s_dec x) /\ in_range (s_dur x)) inside ->
    Forall2 (fun x y => s_body y = s_body x /\ near (src_scale s) (s_comp x) (s_comp y) /\ near (src_scale s) (s_dec x) (s_dec y) /\ near (src_scale s) (s_dur x) (s_dur y)) inside (map c_sample (for_stream k calls)).
Proof.
  intros scale key srcs gs L F A. destruct (mux_all scale key srcs gs L F A) as (calls & H1 & H2 & H3). exists calls. split; [exact H1|]. intros k s Hs T inside R. destruct (H3 k s Hs) as (_ & S2). rewrite S2. change (map (counted_fr scale) (concat (src_files s))) with (map (fun '(st, base, l) => counted scale (timescale st) (0 <? first_flags st) base l) (concat (src_files s))). fold inside. clear - R T. induction R as [|x l (R1 & R2 & R3) R IH]; [constructor|]. cbn [map]. constructor; [|exact IH]. cbn [conv s_body s_comp s_dec s_dur]. split; [reflexivity|]. split; [|split]; apply near_normal; assumption.
Qed.
Print Assumptions C82_times.
(** Whatever the files hold: if the command succeeds, every stream is given the bodies of all
    samples the reader finds in its files, in order, and of no other file. *)
Theorem C82_bodies : forall key gs calls, moof_mux key gs = Some calls -> forall k g, (k < 3)%nat -> (forall j, (j <= k)%nat -> exists gj, nth_error gs j = Some gj /\ g_files gj <> []) -> nth_error gs k = Some g ->
  exists frs, Forall2 (fun f fr => read_file key f = Some fr) (g_files g) frs /\ map (fun c => s_body (c_sample c)) (for_stream k calls) = map s_body (concat (concat frs)).
Proof. exact bodies_in_order. Qed.
Print Assumptions C82_bodies.
(** A file of boxes other than those of fragments gives no samples. *)
Theorem C82_description : forall key f, no_fragment f -> read_file key f = Some [].
Proof. exact init_file. Qed.
Print Assumptions C82_description.

(** a description file: ftyp, moov with a box inside *)
Definition ex_init : list Z := [0;0;0;16; 102;116;121;112; 105;115;111;109; 0;0;0;0;  0;0;0;24; 109;111;111;118; 0;0;0;16; 109;118;104;100; 1;2;3;4;5;6;7;8].
Lemma ex_init_ok : no_fragment ex_init.
Proof.
  exists [(BOX 102 116 121 112, [105;115;111;109;0;0;0;0]); (BOX 109 111 111 118, [0;0;0;16;109;118;104;100;1;2;3;4;5;6;7;8])]. split; [|split; [|reflexivity]].
  - exact (boxes_cons [0;0;0;16] [102;116;121;112] [105;115;111;109;0;0;0;0] _ _ eq_refl eq_refl eq_refl (boxes_cons [0;0;0;24] [109;111;111;118] [0;0;0;16;109;118;104;100;1;2;3;4;5;6;7;8] [] [] eq_refl eq_refl eq_refl boxes_nil)).
  - apply Forall_cons; [|apply Forall_cons; [|apply Forall_nil]]; vm_compute; intros H; repeat (destruct H as [H|H]; [discriminate|]); exact H.
Qed.
Definition file_of (frs : list fragment) : list Z := match write_fragments (fun _ t => t) frs empty_file with Some w => w_file w | None => [] end.
(** two streams: video in two files, and clear audio in one *)
Definition ex_v : source := mkSrc false 10000000 ex_init [[nth 0 ex_video (mkSet 0 0 0 0 None 0 0, 0, [])]; [nth 1 ex_video (mkSet 0 0 0 0 None 0 0, 0, [])]].
Definition ex_a : source := mkSrc true 10000000 ex_init [[(mkSet 2 7 0 10000000 None 99 98, 100, [mkS [7; 8] 100 100 10; mkS [9] 110 110 10])]].
Definition ex_gv : group := mkG [(Visual, 10000000)] (ex_init :: map file_of (src_files ex_v)).
Definition ex_ga : group := mkG [(Sound, 10000000)] (ex_init :: map file_of (src_files ex_a)).
Lemma ex_option : forall s, (forall frs, In frs (src_files s) -> exists w, write_fragments (fun _ t => t) frs empty_file = Some w /\ zlen (w_file w) < 2 ^ 63) ->
  option_of (fun _ t => t) s (mkG [(if src_audio s then Sound else Visual, src_scale s)] (src_init s :: map file_of (src_files s))).
Proof.
  intros s H. split; [reflexivity|]. exists (map file_of (src_files s)). split; [reflexivity|]. induction (src_files s) as [|frs l IH]; [constructor|]. cbn [map]. constructor.
  - destruct (H frs (or_introl eq_refl)) as (w & W1 & W2). exists w. split; [exact W1|]. unfold file_of. rewrite W1. split; [reflexivity|exact W2].
  - apply IH. intros x Hx. exact (H x (or_intror Hx)).
Qed.
Example C82_samples_nonvacuous : Forall2 (option_of (fun _ t => t)) [ex_v; ex_a] [ex_gv; ex_ga] /\ Forall (source_ok (fun _ t => t) None) [ex_v; ex_a]
  /\ Forall (fun s => src_scale s = 10000000 /\ Forall (fun '(st, base, l) => timescale st = 10000000 /\ continuous base l /\ (first_flags st <= 0 -> Forall (fun s => s_comp s = s_dec s) l)) (concat (src_files s))) [ex_v; ex_a]
  /\ exists calls, moof_mux None [ex_gv; ex_ga] = Some calls /\ map c_stream calls = [0; 0; 0; 1; 1; 0]%nat /\ map c_sync calls = [true; false; false; true; true; true]
     /\ map (fun c => s_body (c_sample c)) calls = [[1; 2; 3]; [4]; []; [7; 8]; [9]; [9; 9]].
Proof.
  split; [|split; [|split]].
  - constructor; [|constructor; [|constructor]]; apply ex_option; cbn [In src_files ex_v ex_a]; intros frs Hf; repeat (destruct Hf as [<-|Hf]; [eexists; split; [vm_compute; reflexivity|vm_compute; reflexivity]|]); destruct Hf.
  - destruct (C41_roundtrip_nonvacuous (fun _ t => t)) as (Fv & _). apply Forall_cons; [|apply Forall_cons; [|apply Forall_nil]]; (split; [exact ex_init_ok|]).
    + apply Forall_cons; [apply Forall_cons; [exact (Forall_inv Fv)|apply Forall_nil]|]. apply Forall_cons; [apply Forall_cons; [exact (Forall_inv (Forall_inv_tail Fv))|apply Forall_nil]|apply Forall_nil].
    + apply Forall_cons; [|apply Forall_nil]. apply Forall_cons; [|apply Forall_nil]. split; [exact Logic.I|]. split; [lia|]. split; [discriminate|]. split; [vm_compute; reflexivity|ex_times].
  - repeat (apply Forall_cons; [split; [reflexivity|]; cbn [concat app src_files ex_v ex_a nth ex_video]; repeat (apply Forall_cons; [split; [reflexivity|]; split; [cbn; repeat split|]; intros H; try (exfalso; revert H; vm_compute; congruence); repeat (apply Forall_cons; [reflexivity|]); apply Forall_nil|]); apply Forall_nil|]). apply Forall_nil.
  - eexists. split; [vm_compute; reflexivity|]. split; [reflexivity|]. split; reflexivity.
Qed.
(** ticks of 1/90000 seconds *)
Definition ex_t : source := mkSrc false 90000 ex_init [[(mkSet 1 7 1 90000 None 99 98, 900, [mkS [1; 2; 3] 1800000 1000000 400000; mkS [4] 2200000 1400000 400000])]].
Definition ex_scale (ts t : Z) : Z := (t * ts) / 10000000.
Example C82_times_nonvacuous : exists w, write_fragments ex_scale (hd [] (src_files ex_t)) empty_file = Some w /\ let g := mkG [(Visual, 90000)] [ex_init; w_file w] in
  option_of ex_scale ex_t g /\ source_ok ex_scale None ex_t /\ exists calls, moof_mux None [g] = Some calls /\ map c_sample calls = [mkS [1; 2; 3] 900000 100000 400000; mkS [4] 1300000 500000 400000]
  /\ Forall (fun x => in_range (s_comp x) /\ in_range (s_dec x) /\ in_range (s_dur x)) [mkS [1; 2; 3] 8100 900 3600; mkS [4] 11700 4500 3600].
Proof.
  eexists. split; [vm_compute; reflexivity|]. cbv zeta. split; [|split].
  - split; [reflexivity|]. eexists. split; [reflexivity|]. constructor; [|constructor]. eexists. split; [vm_compute; reflexivity|]. split; [reflexivity|vm_compute; reflexivity].
  - split; [exact ex_init_ok|]. apply Forall_cons; [|apply Forall_nil]. apply Forall_cons; [|apply Forall_nil]. split; [exact Logic.I|]. split; [lia|]. split; [discriminate|]. split; [vm_compute; reflexivity|ex_times].
  - eexists. split; [vm_compute; reflexivity|]. split; [reflexivity|]. unfold in_range. apply Forall_cons; [cbn [s_comp s_dec s_dur]; lia|]. apply Forall_cons; [cbn [s_comp s_dec s_dur]; lia|]. apply Forall_nil.
Qed.
(** Findings.  Conversion in doubles: 53 seconds in ticks of 1/30000 s come out one unit short. *)
Theorem C82_seconds_refuted : exists tb seconds, tb = 30000 /\ normal tb (seconds * tb) <> seconds * 10000000 /\ normal tb (seconds * tb) = 529999999 /\ seconds = 53.
Proof. exists 30000, 53. split; [reflexivity|]. split; [vm_compute; discriminate|]. split; [vm_compute; reflexivity|reflexivity]. Qed.
Print Assumptions C82_seconds_refuted.
(** With a description file that has two streams, the samples given with the second option go to
    the second stream of the first file, as video. *)
Theorem C82_two_streams_refuted : exists gs g calls, gs = [mkG [(Visual, 10000000); (Visual, 90000)] (g_files ex_gv); ex_ga] /\ nth_error gs 1 = Some g /\ g_streams g = [(Sound, 10000000)] /\ moof_mux None gs = Some calls
  /\ map (fun c => s_dec (c_sample c)) (for_stream 1 calls) = [11111; 12222] /\ map c_sync (for_stream 1 calls) = [true; false].
Proof. eexists. exists ex_ga. eexists. split; [reflexivity|]. split; [reflexivity|]. split; [reflexivity|]. split; [vm_compute; reflexivity|]. split; reflexivity. Qed.
Print Assumptions C82_two_streams_refuted.
(** A fourth stream is left out without a word, and so is what follows an option not given. *)
Theorem C82_fourth_refuted : forall key a b c rest, moof_mux key (a :: b :: c :: rest) = moof_mux key [a; b; c] /\ (g_files b = [] -> moof_mux key (a :: b :: c :: rest) = moof_mux key [a]).
Proof.
  intros key a b c rest. split; [reflexivity|]. intros E. assert (H : given 3 (a :: b :: c :: rest) = given 3 [a]). { cbn [given]. rewrite E. destruct (g_files a); reflexivity. } unfold moof_mux. rewrite H. reflexivity.
Qed.
Print Assumptions C82_fourth_refuted.
(** The flags of samples in the fragments are not looked at: a fragment whose first sample is
    flagged as depending on others and not a sync point (0x1010000) gives a sync point, as one
    flagged as key frame (0x2000000) does. *)
Theorem C82_key_frames_refuted : exists fr fr', fst (fst fr) = mkSet 1 7 16842752 10000000 None 99 98 /\ fst (fst fr') = mkSet 1 7 33554432 10000000 None 99 98
  /\ fragment_ok (fun _ t => t) None fr /\ fragment_ok (fun _ t => t) None fr' /\ file_of [fr] <> file_of [fr']
  /\ exists calls, moof_mux None [mkG [(Visual, 10000000)] [ex_init; file_of [fr]]] = Some calls /\ moof_mux None [mkG [(Visual, 10000000)] [ex_init; file_of [fr']]] = Some calls /\ map c_sync calls = [true; false].
Proof.
  exists (mkSet 1 7 16842752 10000000 None 99 98, 0, [mkS [1; 2; 3] 0 0 400000; mkS [4] 400000 400000 400000]), (mkSet 1 7 33554432 10000000 None 99 98, 0, [mkS [1; 2; 3] 0 0 400000; mkS [4] 400000 400000 400000]).
  split; [reflexivity|]. split; [reflexivity|]. split; [split; [exact Logic.I|]; split; [lia|]; split; [discriminate|]; split; [vm_compute; reflexivity|ex_times]|]. split; [split; [exact Logic.I|]; split; [lia|]; split; [discriminate|]; split; [vm_compute; reflexivity|ex_times]|].
  split; [vm_compute; discriminate|]. eexists. split; [vm_compute; reflexivity|]. split; [vm_compute; reflexivity|]. reflexivity.
Qed.
Print Assumptions C82_key_frames_refuted.
