(** C80: what the segments of a presentation made of several files hold. *)
From Coq Require Import String Sorted.
From Verif Require Import Util Dec_spec Str_model SampleTab_model Walk_model Cut_model Cut_proofs Cut_props Points_model Points_proofs Points_proofs2 Pres_model Smooth_model Smooth_proofs Fill_model Fill_proofs Fill_proofs2 Fill_proofs3 Content_model Content_proofs Content_proofs2.
Local Open Scope Z_scope.

(** Files one after the other, their audio published point by point: the segments written, one after
    the other, hold of every file exactly the samples presented from its first point on and before
    the time where its last segment ends, each once and in order; one segment for every point. *)
Theorem C80_groups : forall s gs cs s' stop composition y rp paths lib id, fresh s -> fill true s gs = Some s' -> shown_as (close s' stop composition) = Some y -> In (rp, paths) (combine (n_reps (y_strm y)) (y_paths y)) ->
  Forall2 (taken (f_audio s) (r_rate rp)) gs cs -> cs <> [] -> laid 0 cs -> Forall (fun c => c_stop c <= stop) cs -> stop < 2 ^ 61 -> 0 <= composition < 2 ^ 61 -> last_orig cs <= composition ->
  Forall (fun c => exists v, lib (c_path c) = Some v /\ cuttable v id (c_track c)) cs ->
  exists l, segments lib id (f_index (close s' stop composition)) paths = Some l /\ map seg_time l = map fst (flat_map c_points cs) /\ flat_map seg_samples l = used cs composition.
Proof. exact groups_ok. Qed.
Print Assumptions C80_groups.
Definition ex_movie : movie := mkMovie [ex_video; ex_audio] 2000.
Definition ex_lib (p : list Z) : option movie := if eqset p (str "a") then Some ex_movie else if eqset p (str "b") then Some ex_movie else None.
Definition ex_item (name : string) : item := mkItem 500 64 (str name) true (fun _ => None).
Definition ex_fs : fstrm := mkFs (str "audio1") true 1 48000 2 [9] 0 0 [] (mkindex [] [] []) 0.
Definition ex_groups : list group := [mkGroup [ex_item "a"] [Add 0 500000; Add 600000 1100000] 1200000; mkGroup [ex_item "b"] [Add 1300000 700000] 2000000].
Definition ex_clips : list clip := [mkClip (str "a") 1200000 [(0, 500000); (600000, 1100000)] ex_audio; mkClip (str "b") 2000000 [(1300000, 700000)] ex_audio].
Lemma ex_cuttable : cuttable ex_movie 1 ex_audio.
Proof.
  split; [cbn [ex_movie v_tracks]; ex_sound ex_video_timed|]. split; [cbn [ex_movie v_tracks v_end]; ex_whole|]. split; [reflexivity|]. split; [exists [(12%nat, 20)]; exact ex_audio_timed|]. split; [split; [reflexivity|split; [reflexivity|left; split; reflexivity]]|]. ex_offsets.
Qed.
Example C80_groups_nonvacuous : exists s' y rp paths l, fresh ex_fs /\ fill true ex_fs ex_groups = Some s' /\ shown_as (close s' 2000000 1500000) = Some y /\ In (rp, paths) (combine (n_reps (y_strm y)) (y_paths y))
  /\ Forall2 (taken (f_audio ex_fs) (r_rate rp)) ex_groups ex_clips /\ laid 0 ex_clips /\ Forall (fun c => exists v, ex_lib (c_path c) = Some v /\ cuttable v 1 (c_track c)) ex_clips
  /\ segments ex_lib 1 (f_index (close s' 2000000 1500000)) paths = Some l
  /\ map (fun s => (seg_time s, map (presented ex_audio) (seg_samples s), seg_base s)) l = [(0, [500000; 700000; 900000], 0); (600000, [1100000; 1300000; 1500000; 1700000], 600000); (1300000, [700000; 900000; 1100000; 1300000], 1300000)].
Proof.
  do 5 eexists. split; [vm_compute; auto|]. split; [vm_compute; reflexivity|]. split; [vm_compute; reflexivity|]. split; [left; reflexivity|]. split.
  { constructor; [|constructor; [|constructor]]; (split; [reflexivity|split; [reflexivity|eexists; split; [vm_compute; reflexivity|reflexivity]]]). }
  split. { unfold ex_clips, laid. cbn [c_points c_stop ordered fst snd]. repeat match goal with |- _ /\ _ => split | |- Forall _ _ => constructor | |- _ <> _ => discriminate | |- True => exact Logic.I end; cbn [fst snd]; lia. }
  split. { constructor; [|constructor; [|constructor]]; (exists ex_movie; split; [vm_compute; reflexivity|exact ex_cuttable]). }
  split; [vm_compute; reflexivity|]. vm_compute. reflexivity.
Qed.

(** One file, published up to a time: every sample presented from the first point on and before that
    time is in the segments, exactly once; no other is. *)
Theorem C80_one_file : forall s g c s' stop composition y rp paths lib id, fresh s -> fill true s [g] = Some s' -> shown_as (close s' stop composition) = Some y -> In (rp, paths) (combine (n_reps (y_strm y)) (y_paths y)) ->
  taken (f_audio s) (r_rate rp) g c -> laid 0 [c] -> c_stop c <= stop < 2 ^ 61 -> 0 <= composition < 2 ^ 61 -> last_orig [c] <= composition -> (exists v, lib (c_path c) = Some v /\ cuttable v id (c_track c)) ->
  exists l, segments lib id (f_index (close s' stop composition)) paths = Some l /\
    flat_map seg_samples l = filter (fun x => (snd (hd (0, 0) (c_points c)) <=? presented (c_track c) x) && (presented (c_track c) x <? composition)) (samples_of (c_track c)).
Proof.
  intros s g c s' stop comp y rp paths lib id F E SH IN T L S C LO V. destruct (groups_ok s [g] [c] s' stop comp y rp paths lib id F E SH IN) as (l & L1 & _ & L2).
  - constructor; [exact T|constructor].
  - discriminate.
  - exact L.
  - constructor; [apply S|constructor].
  - apply S.
  - exact C.
  - exact LO.
  - constructor; [exact V|constructor].
  - exists l. split; [exact L1|]. rewrite L2. cbn [used used_until]. rewrite app_nil_r. reflexivity.
Qed.
Print Assumptions C80_one_file.
Example C80_one_file_nonvacuous : exists s' y rp paths l, fill true ex_fs (firstn 1 ex_groups) = Some s' /\ shown_as (close s' 1300000 1500000) = Some y /\ In (rp, paths) (combine (n_reps (y_strm y)) (y_paths y))
  /\ segments ex_lib 1 (f_index (close s' 1300000 1500000)) paths = Some l /\ map (fun s => map (presented ex_audio) (seg_samples s)) l = [[500000; 700000; 900000]; [1100000; 1300000]].
Proof. do 5 eexists. split; [vm_compute; reflexivity|]. split; [vm_compute; reflexivity|]. split; [left; reflexivity|]. split; [vm_compute; reflexivity|]. vm_compute. reflexivity. Qed.

(** The first sample of a segment is presented at the time of the segment's point. *)
Theorem C80_base : forall lib id i paths l n s t v m k x r, segments lib id i paths = Some l -> nth_error l n = Some s -> nth_error (i_points i) n = Some (t, v) -> v <> - 2 ^ 63 -> 0 <= t < 2 ^ 62 -> sorted paths -> paths <> [] ->
  lib (in_force paths t) = Some m -> nth_error (v_tracks m) id = Some k -> seg_samples s = x :: r -> 0 <= s_comp x - decoded_at k x <= t -> seg_time s = t /\ seg_base s + (s_comp x - decoded_at k x) = t.
Proof. exact base_ok. Qed.
Print Assumptions C80_base.
Example C80_base_nonvacuous : exists s' y rp paths l s x r, fill true ex_fs ex_groups = Some s' /\ shown_as (close s' 2000000 1500000) = Some y /\ In (rp, paths) (combine (n_reps (y_strm y)) (y_paths y))
  /\ segments ex_lib 1 (f_index (close s' 2000000 1500000)) paths = Some l /\ nth_error l 1 = Some s /\ seg_samples s = x :: r /\ s_comp x - decoded_at ex_audio x = 0 /\ seg_base s = 600000.
Proof. do 8 eexists. split; [vm_compute; reflexivity|]. split; [vm_compute; reflexivity|]. split; [left; reflexivity|]. split; [vm_compute; reflexivity|]. split; [vm_compute; reflexivity|]. split; [vm_compute; reflexivity|]. split; vm_compute; reflexivity. Qed.

(** Refuted: the segments before and at a crossing point meet there.  The one before a point which
    crosses from a file into the next holds everything up to the end of its file: the end asked for
    is the mark of the crossing, and as an unsigned time it is after all. *)
Theorem C80_before_cross_refuted : forall ops paths a t va lib id v k, next_point a t ops -> last_added a ops = Some va -> last_added t ops = Some (- 2 ^ 63) -> ~ file_between a t ops -> 0 <= a < 2 ^ 62 -> 0 <= va < 2 ^ 62 -> sorted paths -> paths <> [] ->
  lib (in_force paths a) = Some v -> cuttable v id k ->
  exists j b, job_at (build ops) paths (a, va) = Some j /\ segment lib id j = Some (a, between k va (2 ^ 63), b).
Proof. exact before_cross. Qed.
Print Assumptions C80_before_cross_refuted.
(** Refuted: so does the one which crosses: of its second file it holds everything from the second
    part's start on. *)
Theorem C80_cross_refuted : forall ops paths t b vb o t2 o2 lib id v1 k1 v2 k2, next_point t b ops -> last_added t ops = Some (- 2 ^ 63) -> last_added b ops = Some vb -> file_between t b ops -> get t (i_cross (build ops)) = Some (mkcross t o t2 o2) ->
  0 <= t -> t <= t2 < 2 ^ 62 -> b < 2 ^ 62 -> 0 <= o < 2 ^ 62 -> 0 <= o2 < 2 ^ 62 -> sorted paths -> paths <> [] ->
  lib (in_force paths t) = Some v1 -> cuttable v1 id k1 -> lib (in_force paths t2) = Some v2 -> cuttable v2 id k2 ->
  exists j base, job_at (build ops) paths (t, - 2 ^ 63) = Some j /\ segment lib id j = Some (t, between k1 o (o + (t2 - t)) ++ between k2 o2 (2 ^ 63 + (b - t)), base).
Proof. exact at_cross. Qed.
Print Assumptions C80_cross_refuted.
(** so that samples are written twice: in the segment before the crossing, and in the crossing one *)
Theorem C80_twice_refuted : forall ops paths a va t b vb o t2 o2 lib id v1 k1 v2 k2, next_point a t ops -> last_added a ops = Some va -> next_point t b ops -> last_added t ops = Some (- 2 ^ 63) -> last_added b ops = Some vb ->
  ~ file_between a t ops -> file_between t b ops -> get t (i_cross (build ops)) = Some (mkcross t o t2 o2) ->
  0 <= a < 2 ^ 62 -> 0 <= va <= o -> t <= t2 < 2 ^ 62 -> b < 2 ^ 62 -> o < 2 ^ 62 -> 0 <= o2 < 2 ^ 62 -> sorted paths -> paths <> [] -> in_force paths a = in_force paths t ->
  lib (in_force paths t) = Some v1 -> cuttable v1 id k1 -> lib (in_force paths t2) = Some v2 -> cuttable v2 id k2 ->
  exists j j' s s', job_at (build ops) paths (a, va) = Some j /\ segment lib id j = Some s /\ job_at (build ops) paths (t, - 2 ^ 63) = Some j' /\ segment lib id j' = Some s' /\
    forall x, In x (samples_of k1) -> o <= presented k1 x < o + (t2 - t) -> In x (seg_samples s) /\ In x (seg_samples s').
Proof.
  intros ops paths a va t b vb o t2 o2 lib id v1 k1 v2 k2 N A N2 T B NF F G A0 VO T2 BB OB O2B S NP SP L1 C1 L2 C2. pose proof N as (_ & _ & AT & _).
  destruct (before_cross ops paths a t va lib id v1 k1 N A T NF A0 ltac:(lia) S NP) as (j & bs & J1 & J2); [rewrite SP; exact L1|exact C1|].
  destruct (at_cross ops paths t b vb o t2 o2 lib id v1 k1 v2 k2 N2 T B F G ltac:(lia) T2 BB ltac:(lia) O2B S NP L1 C1 L2 C2) as (j' & bs' & K1 & K2).
  eexists j, j', _, _. split; [exact J1|]. split; [exact J2|]. split; [exact K1|]. split; [exact K2|]. intros x X P. cbn [seg_samples fst snd]. split; [apply between_in; split; [exact X|lia]|]. apply in_or_app. left. apply between_in. split; [exact X|exact P].
Qed.
Print Assumptions C80_twice_refuted.
Definition ex_ops : list index_op := [AddFile 0; Add 0 500000; AddFile 1200000; AddCross 600000 1100000 1200000 500000; Add 1600000 900000; Add 2000000 1300000].
Definition ex_paths : zmap (list Z) := [(0, str "a"); (1200000, str "b")].
Example C80_cross_nonvacuous : next_point 0 600000 ex_ops /\ next_point 600000 1600000 ex_ops /\ last_added 600000 ex_ops = Some (- 2 ^ 63) /\ ~ file_between 0 600000 ex_ops /\ file_between 600000 1600000 ex_ops
  /\ get 600000 (i_cross (build ex_ops)) = Some (mkcross 600000 1100000 1200000 500000) /\ in_force ex_paths 0 = in_force ex_paths 600000
  /\ exists l, segments ex_lib 1 (build ex_ops) ex_paths = Some l /\ map (fun s => (seg_time s, map (presented ex_audio) (seg_samples s))) l =
    [(0, [500000; 700000; 900000; 1100000; 1300000; 1500000; 1700000; 1900000; 2100000; 2300000; 2500000; 2700000]);
     (600000, [1100000; 1300000; 1500000; 500000; 700000; 900000; 1100000; 1300000; 1500000; 1700000; 1900000; 2100000; 2300000; 2500000; 2700000]); (1600000, [900000; 1100000])].
Proof.
  assert (K : forall k, added k ex_ops -> k = 0 \/ k = 600000 \/ k = 1600000 \/ k = 2000000).
  { intros k. unfold added, ex_ops. cbn [last_added]. destruct (Z.eqb_spec 2000000 k); [lia|]. destruct (Z.eqb_spec 1600000 k); [lia|]. destruct (Z.eqb_spec 600000 k); [lia|]. destruct (Z.eqb_spec 0 k); [lia|]. intros H. contradiction. }
  split. { split; [discriminate|]. split; [discriminate|]. split; [lia|]. intros k A. specialize (K k A). lia. }
  split. { split; [discriminate|]. split; [discriminate|]. split; [lia|]. intros k A. specialize (K k A). lia. }
  split; [reflexivity|]. split. { intros (x & I & H). unfold ex_ops in I. cbn [In] in I. repeat (destruct I as [I|I]; [try discriminate I; injection I as <-; lia|]). exact I. }
  split. { exists 1200000. split; [unfold ex_ops; cbn [In]; tauto|lia]. }
  split; [vm_compute; reflexivity|]. split; [vm_compute; reflexivity|]. eexists. split; [vm_compute; reflexivity|]. vm_compute. reflexivity.
Qed.
