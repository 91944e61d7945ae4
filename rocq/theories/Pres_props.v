(** C75: a published DASH presentation.  The manifest is read as a player reads it: tags and
    attributes of the text, templates expanded, timelines unrolled. *)
From Coq Require Import String Permutation.
From Verif Require Import Util Dec_spec Str_model Mpd_model Points_model Points_proofs2 Pres_model Pres_proofs Pres_proofs2 Pres_proofs3 Pres_proofs4 Pres_proofs5.
Local Open Scope Z_scope.

Lemma numbers_zupto p : Permutation (map n_id p) (map Z.of_nat (seq 0 (length p))) -> Permutation (map n_id p) (zupto 0 (length p)).
Proof. intros H. rewrite zupto_seq. erewrite map_ext; [exact H|]. intros i. cbv beta. apply Z.add_0_l. Qed.

(** The URLs in the manifest are exactly the files written, once each: streams numbered
    0, 1, ..., with different names fit for XML and templates, bit rates below 2^31, and content
    protection of complete elements. *)
Theorem C75_resolves : forall cpv cpa p, Forall harmless cpv -> Forall harmless cpa -> p <> [] ->
  Permutation (map n_id p) (map Z.of_nat (seq 0 (length p))) -> NoDup (map n_name p) -> Forall strm_ok p ->
  exists text files, manifest cpv cpa p = Some text /\ files_written p = Some files
    /\ Permutation (player_urls text) files /\ NoDup files.
Proof. intros cpv cpa p Cv Ca NE H N F. apply presentation_resolves; try assumption. apply numbers_zupto. exact H. Qed.
Print Assumptions C75_resolves.

(** Streams declared through the interface (names chosen by it) keep their content and their
    names satisfy what the theorem above asks, for any number of video and audio streams. *)
Theorem C75_declared : forall cpv cpa l, Forall harmless cpv -> Forall harmless cpa -> l <> [] ->
  Permutation (map n_id l) (map Z.of_nat (seq 0 (length l))) ->
  Forall (fun s => rates_ok (n_reps s) /\ points_ok (n_points s) /\ Forall (fun r => bytes (r_private r)) (n_reps s)) l ->
  Permutation (map content (declare_all l)) (map content l) /\ NoDup (map n_name (declare_all l))
  /\ exists text files, manifest cpv cpa (declare_all l) = Some text /\ files_written (declare_all l) = Some files
    /\ Permutation (player_urls text) files /\ NoDup files.
Proof.
  intros cpv cpa l Cv Ca NE H F. destruct (declared_ok l) as (P & N & _). split; [exact P|]. split; [exact N|]. apply declared_resolves; try assumption. apply numbers_zupto. exact H.
Qed.
Print Assumptions C75_declared.

(** The representations listed are those of the streams, with their bit rates and sizes. *)
Theorem C75_listed : forall cpv cpa p, Forall harmless cpv -> Forall harmless cpa -> p <> [] ->
  Permutation (map n_id p) (map Z.of_nat (seq 0 (length p))) -> Forall strm_ok p ->
  exists text, manifest cpv cpa p = Some text
    /\ map (fun t => (attr (str "bandwidth") t, attr (str "width") t, attr (str "height") t)) (tags_named (str "Representation") text)
       = flat_map (fun s => map (fun r => (Some (dec (r_rate r)), if n_audio s then None else Some (dec_signed (r_width r)), if n_audio s then None else Some (dec_signed (r_height r)))) (n_reps s)) p.
Proof.
  intros cpv cpa p Cv Ca NE H F. destruct (manifest_tags cpv cpa p Cv Ca NE (numbers_zupto p H) F) as (off & text & M & R & _). exists text. split; [exact M|]. rewrite R, rep_tags_moved.
  apply seen_all. eapply Forall_impl; [|exact F]. intros s (_ & (_ & Q) & _). exact Q.
Qed.
Print Assumptions C75_listed.

(** Their ids differ when no audio stream has more than one. *)
Theorem C75_ids : forall cpv cpa p, Forall harmless cpv -> Forall harmless cpa -> p <> [] ->
  Permutation (map n_id p) (map Z.of_nat (seq 0 (length p))) -> Forall strm_ok p ->
  Forall (fun s => n_audio s = true -> (length (n_reps s) <= 1)%nat) p ->
  exists text, manifest cpv cpa p = Some text /\ NoDup (map (attr (str "id")) (tags_named (str "Representation") text)).
Proof.
  intros cpv cpa p Cv Ca NE H F A. destruct (manifest_tags cpv cpa p Cv Ca NE (numbers_zupto p H) F) as (off & text & M & R & _). exists text. split; [exact M|]. rewrite R, rep_tags_moved.
  apply (ids_nodup p 0); [apply Z.le_refl| |exact A]. eapply Forall_impl; [|exact F]. intros s (_ & Q & _). exact Q.
Qed.
Print Assumptions C75_ids.

(** The size announced for the only video stream is that of its largest representation. *)
Theorem C75_size : forall cpv cpa p s, Forall harmless cpv -> Forall harmless cpa ->
  Permutation (map n_id p) (map Z.of_nat (seq 0 (length p))) -> Forall strm_ok p ->
  filter (fun x => negb (n_audio x)) p = [s] -> n_reps s <> [] -> Forall (fun r => 0 <= r_width r /\ 0 <= r_height r) (n_reps s) ->
  exists text w h, manifest cpv cpa p = Some text
    /\ In w (map r_width (n_reps s)) /\ Forall (fun r => r_width r <= w) (n_reps s)
    /\ In h (map r_height (n_reps s)) /\ Forall (fun r => r_height r <= h) (n_reps s)
    /\ forall t, In t (tags_named (str "AdaptationSet") text) -> attr (str "contentType") t = Some (str "video") ->
       attr (str "maxWidth") t = Some (dec_signed w) /\ attr (str "maxHeight") t = Some (dec_signed h).
Proof.
  intros cpv cpa p s Cv Ca H F O NE P. assert (NP : p <> []) by (intros ->; discriminate O).
  destruct (manifest_tags cpv cpa p Cv Ca NP (numbers_zupto p H) F) as (off & text & M & _ & S).
  exists text, (fold_left wider (map r_width (n_reps s)) 0), (fold_left wider (map r_height (n_reps s)) 0). split; [exact M|].
  destruct (wider_max (map r_width (n_reps s))) as (W1 & W2); [destruct (n_reps s); [contradiction|discriminate]|apply Forall_map; eapply Forall_impl; [|exact P]; intros r Q; apply Q|].
  destruct (wider_max (map r_height (n_reps s))) as (H1 & H2); [destruct (n_reps s); [contradiction|discriminate]|apply Forall_map; eapply Forall_impl; [|exact P]; intros r Q; apply Q|].
  split; [exact W1|]. split; [exact (proj1 (Forall_map r_width _ _) W2)|]. split; [exact H1|]. split; [exact (proj1 (Forall_map r_height _ _) H2)|].
  intros t I E. rewrite S, set_list_moved in I. exact (one_size p s _ _ t O I E).
Qed.
Print Assumptions C75_size.

(** * what does not hold *)
(** A gap in the numbers: no manifest, a null pointer is used. *)
Theorem C75_gap_refuted : forall cpv cpa p, ~ Permutation (map n_id p) (map Z.of_nat (seq 0 (length p))) -> manifest cpv cpa p = None /\ files_written p = None.
Proof.
  intros cpv cpa p H. assert (E : in_turn p = None).
  { destruct (in_turn p) as [q|] eqn:E; [|reflexivity]. exfalso. apply H. apply in_turn_some in E. rewrite zupto_seq in E. rewrite (map_ext Z.of_nat (fun i => 0 + Z.of_nat i)) by (intros i; lia). exact E. }
  unfold manifest, files_written, rebase_pres. rewrite E. split; reflexivity.
Qed.
Print Assumptions C75_gap_refuted.

Lemma sorted3 (a b c : Z * Z) : fst a < fst b < fst c -> sorted [a; b; c].
Proof. destruct a as [a a'], b as [b b'], c as [c c']. cbn [fst sorted]. intros H. split; [constructor; [cbn [fst]; lia|constructor; [cbn [fst]; lia|constructor]]|]. split; [constructor; [cbn [fst]; lia|constructor]|]. split; [constructor|exact Logic.I]. Qed.
Definition avc1 : list Z := [1; 77; 64; 30; 255; 225; 0; 4; 103; 77; 64; 30].
Definition points3 : zmap Z := [(0, 0); (20000000, 20000000); (40000000, 40000000)].
(** Two representations of one audio stream get the same id. *)
Theorem C75_audio_ids_refuted : exists p text t1 t2, Forall strm_ok p /\ map n_id p = [0] /\ manifest [] [] p = Some text
  /\ tags_named (str "Representation") text = [t1; t2] /\ attr (str "bandwidth") t1 <> attr (str "bandwidth") t2 /\ attr (str "id") t1 = attr (str "id") t2.
Proof.
  exists [mkStrm (str "audio") true 0 48000 [mkRep 64000 0 0 []; mkRep 128000 0 0 []] points3]. do 3 eexists.
  split; [|split; [reflexivity|]; split; [vm_compute; reflexivity|]; split; [vm_compute; reflexivity|]; split; [vm_compute; discriminate|vm_compute; reflexivity]].
  constructor; [|constructor]. split; [repeat split; vm_compute; intuition discriminate|]. split; [split; [constructor; [vm_compute; intuition discriminate|constructor; [intros []|constructor]]|constructor; [split; vm_compute; [discriminate|reflexivity]|constructor; [split; vm_compute; [discriminate|reflexivity]|constructor]]]|]. split; [|constructor; [constructor|constructor; [constructor|constructor]]].
  split; [discriminate|]. split; [|constructor; [split; vm_compute; [discriminate|reflexivity]|constructor; [split; vm_compute; [discriminate|reflexivity]|constructor; [split; vm_compute; [discriminate|reflexivity]|constructor]]]].
  apply sorted3; cbn [fst]; lia.
Qed.
Print Assumptions C75_audio_ids_refuted.
(** With two video streams the second one is announced with the size of the first. *)
Theorem C75_size_refuted : exists p text t1 t2, manifest [] [] p = Some text /\ tags_named (str "AdaptationSet") text = [t1; t2]
  /\ map (fun s => (n_name s, map r_width (n_reps s))) p = [(str "video", [1280]); (str "video1", [640])]
  /\ attr (str "maxWidth") t1 = Some (str "1280") /\ attr (str "maxWidth") t2 = Some (str "1280").
Proof.
  exists [mkStrm (str "video") false 0 0 [mkRep 500000 1280 720 avc1] points3; mkStrm (str "video1") false 1 0 [mkRep 300000 640 360 avc1] points3]. do 3 eexists.
  split; [vm_compute; reflexivity|]. split; [vm_compute; reflexivity|]. split; [reflexivity|]. split; vm_compute; reflexivity.
Qed.
Print Assumptions C75_size_refuted.
(** A bit rate of 2^31 and more: nothing the player asks for was written. *)
Theorem C75_rate_refuted : exists p text files, map (fun s => map r_rate (n_reps s)) p = [[2 ^ 31]] /\ manifest [] [] p = Some text /\ files_written p = Some files
  /\ length (player_urls text) = 3%nat /\ forall u, In u (player_urls text) -> ~ In u files.
Proof.
  exists [mkStrm (str "video") false 0 0 [mkRep 2147483648 1280 720 avc1] points3]. do 2 eexists. split; [reflexivity|]. split; [vm_compute; reflexivity|]. split; [vm_compute; reflexivity|].
  split; [vm_compute; reflexivity|]. intros u U. vm_compute in U. destruct U as [<-|[<-|[<-|[]]]]; vm_compute; intuition discriminate.
Qed.
Print Assumptions C75_rate_refuted.

(** * the hypotheses are met *)
Definition protection : list Z := str "<ContentProtection schemeIdUri=""urn:mpeg:dash:mp4protection:2011"" value=""cenc""/>".
Definition two : list strm := [mkStrm [] false 1 0 [mkRep 500000 640 360 avc1; mkRep 900000 1280 720 avc1] [(-400000, 0); (20000000, 20000000); (40000000, 40000000)]; mkStrm [] true 0 48000 [mkRep 64000 0 0 []] points3].
Example C75_protection_harmless : harmless protection.
Proof. split; [vm_compute; reflexivity|]. constructor; [|constructor]. vm_compute. intuition discriminate. Qed.
Example C75_two_numbers : Permutation (map n_id two) (map Z.of_nat (seq 0 (length two))).
Proof. apply perm_swap. Qed.
Example C75_two_names : map n_name (declare_all two) = [str "audio"; str "video"].
Proof. reflexivity. Qed.
Example C75_two_files : option_map player_urls (manifest [protection] [] (declare_all two)) = Some
  [str "audio_64000_i.m4a"; str "audio_64000_400000.m4a"; str "audio_64000_20400000.m4a";
   str "video_500000_i.m4v"; str "video_500000_0.m4v"; str "video_500000_20400000.m4v"; str "video_900000_i.m4v"; str "video_900000_0.m4v"; str "video_900000_20400000.m4v"].
Proof. vm_compute. reflexivity. Qed.
Example C75_two_ok : Forall strm_ok (declare_all two).
Proof.
  assert (P : forall m : zmap Z, (exists a b c, m = [a; b; c] /\ fst a < fst b < fst c /\ - 2 ^ 62 <= fst a /\ fst c < 2 ^ 62) -> sorted m -> points_ok m).
  { intros m (a & b & c & -> & (H1 & H2) & H3 & H4) S. split; [discriminate|]. split; [exact S|]. constructor; [lia|constructor; [lia|constructor; [lia|constructor]]]. }
  assert (B : bytes avc1) by (unfold bytes, avc1; repeat (constructor; [unfold is_byte; lia|]); constructor).
  change (declare_all two) with [mkStrm (str "audio") true 0 48000 [mkRep 64000 0 0 []] points3; mkStrm (str "video") false 1 0 [mkRep 500000 640 360 avc1; mkRep 900000 1280 720 avc1] [(-400000, 0); (20000000, 20000000); (40000000, 40000000)]].
  constructor; [|constructor; [|constructor]].
  - split; [repeat split; vm_compute; intuition discriminate|]. split; [split; [constructor; [intros []|constructor]|constructor; [cbn [r_rate]; lia|constructor]]|]. split; [apply P; [do 3 eexists; split; [reflexivity|]; cbn [fst]; lia|apply sorted3; cbn [fst]; lia]|constructor; [constructor|constructor]].
  - split; [repeat split; vm_compute; intuition discriminate|]. split; [split; [constructor; [vm_compute; intuition discriminate|constructor; [intros []|constructor]]|constructor; [cbn [r_rate]; lia|constructor; [cbn [r_rate]; lia|constructor]]]|]. split; [apply P; [do 3 eexists; split; [reflexivity|]; cbn [fst]; lia|apply sorted3; cbn [fst]; lia]|constructor; [exact B|constructor; [exact B|constructor]]].
Qed.
