(** C78: the Smooth Streaming manifest.  It is read as a client reads it: tags and attributes of the
    text, the template of the URL filled in, the starts of chunks summed up. *)
From Coq Require Import String Permutation.
From Verif Require Import Util Dec_spec Dec_lemmas Str_model Mpd_model Points_model Points_proofs2 Pres_model Pres_proofs Pres_proofs3 Smooth_model Smooth_proofs Smooth_proofs2 Smooth_proofs3.
Local Open Scope Z_scope.

Lemma sm_zupto l : Permutation (map (fun y => n_id (y_strm y)) l) (map Z.of_nat (seq 0 (length l))) -> Permutation (map (fun y => n_id (y_strm y)) l) (zupto 0 (length l)).
Proof. intros H. rewrite zupto_seq. erewrite map_ext; [exact H|]. intros i. cbv beta. apply Z.add_0_l. Qed.

(** A client of the manifest asks for every media file written, once, and for nothing else: the
    files written are those of the DASH presentation but for the initialization segments. *)
Theorem C78_resolves : forall l, l <> [] -> Permutation (map (fun y => n_id (y_strm y)) l) (map Z.of_nat (seq 0 (length l))) ->
  NoDup (map (fun y => n_name (y_strm y)) l) -> Forall sm_ok l ->
  exists text files, smooth l = Some text /\ files_written (map y_strm l) = Some files
    /\ NoDup (client_urls text) /\ forall u, In u (client_urls text) <-> In u files /\ ~ initial u.
Proof. intros l NE H N F. apply smooth_resolves; try assumption. apply sm_zupto. exact H. Qed.
Print Assumptions C78_resolves.

(** The quality levels are the bit rates of the streams, in order, with their rate and, for video,
    their size and their parameter sets behind start codes. *)
Theorem C78_levels : forall l, l <> [] -> Permutation (map (fun y => n_id (y_strm y)) l) (map Z.of_nat (seq 0 (length l))) -> Forall sm_ok l ->
  exists text, smooth l = Some text
    /\ Forall2 (fun t yr => attr (str "Bitrate") t = Some (dec (r_rate (snd yr)))
         /\ (n_audio (y_strm (fst yr)) = false ->
              attr (str "MaxWidth") t = Some (dec_signed (r_width (snd yr))) /\ attr (str "MaxHeight") t = Some (dec_signed (r_height (snd yr)))
              /\ forall sps pps, parameter_sets (r_private (snd yr)) sps pps -> attr (str "CodecPrivateData") t = Some (hexs ([0; 0; 0; 1] ++ sps ++ [0; 0; 0; 1] ++ pps)))
         /\ (n_audio (y_strm (fst yr)) = true ->
              attr (str "SamplingRate") t = Some (dec_signed (n_sampling (y_strm (fst yr)))) /\ attr (str "Channels") t = Some (dec_signed (y_channels (fst yr))) /\ attr (str "BitsPerSample") t = Some (dec_signed (y_bits (fst yr)))))
       (tags_named (str "QualityLevel") text) (flat_map (fun y => map (fun r => (y, r)) (n_reps (y_strm y))) l).
Proof.
  intros l NE H F. destruct (smooth_tags l NE (sm_zupto l H) F) as (off & text & E & L & _). exists text. split; [exact E|]. rewrite L. clear - F.
  match goal with |- Forall2 ?P _ ?b => assert (X : forall i, Forall2 P (all_levels i (map (sm_moved off) l)) b); [|apply X] end. induction l as [|y l IH]; intros i; [constructor|].
  cbn [map all_levels flat_map]. apply Forall2_app; [|apply IH; exact (Forall_inv_tail F)]. destruct (Forall_inv F) as ((_ & (_ & R) & _) & _). unfold sm_moved at 2. cbn [y_strm moved n_reps]. clear - R. revert i. induction (n_reps (y_strm y)) as [|r rs IH]; intros i; [constructor|].
  cbn [level_tags map]. constructor; [|apply IH; exact (Forall_inv_tail R)]. cbn [fst snd]. pose proof (Forall_inv R) as R1. cbv beta in R1.
  assert (RT : dec_signed (int32 (r_rate r)) = dec (r_rate r)) by (rewrite int32_ok by exact R1; unfold dec_signed; destruct (Z.ltb_spec (r_rate r) 0); [exfalso; apply (Zlt_not_le _ _ H); apply R1|reflexivity]). rewrite <- RT.
  unfold level_tag, sm_moved. cbn [y_strm moved n_audio n_sampling y_channels y_bits]. destruct (n_audio (y_strm y)) eqn:A; split; try reflexivity; split; intros Q; try discriminate Q.
  - split; [reflexivity|]. split; reflexivity.
  - split; [reflexivity|]. split; [reflexivity|]. intros sps pps P. unfold data_of. rewrite (start_codes_ok _ _ _ P). reflexivity.
Qed.
Print Assumptions C78_levels.

(** The private data made of two parameter sets below 64 kB holds them. *)
Theorem C78_private : forall sps pps, zlen sps < 65536 -> zlen pps < 65536 -> parameter_sets (private_data sps pps) sps pps.
Proof. exact private_ok. Qed.
Print Assumptions C78_private.
(** They can be told apart in it. *)
Theorem C78_private_inj : forall d sps pps sps' pps', parameter_sets d sps pps -> parameter_sets d sps' pps' -> sps = sps' /\ pps = pps'.
Proof.
  intros d sps pps sps' pps' (A & B & E) (A' & B' & E'). rewrite E in E'. assert (L : zlen sps = zlen sps').
  { cbn [app] in E'. injection E' as Q1 Q2 _. rewrite (Z.div_mod (zlen sps) 256), (Z.div_mod (zlen sps') 256), Q1, Q2 by discriminate. reflexivity. }
  assert (Q : sps ++ [zlen pps / 256; zlen pps mod 256] ++ pps = sps' ++ [zlen pps' / 256; zlen pps' mod 256] ++ pps') by (apply (f_equal (skipn 2)) in E'; exact E').
  assert (L2 : length sps = length sps') by (unfold zlen in L; apply Nat2Z.inj; exact L). clear - Q L2. revert sps' L2 Q. induction sps as [|x sps IH]; intros [|y sps'] L2 Q; try discriminate L2; [split; [reflexivity|apply (f_equal (skipn 2)) in Q; exact Q]|].
  cbn [app] in Q. injection Q as -> Q. destruct (IH sps') as (-> & ->); [injection L2; intros X; exact X|exact Q|]. split; reflexivity.
Qed.
Print Assumptions C78_private_inj.

(** Every chunk names, for every bit rate, the file in force at its time, that time and the time in
    the file, provided that no chunk crosses two files or no time was negative. *)
Theorem C78_sources : forall l, l <> [] -> Permutation (map (fun y => n_id (y_strm y)) l) (map Z.of_nat (seq 0 (length l))) -> Forall sm_ok l ->
  (Forall (fun y => Forall (fun x => snd x <> CROSS_POINT_TIME) (n_points (y_strm y))) l \/ Forall (fun y => Forall (fun x => 0 <= fst x) (n_points (y_strm y))) l) ->
  exists off text, smooth l = Some text
    /\ 0 <= off /\ (off = 0 \/ exists y, In y l /\ In (- off) (map fst (n_points (y_strm y)))) /\ Forall (fun y => Forall (fun x => 0 <= fst x + off) (n_points (y_strm y))) l
    /\ sources_said text = flat_map (fun y => flat_map (fun x => flat_map (sources_of y off x) (y_paths y)) (removelast (n_points (y_strm y)))) l.
Proof. intros l NE H F NC. apply smooth_said; try assumption. apply sm_zupto. exact H. Qed.
Print Assumptions C78_sources.

(** The duration is that of the stream numbered 0, from its first to its last point. *)
Theorem C78_duration : forall l y, In y l -> n_id (y_strm y) = 0 -> Permutation (map (fun y => n_id (y_strm y)) l) (map Z.of_nat (seq 0 (length l))) -> Forall sm_ok l ->
  exists text first rest, smooth l = Some text /\ map fst (n_points (y_strm y)) = first :: rest
    /\ map (attr (str "Duration")) (tags_named (str "SmoothStreamingMedia") text) = [Some (dec (List.last (first :: rest) 0 - first))].
Proof.
  intros l y I Z0 H F. assert (NE : l <> []) by (intros ->; destruct I). destruct (smooth_tags l NE (sm_zupto l H) F) as (off & text & E & _ & _ & d & L & D). exists text. rewrite Forall_forall in F. destruct (F y I) as ((_ & _ & (NP & _) & _) & _).
  specialize (D y I Z0). destruct (n_points (y_strm y)) as [|(k & v) m] eqn:P; [contradiction|]. exists k, (map fst m). split; [exact E|]. split; [reflexivity|]. rewrite L. cbn [map]. f_equal. unfold root_tag. change (attr (str "Duration") ?t) with (Some (dec d)). f_equal. f_equal. rewrite D. cbn [mint]. f_equal.
Qed.
Print Assumptions C78_duration.

(** * what does not hold *)
(** The number of chunks announced is always one more than there are. *)
Theorem C78_chunks_refuted : forall l y, l = [y] -> n_id (y_strm y) = 0 -> sm_ok y -> exists text t n,
  smooth l = Some text /\ tags_named (str "StreamIndex") text = [t] /\ attr (str "Chunks") t = Some (dec (n + 1)) /\ n = zlen (removelast (n_points (y_strm y))) /\ dec (n + 1) <> dec n.
Proof.
  intros l y -> I OK. destruct (smooth_tags [y]) as (off & text & E & _ & S & _); [discriminate|cbn [map length zupto]; rewrite I; apply Permutation_refl|constructor; [exact OK|constructor]|].
  exists text, (index_tag (y_strm (sm_moved off y))), (zlen (removelast (n_points (y_strm y)))). split; [exact E|]. split; [exact S|]. destruct OK as ((_ & _ & (NP & SP & _) & _) & _). split; [|split; [reflexivity|]].
  - change (attr (str "Chunks") (index_tag (y_strm (sm_moved off y)))) with (Some (dec (zlen (rebase off (n_points (y_strm y)))))). f_equal. f_equal. rewrite rebase_map by exact SP. unfold zlen. rewrite map_length. clear - NP. destruct (exists_last NP) as (a & x & Q). rewrite Q, removelast_last, app_length. cbn [length]. apply Nat2Z.inj_add.
  - intros Q. apply dec_inj in Q; [|unfold zlen; apply Z.add_nonneg_nonneg; [apply Nat2Z.is_nonneg|discriminate]|apply Nat2Z.is_nonneg]. apply (Z.neq_succ_diag_l _ Q).
Qed.
Print Assumptions C78_chunks_refuted.

Definition sps1 : list Z := [103; 77; 64; 30; 150].
Definition pps1 : list Z := [104; 238; 60].
Definition video1 (points : zmap Z) (paths : zmap (list Z)) (cross : zmap cross) (id : Z) : sm_strm := mkSm (mkStrm (str "video") false id 0 [mkRep 500000 1280 720 (private_data sps1 pps1)] points) 0 0 [paths] cross.
Definition audio1 (points : zmap Z) (paths : zmap (list Z)) (id : Z) : sm_strm := mkSm (mkStrm (str "audio") true id 48000 [mkRep 64000 0 0 []] points) 2 16 [paths] [].
Definition three (a b c : Z) : zmap Z := [(a, 0); (b, 20000000); (c, 40000000)].
(** The numbers of quality levels do not begin at 0 in the second stream. *)
Theorem C78_index_refuted : exists text t1 t2, smooth [audio1 (three 0 20000000 40000000) [(0, str "a.mp4")] 0; video1 (three 0 20000000 40000000) [(0, str "a.mp4")] [] 1] = Some text
  /\ tags_named (str "QualityLevel") text = [t1; t2] /\ attr (str "Index") t1 = Some (str "0") /\ attr (str "Index") t2 = Some (str "1").
Proof. do 3 eexists. split; [vm_compute; reflexivity|]. split; [vm_compute; reflexivity|]. split; vm_compute; reflexivity. Qed.
Print Assumptions C78_index_refuted.
(** A chunk across two files, after moving the times: its sources are looked up at the old time, so
    the first file is named where the second one is meant. *)
Theorem C78_cross_refuted : exists l text, smooth l = Some text
  /\ l = [video1 [(-100, 0); (1000, CROSS_POINT_TIME); (2000, 0)] [(-100, str "a.mp4"); (950, str "b.mp4")] [(1000, mkcross 1000 7 1000 9)] 0]
  /\ in_force [(-100, str "a.mp4"); (950, str "b.mp4")] 1000 = str "b.mp4"
  /\ sources_said text = [(str "h", Some (str "a.mp4"), Some 0, Some 0); (str "cp", Some (str "a.mp4"), Some 7, Some 1000); (str "cp", Some (str "a.mp4"), Some 9, Some 1000)].
Proof. do 2 eexists. split; [|split; [reflexivity|]; split; [vm_compute; reflexivity|]]; [vm_compute; reflexivity|vm_compute; reflexivity]. Qed.
Print Assumptions C78_cross_refuted.
(** The path of a file is not escaped: with a quote in it another path is read. *)
Theorem C78_quote_refuted : exists l text, smooth l = Some text /\ l = [video1 (three 0 20000000 40000000) [(0, [97; 34; 98])] [] 0]
  /\ map (fun q => snd (fst (fst q))) (sources_said text) = [Some [97]; Some [97]].
Proof. do 2 eexists. split; [|split; [reflexivity|]]; [vm_compute; reflexivity|vm_compute; reflexivity]. Qed.
Print Assumptions C78_quote_refuted.
(** Private data shorter than the parameter set it announces: memory outside of it is read. *)
Theorem C78_short_refuted : forall d b0 b1 r, d = b0 :: b1 :: r -> is_byte b0 -> is_byte b1 -> zlen r < 2 + (b0 * 256 + b1) -> start_codes d = None.
Proof.
  intros d b0 b1 r -> B0 B1 L. unfold start_codes. cbv zeta. rewrite sum_lor; [|apply B0|exact B1].
  destruct (Z.leb_spec (4 + (b0 * 256 + b1)) (zlen (b0 :: b1 :: r))) as [Q|Q]; [|reflexivity]. exfalso. unfold zlen in *. cbn [length] in Q. rewrite !Nat2Z.inj_succ in Q. lia.
Qed.
Print Assumptions C78_short_refuted.

(** * the hypotheses are met *)
Definition show : list sm_strm := [audio1 (three 0 20000000 40000000) [(0, str "a.mp4"); (20000000, str "b.mp4")] 1; video1 [(0, 0); (20000000, CROSS_POINT_TIME); (40000000, 5)] [(0, str "a.mp4"); (20000000, str "b.mp4")] [(20000000, mkcross 15000000 15000000 20000000 0)] 0].
Example C78_show_ok : Forall sm_ok show.
Proof.
  assert (S2 : forall a b : Z * list Z, fst a < fst b -> sorted [a; b]) by (intros (a & x) (b & y) H; cbn [fst sorted] in *; split; [constructor; [exact H|constructor]|split; [constructor|exact Logic.I]]).
  assert (S3 : forall a b c : Z * Z, fst a < fst b -> fst b < fst c -> sorted [a; b; c]) by (intros (a & x) (b & y) (c & z) H1 H2; cbn [fst sorted] in *; split; [constructor; [exact H1|constructor; [cbn [fst]; lia|constructor]]|split; [constructor; [exact H2|constructor]|split; [constructor|exact Logic.I]]]).
  assert (PT : Forall (fun m : zmap (list Z) => m <> [] /\ sorted m /\ Forall (fun x => ~ In 34 (snd x)) m) [[(0, str "a.mp4"); (20000000, str "b.mp4")]]).
  { constructor; [|constructor]. split; [discriminate|]. split; [apply S2; cbn [fst]; lia|]. constructor; [vm_compute; intuition discriminate|constructor; [vm_compute; intuition discriminate|constructor]]. }
  constructor; [|constructor; [|constructor]].
  - split; [|split; [vm_compute; intuition discriminate|split; [split; [reflexivity|exact PT]|split; [|intros Q; discriminate Q]]]].
    + split; [repeat split; vm_compute; intuition discriminate|]. split; [split; [constructor; [intros []|constructor]|constructor; [cbn [r_rate]; lia|constructor]]|]. split; [|constructor; [constructor|constructor]].
      split; [discriminate|]. split; [apply S3; cbn [fst]; lia|]. constructor; [cbn [fst]; lia|constructor; [cbn [fst]; lia|constructor; [cbn [fst]; lia|constructor]]].
    + split; [exact Logic.I|]. split; [|constructor]. intros t I. exfalso. unfold audio1, three in I. cbn [y_strm n_points] in I. destruct I as [I|[I|[I|[]]]]; apply (f_equal snd) in I; cbn [snd] in I; discriminate I.
  - split; [|split; [vm_compute; intuition discriminate|split; [split; [reflexivity|exact PT]|split]]].
    + split; [repeat split; vm_compute; intuition discriminate|]. split; [split; [constructor; [intros []|constructor]|constructor; [cbn [r_rate]; lia|constructor]]|]. split.
      * split; [discriminate|]. split; [apply S3; cbn [fst]; lia|]. constructor; [cbn [fst]; lia|constructor; [cbn [fst]; lia|constructor; [cbn [fst]; lia|constructor]]].
      * constructor; [|constructor]. cbn [r_private]. change (private_data sps1 pps1) with [0; 5; 103; 77; 64; 30; 150; 0; 3; 104; 238; 60]. unfold bytes. repeat (constructor; [unfold is_byte; lia|]). constructor.
    + split; [split; [constructor|exact Logic.I]|]. split; [|constructor; [cbn [snd c_time c_time2]; lia|constructor]]. intros t I. cbn [video1 y_strm n_points] in I. destruct I as [I|[I|[I|[]]]].
      * exfalso. assert (Q : snd (t, CROSS_POINT_TIME) < 0) by (unfold CROSS_POINT_TIME; cbn [snd]; lia). rewrite <- I in Q. cbn [snd] in Q. lia.
      * assert (Q : t = 20000000) by congruence. subst t. eexists. left. reflexivity.
      * exfalso. assert (Q : snd (t, CROSS_POINT_TIME) < 0) by (unfold CROSS_POINT_TIME; cbn [snd]; lia). rewrite <- I in Q. cbn [snd] in Q. lia.
    + intros _. constructor; [|constructor]. exists sps1, pps1. cbn [r_private]. apply private_ok; vm_compute; reflexivity.
Qed.
Example C78_show_numbers : Permutation (map (fun y => n_id (y_strm y)) show) (map Z.of_nat (seq 0 (length show))).
Proof. apply perm_swap. Qed.
Example C78_show_names : NoDup (map (fun y => n_name (y_strm y)) show).
Proof. constructor; [vm_compute; intuition discriminate|]. constructor; [intros []|constructor]. Qed.
Example C78_show_nonneg : Forall (fun y => Forall (fun x => 0 <= fst x) (n_points (y_strm y))) show.
Proof. repeat (constructor; [repeat (constructor; [cbn [fst]; lia|]); constructor|]). constructor. Qed.
Example C78_show_urls : option_map client_urls (smooth show) = Some [str "audio_64000_0.m4a"; str "audio_64000_20000000.m4a"; str "video_500000_0.m4v"; str "video_500000_20000000.m4v"].
Proof. vm_compute. reflexivity. Qed.
Example C78_show_data : option_map (fun x => map (attr (str "CodecPrivateData")) (tags_named (str "QualityLevel") x)) (smooth show) = Some [Some []; Some (str "00000001674D401E960000000168EE3C")].
Proof. vm_compute. reflexivity. Qed.
Example C78_show_sources : option_map sources_said (smooth show) = Some
  [(str "h", Some (str "a.mp4"), Some 0, Some 0); (str "h", Some (str "b.mp4"), Some 20000000, Some 20000000); (str "h", Some (str "a.mp4"), Some 0, Some 0);
   (str "cp", Some (str "a.mp4"), Some 15000000, Some 15000000); (str "cp", Some (str "b.mp4"), Some 0, Some 20000000)].
Proof. vm_compute. reflexivity. Qed.
