(** C76: a published HLS presentation.  Playlists are read as a client reads them: lines, URIs. *)
From Coq Require Import String Permutation.
From Verif Require Import Util Dec_spec Dec_lemmas Str_model Mpd_model Mpd_proofs Points_model Points_proofs2 Hls_model Hls_proofs HlsCrypt_model HlsCrypt_proofs Pres_model Pres_proofs Pres_proofs2 Pres_proofs3 Pres_proofs4 Pres_proofs5 Pres_props HlsPres_model HlsPres_proofs HlsPres_proofs2 HlsPres_proofs3.
Local Open Scope Z_scope.

(** Any audio streams and one video stream: the playlists named in main.m3u8 are all there, and
    the segments they name are, in order, those written. *)
Theorem C76_resolves : forall key p A s, p = A ++ [s] -> Forall (fun x => n_audio x = true) A -> n_audio s = false -> n_name s = str "video" ->
  Permutation (map n_id p) (map Z.of_nat (seq 0 (length p))) -> Forall strm_ok p -> (2 <= length (n_points s))%nat ->
  Forall (fun r => r_rate r + last (map r_rate (flat_map n_reps A)) 96000 < 2 ^ 31) (n_reps s) ->
  exists files segments main texts, text_files key p = Some files /\ segment_files p = Some segments /\ NoDup (map fst files)
    /\ file_of files (str "main.m3u8") = Some main /\ map (file_of files) (uris main) = map Some texts
    /\ flat_map uris texts = map fst segments.
Proof. intros key p A s Ep FA V N H F L RS. apply (playlists_resolve key p A s); try assumption. apply numbers_zupto. exact H. Qed.
Print Assumptions C76_resolves.

(** Streams declared through the interface, one of them video: the same. *)
Theorem C76_declared : forall key l s, filter (fun x => negb (n_audio x)) l = [s] ->
  Permutation (map n_id l) (map Z.of_nat (seq 0 (length l))) -> (2 <= length (n_points s))%nat ->
  Forall (fun s => rates_ok (n_reps s) /\ points_ok (n_points s) /\ Forall (fun r => bytes (r_private r)) (n_reps s) /\ Forall (fun r => r_rate r < 2 ^ 30) (n_reps s)) l ->
  exists files segments main texts, text_files key (declare_all l) = Some files /\ segment_files (declare_all l) = Some segments /\ NoDup (map fst files)
    /\ file_of files (str "main.m3u8") = Some main /\ map (file_of files) (uris main) = map Some texts
    /\ flat_map uris texts = map fst segments.
Proof.
  intros key l s O H L F. destruct (declared_one_video l s O) as (A & s' & E & FA & V & N). destruct (declared_ok l) as (P & _ & Pl).
  assert (Back : forall x, In x (declare_all l) -> exists y, In y l /\ content y = content x).
  { intros x X. assert (I : In (content x) (map content l)) by (apply (Permutation_in _ P); apply in_map; exact X). apply in_map_iff in I. destruct I as (y & Q & I). exists y. split; assumption. }
  rewrite Forall_forall in F, Pl.
  assert (Hn : Permutation (map n_id (declare_all l)) (map Z.of_nat (seq 0 (length (declare_all l))))).
  { assert (Ln : length (declare_all l) = length l) by (apply Permutation_length in P; rewrite !map_length in P; exact P). rewrite Ln, <- H. pose proof (Permutation_map (fun c => let '(_, i, _, _, _) := c in i) P) as Q. rewrite !map_map in Q. exact Q. }
  assert (Good : Forall strm_ok (declare_all l)).
  { apply Forall_forall. intros x X. destruct (Back x X) as (y & Y & C). destruct (F y Y) as (F1 & F2 & F3 & _). assert (Q : n_reps y = n_reps x /\ n_points y = n_points x) by (unfold content in C; split; congruence). destruct Q as (Q1 & Q2). rewrite Q1 in F1, F3. rewrite Q2 in F2.
    split; [apply Pl; exact X|]. split; [exact F1|]. split; [exact F2|exact F3]. }
  assert (Rates : forall x r, In x (declare_all l) -> In r (n_reps x) -> r_rate r < 2 ^ 30).
  { intros x r X R. destruct (Back x X) as (y & Y & C). destruct (F y Y) as (_ & _ & _ & F4). assert (Q : n_reps y = n_reps x) by (unfold content in C; congruence). rewrite Q, Forall_forall in F4. apply F4. exact R. }
  assert (L' : (2 <= length (n_points s'))%nat).
  { destruct (Back s') as (y & Y & C); [rewrite E; apply in_or_app; right; left; reflexivity|]. assert (Q : n_audio y = false /\ n_points y = n_points s') by (unfold content in C; split; congruence). destruct Q as (Q1 & Q2).
    assert (X : In y [s]) by (rewrite <- O; apply filter_In; split; [exact Y|rewrite Q1; reflexivity]). destruct X as [<-|[]]. rewrite <- Q2. exact L. }
  apply (playlists_resolve key (declare_all l) A s'); try assumption; [apply numbers_zupto; exact Hn|].
  assert (LA : forall m d, d < 2 ^ 30 -> Forall (fun a => a < 2 ^ 30) m -> last m d < 2 ^ 30).
  { induction m as [|a m IH]; intros d D G; [exact D|]. destruct m as [|b m]; [exact (Forall_inv G)|exact (IH d D (Forall_inv_tail G))]. }
  assert (LB : last (map r_rate (flat_map n_reps A)) 96000 < 2 ^ 30).
  { apply LA; [lia|]. apply Forall_map. apply Forall_forall. intros r R. apply in_flat_map in R. destruct R as (x & X & R). apply (Rates x r); [rewrite E; apply in_or_app; left; exact X|exact R]. }
  apply Forall_forall. intros r R. assert (Q : r_rate r < 2 ^ 30) by (apply (Rates s' r); [rewrite E; apply in_or_app; right; left; reflexivity|exact R]). lia.
Qed.
Print Assumptions C76_declared.

(** main.m3u8 line by line: a variant for every representation, its bandwidth that of the video
    plus that of the last audio representation (96000 when there is none). *)
Theorem C76_main : forall key p A s, p = A ++ [s] -> Forall (fun x => n_audio x = true) A -> n_audio s = false -> n_name s = str "video" ->
  Permutation (map n_id p) (map Z.of_nat (seq 0 (length p))) -> Forall strm_ok p -> (2 <= length (n_points s))%nat ->
  Forall (fun r => r_rate r + last (map r_rate (flat_map n_reps A)) 96000 < 2 ^ 31) (n_reps s) ->
  exists files main, text_files key p = Some files /\ file_of files (str "main.m3u8") = Some main
    /\ text_lines [] main = [str "#EXTM3U"; str "#EXT-X-VERSION:3"]
       ++ flat_map (fun r => [str "#EXT-X-STREAM-INF:BANDWIDTH=" ++ dec (r_rate r + last (map r_rate (flat_map n_reps A)) 96000)
                                ++ str ",RESOLUTION=" ++ dec_signed (r_width r) ++ str "x" ++ dec_signed (r_height r)
                                ++ str ",CODECS=""" ++ codec_name (r_private r) ++ str ",mp4a.40.2""";
                              str "video_" ++ dec (r_rate r) ++ str ".m3u8"]) (n_reps s).
Proof.
  intros key p A s Ep FA V N H F L2 RS. destruct (written_is key p A s Ep FA V N (numbers_zupto p H) F L2 RS) as (off & pts & T & _ & _ & _ & _ & A0).
  assert (Is : In s p) by (rewrite Ep; apply in_or_app; right; left; reflexivity). rewrite Forall_forall in F. destruct (F s Is) as (_ & RO & _ & By).
  eexists. eexists. split; [exact T|]. split; [apply file_found; [apply published_nodup; exact RO|left; reflexivity]|].
  rewrite <- (app_nil_r (flat_map (fun l => l ++ [10]) _)), lines_lf; [cbn [text_lines]; rewrite app_nil_r; reflexivity|].
  apply Forall_app. split; [constructor; [split; notin|constructor; [split; notin|constructor]]|]. apply main_lines_no; [exact A0| |exact By].
  destruct RO as (_ & G). apply Forall_forall. intros r I. rewrite Forall_forall in G, RS. split; [apply G; exact I|apply RS; exact I].
Qed.
Print Assumptions C76_main.

(** * what does not hold *)
(** Encrypted segments: the number given to the cipher is one more than the number of the
    segment in its playlist (and kept in 8 bits), so with every block cipher and for every
    segment a client gets the first 16 bytes wrong. *)
Theorem C76_iv_refuted : forall E D k p A s r, block_cipher E D -> p = A ++ [s] -> Forall (fun x => n_audio x = true) A -> n_audio s = false -> n_name s = str "video" ->
  Permutation (map n_id p) (map Z.of_nat (seq 0 (length p))) -> Forall strm_ok p -> (2 <= length (n_points s))%nat ->
  n_reps s = [r] -> r_rate r + last (map r_rate (flat_map n_reps A)) 96000 < 2 ^ 31 ->
  exists files segments text, text_files (Some k) p = Some files /\ segment_files p = Some segments
    /\ file_of files (str "video_" ++ dec (r_rate r) ++ str ".m3u8") = Some text
    /\ In (str "#EXT-X-MEDIA-SEQUENCE:0") (text_lines [] text) /\ In (str "#EXT-X-KEY:METHOD=AES-128,URI=""hls3.key""") (text_lines [] text)
    /\ forall i name number, nth_error segments i = Some (name, number) ->
       nth_error (uris text) i = Some name /\ number = (Z.of_nat i + 1) mod 256
       /\ forall clear, bytes clear -> 16 <= zlen clear < 2 ^ 32 ->
          exists data wrong, encrypt_segment E clear number = Some data /\ client_segment D data (Z.of_nat i) = Some wrong
            /\ zlen wrong = zlen clear /\ firstn 16 wrong <> firstn 16 clear /\ skipn 16 wrong = skipn 16 clear.
Proof.
  intros E D k p A s r C Ep FA V N H F L2 Er RS. assert (RSf : Forall (fun r => r_rate r + last (map r_rate (flat_map n_reps A)) 96000 < 2 ^ 31) (n_reps s)) by (rewrite Er; constructor; [exact RS|constructor]).
  destruct (written_is (Some k) p A s Ep FA V N (numbers_zupto p H) F L2 RSf) as (off & pts & T & PT & PN & PO & Sg & A0).
  assert (Is : In s p) by (rewrite Ep; apply in_or_app; right; left; reflexivity). rewrite Forall_forall in F. destruct (F s Is) as (_ & RO & _ & _).
  assert (R0 : 0 <= r_rate r) by (destruct RO as (_ & G); rewrite Er in G; apply (Forall_inv G)).
  destruct pts as [|p0 ps]; [contradiction|].
  exists (published (Some k) A s (p0 :: ps)), (strm_segments (moved off s)), (flat_map (fun l => l ++ CRLF) (body_lines true (r_rate r) p0 ps)).
  split; [exact T|]. split; [exact Sg|]. split; [apply file_found; [apply published_nodup; exact RO|]; unfold published; rewrite Er; right; right; left; reflexivity|].
  pose proof (body_lines_no10 true (r_rate r) p0 ps PO R0) as N10.
  assert (TL : text_lines [] (flat_map (fun l => l ++ CRLF) (body_lines true (r_rate r) p0 ps)) = body_lines true (r_rate r) p0 ps).
  { rewrite <- (app_nil_r (flat_map _ _)), lines_crlf by exact N10. cbn [text_lines]. apply app_nil_r. }
  rewrite TL. split; [do 3 right; left; reflexivity|]. split; [do 6 right; left; reflexivity|].
  intros i name number In0. rewrite (uris_crlf _ N10), body_uris.
  assert (Es : strm_segments (moved off s) = map (fun x => (seg_name (r_rate r) (fst x), snd x)) (numbered_from 0 (map fst (p0 :: ps)))).
  { unfold strm_segments. cbn [moved n_audio n_reps]. rewrite V, Er. cbn [flat_map]. rewrite app_nil_r, PT. reflexivity. }
  rewrite Es in In0. rewrite nth_error_map in In0. destruct (nth_error (numbered_from 0 (map fst (p0 :: ps))) i) as [[t n]|] eqn:Et; [|discriminate]. cbn [option_map fst snd] in In0.
  assert (Qn : name = seg_name (r_rate r) t) by congruence. assert (Qm : number = n) by congruence. subst name n. pose proof (numbered_nth _ _ _ _ _ Et) as Nn. rewrite Z.add_0_l in Nn.
  split.
  { pose proof (numbered_fst (map fst (p0 :: ps)) 0) as Nf. assert (X : nth_error (map fst (p0 :: ps)) i = Some t) by (rewrite <- Nf, nth_error_map, Et; reflexivity).
    rewrite nth_error_map in X. rewrite nth_error_map. destruct (nth_error (p0 :: ps) i) as [q|]; [|discriminate]. cbn [option_map] in X |- *. assert (Y : fst q = t) by congruence. rewrite Y. reflexivity. }
  split; [exact Nn|]. intros clear Bc Sz. destruct (decrypted_with E D clear number (be_bytes 16 (Z.of_nat i)) C Bc Sz (be_length 16 _)) as (data & Ed & U).
  set (x := xor_bytes (iv_of number) (firstn 16 clear)) in *.
  assert (Lf : length (firstn 16 clear) = 16%nat) by (rewrite firstn_length; unfold zlen in Sz; lia).
  destruct (iv_block number) as (Liv & _). assert (Lx : length x = 16%nat) by (unfold x; rewrite xor_length; [exact Liv|rewrite Liv, Lf; reflexivity]).
  assert (Ly : length (xor_bytes (be_bytes 16 (Z.of_nat i)) x) = 16%nat) by (rewrite xor_length; [apply be_length|rewrite be_length, Lx; reflexivity]).
  exists data, (xor_bytes (be_bytes 16 (Z.of_nat i)) x ++ skipn 16 clear). split; [exact Ed|]. split; [exact U|].
  split; [unfold zlen in *; rewrite app_length, Ly, skipn_length; lia|]. split.
  - rewrite firstn_app, Ly, Nat.sub_diag, firstn_O, app_nil_r, firstn_all2 by lia. intros X.
    assert (Y : be_bytes 16 (Z.of_nat i) = iv_of number).
    { apply (xor_inj _ _ x); [rewrite be_length, Lx; reflexivity|rewrite Liv, Lx; reflexivity|]. rewrite X. unfold x. symmetry. apply xor_twice. rewrite Liv, Lf. reflexivity. }
    assert (B31 : 0 <= number < 2 ^ 31) by (rewrite Nn; pose proof (Z.mod_pos_bound (Z.of_nat i + 1) 256 ltac:(lia)); lia).
    rewrite (iv_be number B31) in Y. change (be_bytes 16 (Z.of_nat i)) with (be_bytes 15 (Z.of_nat i / 256) ++ [Z.of_nat i mod 256]) in Y. change (be_bytes 16 number) with (be_bytes 15 (number / 256) ++ [number mod 256]) in Y.
    apply app_inj_tail in Y. destruct Y as (_ & Y). rewrite Nn in Y. rewrite Z.mod_mod in Y by lia. pose proof (Z.div_mod (Z.of_nat i) 256 ltac:(lia)). pose proof (Z.div_mod (Z.of_nat i + 1) 256 ltac:(lia)). lia.
  - rewrite skipn_app, Ly, Nat.sub_diag, skipn_all2 by lia. reflexivity.
Qed.
Print Assumptions C76_iv_refuted.

(** Audio only: main.m3u8 names nothing, and nothing else is written. *)
Theorem C76_audio_refuted : forall p, p <> [] -> Permutation (map n_id p) (map Z.of_nat (seq 0 (length p))) -> Forall strm_ok p -> Forall (fun x => n_audio x = true) p ->
  exists main, text_files None p = Some [(str "main.m3u8", main)] /\ uris main = [] /\ segment_files p = Some [].
Proof.
  intros p NE H0 F FA. pose proof (numbers_zupto p H0) as H. destruct (manifest_is [] [] p (Forall_nil _) (Forall_nil _) NE H F) as (off & _ & _ & _ & _ & _ & E & _ & _ & _ & R & _ & _ & O).
  assert (FA' : Forall (fun x => n_audio x = true) (map (moved off) p)) by (apply Forall_map; exact FA). destruct (audio_calls _ R FA') as (l & El & Cl).
  assert (B0 : exists s0, by_id (map (moved off) p) 0 = Some s0).
  { assert (X : In 0 (map n_id p)) by (apply (Permutation_in _ (Permutation_sym H)); destruct p; [contradiction|left; reflexivity]). apply in_map_iff in X. destruct X as (s' & E0 & I). exists (moved off s'). rewrite <- E0. change (n_id s') with (n_id (moved off s')).
    apply by_id_found; [|apply in_map; exact I]. rewrite map_map. cbn [moved n_id]. apply (Permutation_NoDup (Permutation_sym H)). apply zupto_nodup. }
  destruct B0 as (s0 & B0). exists (o_text root0).
  assert (Er : root_of (map (moved off) p) = mkRoot (last (map r_rate (flat_map n_reps (map (moved off) p))) 96000) (str "video") (o_text root0) [] []).
  { unfold root_of. rewrite root_audio_strms; [reflexivity|]. apply Forall_map. apply Forall_forall. intros x X. rewrite Forall_forall in FA, F. cbn [moved n_audio n_reps]. split; [apply FA; exact X|apply (F x X)]. }
  split; [|split; [reflexivity|]].
  - unfold text_files. rewrite E. unfold hls_of. rewrite B0, El. cbn [option_map]. rewrite Er. reflexivity.
  - unfold segment_files. rewrite E. assert (H' : Permutation (map n_id (map (moved off) p)) (zupto 0 (length (map (moved off) p)))) by (rewrite map_map, map_length; exact H).
    destruct (in_turn_perm _ H') as (q & Eq & Pq). rewrite Eq. cbn [option_map]. f_equal.
    assert (Fq : Forall (fun x => n_audio x = true) q) by (apply Forall_forall; intros x X; rewrite Forall_forall in FA'; apply FA'; apply (Permutation_in _ Pq); exact X).
    clear - Fq. induction Fq as [|x q X F IH]; [reflexivity|]. cbn [flat_map]. rewrite IH. unfold strm_segments. rewrite X. reflexivity.
Qed.
Print Assumptions C76_audio_refuted.

(** Two video streams: the second one's segments are named after it in the playlists but written
    as the first one's. *)
Definition videos : list strm := [mkStrm [] false 0 0 [mkRep 500000 640 360 avc1] points3; mkStrm [] false 1 0 [mkRep 900000 640 360 avc1] points3].
Theorem C76_two_videos_refuted : exists files segments text, text_files None (declare_all videos) = Some files /\ segment_files (declare_all videos) = Some segments
  /\ file_of files (str "video1_900000.m3u8") = Some text
  /\ In (str "video1_900000_0.ts") (uris text) /\ ~ In (str "video1_900000_0.ts") (map fst segments) /\ ~ In (str "video_900000.m3u8") (map fst files).
Proof.
  do 3 eexists. split; [vm_compute; reflexivity|]. split; [vm_compute; reflexivity|]. split; [vm_compute; reflexivity|]. split; [vm_compute; tauto|]. split; vm_compute; intuition discriminate.
Qed.
Print Assumptions C76_two_videos_refuted.

(** * the hypotheses are met *)
Example C76_two_segments : option_map (map fst) (segment_files (declare_all two)) = Some
  [str "video_500000_0.ts"; str "video_500000_20400000.ts"; str "video_900000_0.ts"; str "video_900000_20400000.ts"].
Proof. vm_compute. reflexivity. Qed.
Example C76_two_playlists : option_map (map fst) (text_files (Some (repeat 7 16)) (declare_all two)) = Some [str "main.m3u8"; str "hls3.key"; str "video_500000.m3u8"; str "video_900000.m3u8"].
Proof. vm_compute. reflexivity. Qed.
Example C76_two_shape : exists A s, declare_all two = A ++ [s] /\ Forall (fun x => n_audio x = true) A /\ n_audio s = false /\ n_name s = str "video" /\ (2 <= length (n_points s))%nat.
Proof. exists [mkStrm (str "audio") true 0 48000 [mkRep 64000 0 0 []] points3]. eexists. split; [reflexivity|]. split; [constructor; [reflexivity|constructor]|]. split; [reflexivity|]. split; [reflexivity|]. cbn. lia. Qed.
Example C76_cipher : block_cipher (fun b => b) (fun b => b).
Proof. intros b B. split; [exact B|reflexivity]. Qed.
