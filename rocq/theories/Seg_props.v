(** C58, C59: segments of a transport stream *)
From Coq Require Import ZifyNat.
From Verif Require Import Util Bits_spec SampleTab_model SampleTab_proofs Box_model Box_proofs TsTime_model Ts_model Es_model Es_proofs Es_proofs2 Ts_proofs Ts_proofs2 Crc_model TsSect_model TsDemux_model TsDemux_proofs Es_props TsDemux_props Seg_model Seg_proofs Seg_proofs2 Seg_proofs3 Seg_proofs4 Seg_proofs5.
Local Open Scope Z_scope.

(** * C58: the samples of a segment come back *)
Theorem C58_video : forall align g continuity l fill i sps pps, segment_ok g l -> 0 <= continuity < 256 -> nth_error (g_streams g) i = Some (SVideo sps pps) ->
  Forall (short_video sps pps) (calls_of i l) ->
  exists b, segment g continuity l fill = Some b /\ video_samples v0 (stream_events align i b) = Some (map (video_back g) (calls_of i l)).
Proof. exact video_short. Qed.
Print Assumptions C58_video.
Theorem C58_audio : forall align g continuity l fill i object rate chan, segment_ok g l -> 0 <= continuity < 256 -> nth_error (g_streams g) i = Some (SAudio object rate chan) ->
  exists b, segment g continuity l fill = Some b /\ audio_samples (stream_events align i b) = Some (map (audio_back g object rate chan) (calls_of i l)).
Proof. exact audio_all. Qed.
Print Assumptions C58_audio.
(** with large samples among them: still all, with their times, if the last one is not *)
Theorem C58_large : forall align g continuity l fill i sps pps cs c, segment_ok g l -> 0 <= continuity < 256 -> nth_error (g_streams g) i = Some (SVideo sps pps) ->
  calls_of i l = cs ++ [c] -> short_video sps pps c ->
  exists b ss, segment g continuity l fill = Some b /\ video_samples v0 (stream_events align i b) = Some ss /\ Forall2 same_times ss (map (video_back g) (calls_of i l)).
Proof. exact video_all. Qed.
Print Assumptions C58_large.
(** Refuted: the last sample, if large, is lost *)
Theorem C58_last_large_refuted : forall align g continuity l fill i sps pps cs c, segment_ok g l -> 0 <= continuity < 256 -> nth_error (g_streams g) i = Some (SVideo sps pps) ->
  calls_of i l = cs ++ [c] -> long_video sps pps c ->
  exists b ss, segment g continuity l fill = Some b /\ video_samples v0 (stream_events align i b) = Some ss /\ Forall2 same_times ss (map (video_back g) cs).
Proof. exact video_lost. Qed.
Print Assumptions C58_last_large_refuted.
(** Refuted: after a large key frame the next sample is taken for one, whatever it is *)
Theorem C58_large_keys_refuted : forall align g continuity l fill i sps pps c1 c2 cs ss, segment_ok g l -> 0 <= continuity < 256 -> nth_error (g_streams g) i = Some (SVideo sps pps) ->
  calls_of i l = c1 :: c2 :: cs -> long_video sps pps c1 -> short_video sps pps c2 ->
  exists b, segment g continuity l fill = Some b /\ (video_samples v0 (stream_events align i b) = Some ss -> exists s1 s2 rest, ss = s1 :: s2 :: rest /\ s_key s2 = true).
Proof.
  intros align g cont l fill i sps pps c1 c2 cs ss OK C N EC LV SV. destruct (seg_run g cont l fill OK C) as (b & E & units & T & U). exists b. split; [exact E|]. destruct (U i _ N) as (I & SU & R). pose proof (unit_decl g l i sps pps OK N) as UD. pose proof OK as (_ & _ & _ & ST & _).
  pose proof (ST i _ N) as K. cbv beta iota in K. rewrite EC in SU, UD, K. cbn [map] in SU. inversion SU as [|? [u ps] ? us1 (A1 & A2 & A3) SU1 Q1 Q2]. inversion SU1 as [|? [v qs] ? us2 (B1 & B2 & B3) SU2 Q3 Q4]. subst us1. cbn [fst snd] in *.
  destruct (UD c1 (or_introl eq_refl)) as (N1 & OK1 & _ & O1). destruct (UD c2 (or_intror (or_introl eq_refl))) as (N2 & OK2 & D2 & _). pose proof OK as (SO & _). pose proof (strm_at g i _ SO N) as S0.
  destruct (video_cu g c1 sps pps N1 S0 OK1) as (us & _ & _ & Q & _). rewrite Q in A3. unfold video_unit in A3. cbn [fst snd] in A3. rewrite (proj1 K) in A3.
  destruct (first_indicator ps) as [r|] eqn:FI; [|discriminate A3].
  destruct (C57_after_open_refuted align _ _ _ _ _ _ u ps v qs us2 r T I R (eq_sym Q2)) as (e1 & e2 & rest & EV & H1 & H2); [rewrite A1; auto|rewrite B1; auto|exact FI|].
  unfold stream_events. rewrite EV. destruct H1 as (h1 & -> & _). destruct H2 as (h2 & -> & _). cbn [video_samples]. destruct (read_access_unit v0 (u_body u)) as [s1 x1| |]; try discriminate. destruct (read_access_unit s1 (u_body v)) as [s2 x2| |]; try discriminate.
  destruct (video_samples s2 rest) as [ss'|]; [|discriminate]. cbn [option_map]. intros Q9. injection Q9 as <-. eexists _, _, _. split; [reflexivity|]. exact A3.
Qed.
Print Assumptions C58_large_keys_refuted.
(** Refuted: all streams are announced.  An empty stream (time codes) takes the place of a later
    one in the table, with whatever was in its memory, and the last stream is not announced. *)
Theorem C58_gap_refuted : forall g a b, g_streams g = a ++ SEmpty :: b -> Forall (fun s => s <> SEmpty) (a ++ b) -> b <> [] -> snd (g_junk g (length a)) <> seg_pid (length a + length b) ->
  ~ In (seg_pid (length a + length b)) (map snd (pmt_entries g)) /\ In (g_junk g (length a)) (pmt_entries g).
Proof.
  intros g a b E F NE J. unfold pmt_entries. rewrite E. apply Forall_app in F as [FA FB].
  assert (KA : filter carried a = a) by (apply filter_every; eapply Forall_impl; [|exact FA]; intros [] Q; try reflexivity; congruence).
  assert (KB : filter carried b = b) by (apply filter_every; eapply Forall_impl; [|exact FB]; intros [] Q; try reflexivity; congruence).
  rewrite filter_app. cbn [filter carried]. rewrite KA, KB, app_length.
  assert (SA : forall l m i, pmt_slots (g_junk g) i (l ++ m) = pmt_slots (g_junk g) i l ++ pmt_slots (g_junk g) (i + length l) m).
  { induction l as [|s l IH]; intros m i; cbn [app pmt_slots length]; [rewrite Nat.add_0_r; reflexivity|]. rewrite IH. replace (i + S (length l))%nat with (S i + length l)%nat by lia. reflexivity. }
  rewrite SA. cbn [Nat.add pmt_slots pmt_slot]. rewrite firstn_app, slots_length. replace (length a + length b - length a)%nat with (length b) by lia. rewrite (firstn_all2 (pmt_slots (g_junk g) 0 a)) by (rewrite slots_length; lia).
  destruct b as [|s0 b0]; [congruence|]. cbn [length firstn]. destruct (exists_last NE) as (b & s & EB). assert (LB : length b0 = length b) by (clear - EB; apply (f_equal (@length strm)) in EB; rewrite app_length in EB; cbn [length] in EB; lia). rewrite EB in *.
  rewrite SA, firstn_app, slots_length, LB, Nat.sub_diag, firstn_O, app_nil_r, (firstn_all2 (pmt_slots (g_junk g) _ b)) by (rewrite slots_length; lia). split; [|apply in_or_app; right; left; reflexivity].
  rewrite map_app. intros H. apply in_app_or in H. cbn [map In length] in *.
  assert (R : forall l i q, Forall (fun s => s <> SEmpty) l -> In q (map snd (pmt_slots (g_junk g) i l)) -> q < seg_pid (i + length l)).
  { clear. induction l as [|s l IH]; intros i q FL H; [destruct H|]. inversion FL; subst. cbn [pmt_slots map In length] in *. destruct H as [<-|H]; [destruct s; cbn [pmt_slot snd]; unfold seg_pid; try lia; congruence|]. apply IH in H; [|assumption]. unfold seg_pid in *. lia. }
  rewrite app_length in *. cbn [length] in *. destruct H as [H|[H|H]]; [apply (R a 0%nat) in H; [unfold seg_pid in H; lia|exact FA]|apply J; rewrite H; unfold seg_pid; f_equal; f_equal; lia|apply (R b) in H; [unfold seg_pid in H; lia|apply Forall_app in FB; apply FB]].
Qed.
Print Assumptions C58_gap_refuted.

(** HLSMux: the first sample of the segment is moved to the time the segment is given, and all
    other samples, of all streams, by the same *)
Theorem C58_hls_video : forall align g continuity base c l fill i sps pps, 0 <= base < 2 ^ 63 - 1 -> 0 <= c_comp c < 2 ^ 63 ->
  let l' := map (moved (base - c_comp c)) (c :: l) in
  segment_ok g l' -> 0 <= continuity < 256 -> nth_error (g_streams g) i = Some (SVideo sps pps) -> Forall (short_video sps pps) (calls_of i l') ->
  exists b, segment g continuity (hls_calls (hls_start (Some base)) (c :: l)) fill = Some b /\ video_samples v0 (stream_events align i b) = Some (map (video_back g) (calls_of i l')).
Proof. intros align g cont base c l fill i sps pps B0 C0 l' OK C N SV. rewrite (segment_eqm g cont _ l' fill (hls_all base c l B0 C0)). apply video_short with (sps := sps) (pps := pps); assumption. Qed.
Print Assumptions C58_hls_video.
Theorem C58_hls_audio : forall align g continuity base c l fill i object rate chan, 0 <= base < 2 ^ 63 - 1 -> 0 <= c_comp c < 2 ^ 63 ->
  let l' := map (moved (base - c_comp c)) (c :: l) in
  segment_ok g l' -> 0 <= continuity < 256 -> nth_error (g_streams g) i = Some (SAudio object rate chan) ->
  exists b, segment g continuity (hls_calls (hls_start (Some base)) (c :: l)) fill = Some b /\ audio_samples (stream_events align i b) = Some (map (audio_back g object rate chan) (calls_of i l')).
Proof. intros align g cont base c l fill i object rate chan B0 C0 l' OK C N. rewrite (segment_eqm g cont _ l' fill (hls_all base c l B0 C0)). apply audio_all; assumption. Qed.
Print Assumptions C58_hls_audio.
(** without a time for the segment the times are kept *)
Theorem C58_hls_unset : forall g continuity l fill, segment g continuity (hls_calls (hls_start None) l) fill = segment g continuity l fill.
Proof. intros. apply segment_eqm, hls_unset. Qed.
Print Assumptions C58_hls_unset.
(** Refuted: the decoding time stays before the composition time.  When the decoding times begin
    more before the composition times than the segment after 0 (as in any first segment with B
    frames), the first decoding time given on wraps around. *)
Theorem C58_hls_wrap_refuted : forall base c l, 0 <= base < 2 ^ 63 - 1 -> 0 <= c_comp c < 2 ^ 63 -> 0 <= c_dec c -> base < c_comp c - c_dec c ->
  exists c' rest, hls_calls (hls_start (Some base)) (c :: l) = c' :: rest /\ c_comp c' = base /\ c_dec c' = 2 ^ 64 + base - (c_comp c - c_dec c) /\ c_comp c' < c_dec c'.
Proof.
  intros base c l B0 C0 D0 W. pose proof (hls_all base c l B0 C0) as F. cbn [hls_calls hls_start hls_call h_offset h_base] in *. unfold hls_call in *. cbn [h_offset h_base] in *. rewrite Z.eqb_refl in *. eexists _, _. split; [reflexivity|]. cbn [h_offset c_comp c_dec].
  inversion F as [|? ? ? ? (_ & _ & _ & X & Y) _]; subst. unfold moved in X, Y. cbn [h_offset h_base c_comp c_dec] in X, Y. rewrite u64_idem in X, Y. rewrite X, Y. unfold u64. replace (c_comp c + (base - c_comp c)) with base by lia. rewrite Z.mod_small by lia.
  replace (c_dec c + (base - c_comp c)) with (2 ^ 64 + base - (c_comp c - c_dec c) + (-1) * 2 ^ 64) by lia. rewrite Z.mod_add by lia. rewrite Z.mod_small by lia. split; [reflexivity|]. split; [reflexivity|]. lia.
Qed.
Print Assumptions C58_hls_wrap_refuted.

(** * C59: continuity counters *)
(** in a segment, the packets of each PID count without gap *)
Theorem C59_segment : forall g continuity l fill, segment_ok g l -> 0 <= continuity < 256 ->
  exists ps, segment g continuity l fill = Some (concat ps) /\ Forall (fun p => length p = 188%nat) ps /\ forall pid, successive (counters pid ps).
Proof. intros g cont l fill OK C. destruct (segment_goes g cont l fill OK C) as (ps & cc & E & L & G & _). exists ps. split; [exact E|]. split; [exact L|]. intros pid. exact (goes_successive _ _ _ pid G). Qed.
Print Assumptions C59_segment.
(** and in segments one after the other, filled up, numbered on as the tool does it (an 8 bit
    number), with their tables at the beginning: of whatever streams and samples *)
Theorem C59_segments : forall ss bs n, 0 <= n -> Forall (fun x => segment_ok (fst x) (snd x) /\ g_once (fst x) = true) ss ->
  Forall2 (fun kx b => segment (fst (snd kx)) ((n + Z.of_nat (fst kx)) mod 256) (snd (snd kx)) true = Some b) (combine (seq 0 (length ss)) ss) bs ->
  exists ps, concat bs = concat ps /\ Forall (fun p => length p = 188%nat) ps /\ forall pid, successive (counters pid ps).
Proof. intros ss bs n N F H. destruct (segments_goes ss bs n F N H) as (ps & cc & E & L & G). exists ps. split; [exact E|]. split; [exact L|]. intros pid. exact (goes_successive _ _ _ pid G). Qed.
Print Assumptions C59_segments.

(** * Examples *)
Definition ex_pic (t : Z) (n : nat) : list Z := t :: repeat 9 n.
Lemma ex_pic_ok : forall t n, 0 < t < 256 -> Z.of_nat n < 2 ^ 31 -> is_nal (ex_pic t n).
Proof.
  intros t n T N. split; [discriminate|]. split; [constructor; [unfold is_byte; lia|apply Forall_forall; intros x Hx; apply repeat_spec in Hx; subst; unfold is_byte; lia]|]. split.
  - intros a b E. assert (I : In 0 (ex_pic t n)) by (rewrite E; apply in_or_app; right; left; reflexivity). destruct I as [I|I]; [lia|]. apply repeat_spec in I. discriminate I.
  - unfold zlen, ex_pic. cbn [length]. rewrite repeat_length. lia.
Qed.
Definition ex_config (ss : list strm) := mkG ss true 2000000 0 0 3 7 (fun _ => (0, 0)).
Definition ex_av := ex_config [SVideo ex_sps ex_pps; SAudio 2 44100 2].
Definition ex_key_call := mkCall 0 (avcc [ex_sei; ex_pic 0x65 200]) true 800000 400000.
Definition ex_p_call := mkCall 0 (avcc [ex_pic 0x41 3]) false 1200000 800000.
Definition ex_audio_call := mkCall 1 (repeat 7 50) true 600000 600000.
Definition ex_calls := [ex_key_call; ex_audio_call; ex_p_call].
Lemma ex_pics : forall t n, t = 0x65 \/ t = 0x41 -> Z.of_nat n < 2 ^ 31 -> is_nal (ex_pic t n) /\ ~ In (nal_type (ex_pic t n)) [7; 8; 9].
Proof. intros t n T N. split; [apply ex_pic_ok; lia|]. assert (E : nal_type (ex_pic t n) = t mod 32) by (destruct T as [-> | ->]; reflexivity). rewrite E. destruct T as [-> | ->]; cbn; lia. Qed.
Lemma ex_sei_ok : is_nal ex_sei /\ ~ In (nal_type ex_sei) [7; 8; 9]. Proof. split; [apply C55_nonvacuous|]. cbn. lia. Qed.
Lemma ex_video_strm : strm_ok (SVideo ex_sps ex_pps). Proof. destruct C55_nonvacuous as (A & B & _ & _ & _ & C & D & _). split; [exact A|]. split; [exact B|]. split; [exact C|exact D]. Qed.
Lemma ex_audio_strm : strm_ok (SAudio 2 44100 2). Proof. cbn. lia. Qed.
Lemma ex_fits : forall t, 0 <= t < 2 ^ 60 -> fits t. Proof. intros t H. split; [lia|]. assert (t / 10000 <= 2 ^ 60 / 10000) by (apply Z.div_le_mono; lia). change (2 ^ 60 / 10000) with 115292150460684 in *. lia. Qed.
Lemma ex_call_ok : forall g, g_streams g = [SVideo ex_sps ex_pps; SAudio 2 44100 2] -> g_present g = 2000000 -> g_decode g = 0 -> forall d, 0 <= 400000 + d < 2 ^ 40 -> Forall (call_ok g) (map (moved d) ex_calls).
Proof.
  intros g G P D d B. constructor; [|constructor; [|constructor; [|constructor]]]; unfold call_ok; rewrite G; cbn [moved c_stream c_body c_key c_comp c_dec ex_key_call ex_audio_call ex_p_call nth_error]; rewrite ?P, ?D.
  - split; [exists [ex_sei; ex_pic 0x65 200]; split; [reflexivity|constructor; [exact ex_sei_ok|constructor; [apply ex_pics; [auto|reflexivity]|constructor]]]|]. split; [intros _; vm_compute; discriminate|]. split; [left; vm_compute; discriminate|]. split; apply ex_fits; lia.
  - split; [split; [apply Forall_forall; intros x Hx; apply repeat_spec in Hx; subst; unfold is_byte; lia|vm_compute; split; congruence]|]. split; [intros _; vm_compute; discriminate|]. apply ex_fits; lia.
  - split; [exists [ex_pic 0x41 3]; split; [reflexivity|constructor; [apply ex_pics; [auto|reflexivity]|constructor]]|]. split; [discriminate|]. split; [left; vm_compute; discriminate|]. split; apply ex_fits; lia.
Qed.
Lemma ex_segment_ok : forall d, 0 <= 400000 + d < 2 ^ 40 -> segment_ok ex_av (map (moved d) ex_calls).
Proof.
  intros d B. split; [constructor; [exact ex_video_strm|constructor; [exact ex_audio_strm|constructor]]|]. split; [cbn; lia|]. split; [apply ex_call_ok; try reflexivity; exact B|]. split; [|discriminate].
  intros [|[|[|i]]] s N; try discriminate N; injection N as <-; cbv beta iota; [split; [reflexivity|vm_compute; discriminate]|vm_compute; discriminate].
Qed.
Lemma ex_moved_0 : map (moved 0) ex_calls = ex_calls. Proof. reflexivity. Qed.
Example C58_nonvacuous : segment_ok ex_av ex_calls /\ Forall (short_video ex_sps ex_pps) (calls_of 0 ex_calls) /\
  exists b, segment ex_av 5 ex_calls true = Some b /\ video_samples v0 (stream_events 0 0 b) = Some [mkSample (c_body ex_key_call) true (Some 2800000) (Some 400000); mkSample (c_body ex_p_call) false (Some 3200000) (Some 800000)]
    /\ audio_samples (stream_events 0 1 b) = Some [(2, 44100, 2, mkSample (repeat 7 50) true (Some 2600000) (Some 2600000))].
Proof.
  split; [rewrite <- ex_moved_0; apply ex_segment_ok; lia|]. split; [constructor; [vm_compute; discriminate|constructor; [vm_compute; discriminate|constructor]]|]. eexists. split; [vm_compute; reflexivity|]. split; vm_compute; reflexivity.
Qed.
(** the same samples in a segment of HLS at 10 seconds *)
Example C58_hls_nonvacuous : segment_ok ex_av (map (moved (100000000 - c_comp ex_key_call)) ex_calls) /\
  exists b, segment ex_av 5 (hls_calls (hls_start (Some 100000000)) ex_calls) true = Some b /\ video_samples v0 (stream_events 0 0 b) = Some [mkSample (c_body ex_key_call) true (Some 102000000) (Some 99600000); mkSample (c_body ex_p_call) false (Some 102400000) (Some 100000000)]
    /\ audio_samples (stream_events 0 1 b) = Some [(2, 44100, 2, mkSample (repeat 7 50) true (Some 101800000) (Some 101800000))].
Proof. split; [apply ex_segment_ok; cbn; lia|]. eexists. split; [vm_compute; reflexivity|]. split; vm_compute; reflexivity. Qed.
Example C58_hls_wrap_nonvacuous : c_dec (hd ex_p_call (hls_calls (hls_start (Some 0)) ex_calls)) = 2 ^ 64 - 400000. Proof. reflexivity. Qed.
(** large samples *)
Definition ex_big_call := mkCall 0 (avcc [ex_pic 0x65 70000]) true 800000 400000.
Lemma ex_big_ok : forall l, (l = [ex_big_call; ex_p_call] \/ l = [ex_big_call; ex_p_call; ex_big_call]) -> segment_ok (ex_config [SVideo ex_sps ex_pps]) l.
Proof.
  intros l L. set (g := ex_config [SVideo ex_sps ex_pps]).
  assert (B : call_ok g ex_big_call).
  { unfold call_ok. cbn [g ex_config g_streams ex_big_call c_stream nth_error c_body c_key c_comp c_dec g_present g_decode]. split; [exists [ex_pic 0x65 70000]; split; [reflexivity|constructor; [apply ex_pics; [auto|reflexivity]|constructor]]|]. assert (LB : video_bytes ex_sps ex_pps ex_big_call = 70027) by (vm_compute; reflexivity).
    fold ex_big_call. change (video_bytes ex_sps ex_pps _) with (video_bytes ex_sps ex_pps ex_big_call). unfold short_video, long_video. change (mkCall 0 (avcc [ex_pic 0x65 70000]) true 800000 400000) with ex_big_call. rewrite LB. split; [intros _; discriminate|]. split; [right; lia|]. split; apply ex_fits; lia. }
  assert (P : call_ok g ex_p_call).
  { unfold call_ok. cbn [g ex_config g_streams ex_p_call c_stream nth_error c_body c_key c_comp c_dec g_present g_decode]. split; [exists [ex_pic 0x41 3]; split; [reflexivity|constructor; [apply ex_pics; [auto|reflexivity]|constructor]]|]. split; [discriminate|]. split; [left; vm_compute; discriminate|]. split; apply ex_fits; lia. }
  split; [constructor; [exact ex_video_strm|constructor]|]. split; [cbn; lia|]. split; [destruct L as [-> | ->]; repeat (apply Forall_cons; [assumption|]); constructor|]. split; [|destruct L as [-> | ->]; discriminate].
  intros [|[|i]] s N; try discriminate N; injection N as <-; destruct L as [-> | ->]; cbv beta iota; split; try reflexivity; vm_compute; discriminate.
Qed.
Example C58_large_nonvacuous : segment_ok (ex_config [SVideo ex_sps ex_pps]) [ex_big_call; ex_p_call] /\ segment_ok (ex_config [SVideo ex_sps ex_pps]) [ex_big_call; ex_p_call; ex_big_call] /\ long_video ex_sps ex_pps ex_big_call /\ short_video ex_sps ex_pps ex_p_call /\ c_key ex_p_call = false.
Proof. split; [apply ex_big_ok; auto|]. split; [apply ex_big_ok; auto|]. split; [vm_compute; discriminate|]. split; [vm_compute; discriminate|reflexivity]. Qed.
(** an empty stream between video and audio: the audio is not read back *)
Definition ex_gap := ex_config [SVideo ex_sps ex_pps; SEmpty; SAudio 2 44100 2].
Example C58_gap_nonvacuous : exists b, segment ex_gap 5 [ex_key_call; mkCall 2 (repeat 7 50) true 600000 600000; ex_p_call] true = Some b /\ audio_samples (stream_events 0 2 b) = Some [] /\ map snd (pmt_entries ex_gap) = [256; 0].
Proof. eexists. split; [vm_compute; reflexivity|]. split; vm_compute; reflexivity. Qed.
(** two segments *)
Example C59_nonvacuous : exists a b, segment ex_av 5 ex_calls true = Some a /\ segment ex_av 6 (hls_calls (hls_start (Some 100000000)) ex_calls) true = Some b
  /\ map t_pid (get_packets 100 (a ++ b)) = [0; 4096] ++ repeat 256 2 ++ [257] ++ [256] ++ repeat 256 13 ++ repeat 257 15 ++ [0; 4096] ++ repeat 256 2 ++ [257] ++ [256] ++ repeat 256 13 ++ repeat 257 15.
Proof. eexists _, _. split; [vm_compute; reflexivity|]. split; [vm_compute; reflexivity|]. vm_compute. reflexivity. Qed.
