(** C52: levelling the start of the streams.  Statements only; see Level_model for the vocabulary. *)
From Verif Require Import Util SampleTab_model Box_model Frag_model TimeTab_model TimeTab_proofs2 Level_model Level_proofs.
Local Open Scope Z_scope.

(** After levelling, with an edit list or in the composition offsets alike, a sample of
    composition time c is presented at c minus the decoding start of its stream, or that of the
    stream which starts first if that is earlier, plus the greatest composition offset; the
    samples are untouched. *)
Theorem C52_exact : forall us l, l <> [] -> Forall ready l -> exists l', level_start_time us l = Some l' /\ length l' = length l
  /\ exists s0 m, starts_first s0 l /\ greatest_ctts m l
  /\ forall i s s', nth_error l i = Some s -> nth_error l' i = Some s' -> l_samples s' = l_samples s
     /\ forall c, presented s' c = c - Z.min (first_dec s) (first_dec s0) + m.
Proof. exact level_exact. Qed.
Print Assumptions C52_exact.
(** Streams are in sync: when none is decoded from before the decoding start of the stream which
    starts first, one shift for all samples of all streams leads from composition time to
    presentation. *)
Theorem C52_sync : forall us l, l <> [] -> Forall ready l -> (forall s s0, starts_first s0 l -> In s l -> first_dec s0 <= first_dec s) ->
  exists l' shift, level_start_time us l = Some l' /\ length l' = length l
  /\ forall i s s', nth_error l i = Some s -> nth_error l' i = Some s' -> l_samples s' = l_samples s /\ forall c, presented s' c = c + shift.
Proof.
  intros us l N R H. destruct (level_exact us l N R) as (l' & E & L & s0 & m & S0 & G & P). exists l', (m - first_dec s0). split; [exact E|]. split; [exact L|].
  intros i s s' I I'. destruct (P i s s' I I') as (P1 & P2). split; [exact P1|]. intros c. rewrite P2. specialize (H s s0 S0 (nth_error_In _ _ I)). lia.
Qed.
Print Assumptions C52_sync.
Example C52_sync_nonvacuous : let l := [mkL [(1000, 900); (1400, 1300)] 0 0; mkL [(1050, 1050); (1250, 1250)] 200 0] in
  Forall ready l /\ (forall s s0, starts_first s0 l -> In s l -> first_dec s0 <= first_dec s)
  /\ level_start_time false l = Some [mkL [(1000, 900); (1400, 1300)] 200 0; mkL [(1050, 1050); (1250, 1250)] 350 0]
  /\ level_start_time true l = Some [mkL [(1000, 900); (1400, 1300)] 0 200; mkL [(1050, 1050); (1250, 1250)] 200 150].
Proof.
  split; [|split; [|split; reflexivity]].
  - apply Forall_cons; [|apply Forall_cons; [|apply Forall_nil]]; unfold ready; cbn [l_offset l_ctts l_samples]; lia.
  - intros s s0 (I0 & F) I. specialize (F _ (or_introl eq_refl)). destruct I0 as [<-|[<-|[]]]; [|unfold first_comp in F; cbn [l_samples hd fst] in F; lia].
    destruct I as [<-|[<-|[]]]; unfold first_dec; cbn [l_samples hd snd]; lia.
Qed.
(** Refuted otherwise: a stream decoded from [e] before the decoding start of the one which is
    presented first is presented [e] too late against it, for any [e]. *)
Theorem C52_sync_refuted : forall us d e k, 0 < e -> e <= d -> 0 < k -> d + k < 2 ^ 62 ->
  let audio := mkL [(d, d)] 0 0 in let video := mkL [(d + k, d - e)] 0 0 in
  exists a v, level_start_time us [audio; video] = Some [a; v] /\ forall c, presented v c = presented a c + e.
Proof.
  intros us d e k He Hd Hk B audio video.
  assert (R : Forall ready [audio; video]).
  { apply Forall_cons; [|apply Forall_cons; [|apply Forall_nil]]; unfold ready, audio, video; cbn [l_offset l_ctts l_samples]; lia. }
  destruct (level_exact us [audio; video] ltac:(discriminate) R) as (l' & E & L & s0 & m & (S0 & S1) & G & P).
  destruct l' as [|a [|v [|? ?]]]; try discriminate L. exists a, v. split; [exact E|]. intros c.
  destruct (P 0%nat audio a eq_refl eq_refl) as (_ & Pa). destruct (P 1%nat video v eq_refl eq_refl) as (_ & Pv). rewrite Pa, Pv.
  change (first_dec audio) with d. change (first_dec video) with (d - e).
  destruct S0 as [<-|[<-|[]]]; [change (first_dec audio) with d; lia|].
  specialize (S1 audio (or_introl eq_refl)). change (first_comp video) with (d + k) in S1. change (first_comp audio) with d in S1. lia.
Qed.
Print Assumptions C52_sync_refuted.
Example C52_sync_refuted_nonvacuous : level_start_time true [mkL [(1000, 1000)] 0 0; mkL [(1800, 600)] 0 0] = Some [mkL [(1000, 1000)] 0 0; mkL [(1800, 600)] 0 0].
Proof. reflexivity. Qed.
(** Nothing is presented before the start of the movie, nor before it is decoded: with
    composition offsets that make every sample presented no earlier than decoded before. *)
Theorem C52_causal : forall us l l' i s s' c d, l <> [] -> Forall ready l -> level_start_time us l = Some l' -> nth_error l i = Some s -> nth_error l' i = Some s' ->
  In (c, d) (l_samples s) -> d <= c + l_ctts s -> first_dec s <= d -> 0 <= d - first_dec s <= presented s' c.
Proof.
  intros us l l' i s s' c d N R E I I' H1 H2 H3. destruct (level_exact us l N R) as (l2 & E2 & L & s0 & m & S0 & G & P). rewrite E in E2. injection E2 as <-.
  destruct (P i s s' I I') as (_ & P2). rewrite P2. destruct G as (_ & G). specialize (G s (nth_error_In _ _ I)). lia.
Qed.
Print Assumptions C52_causal.
Example C52_causal_nonvacuous : exists a b, level_start_time false [mkL [(1000, 900); (1100, 1300)] 200 0; mkL [(1050, 1050)] 0 0] = Some [a; b] /\ presented a 1100 = 400 /\ presented b 1050 = 350.
Proof. eexists _, _. split; [reflexivity|]. split; reflexivity. Qed.
(** The offset in the edit list is read back, rounded down to a tick of the movie. *)
Theorem C52_edit_list : forall ts h scale unscale s body pre post, conversion ts h scale unscale -> 0 <= l_offset s < h -> ts * l_offset s < 10000000 * 2 ^ 32 -> write_edts scale s = Some body ->
  exists ticks, parse_elst (pre ++ body ++ post) (zlen pre) = Some ticks
    /\ l_offset s - (10000000 / ts + 2) <= stream_offset_hns ts ticks <= l_offset s.
Proof. exact offset_back. Qed.
Print Assumptions C52_edit_list.
Example C52_edit_list_nonvacuous : exists body, write_edts (floor_scale 1000) (mkL [(1000, 900); (401400, 401300)] 0 5432100) = Some body /\ zlen body = 32
  /\ parse_elst body 0 = Some 543 /\ stream_offset_hns 1000 543 = 5430000 /\ conversion 1000 (2 ^ 40) (floor_scale 1000) (floor_unscale 1000).
Proof. eexists. split; [reflexivity|]. split; [reflexivity|]. split; [vm_compute; reflexivity|]. split; [reflexivity|]. apply floor_conversion. lia. Qed.
(** Refuted for offsets of 2^32 ticks and more: 32 bits are kept. *)
Theorem C52_long_offset_refuted : forall scale s body pre post, write_edts scale s = Some body -> 2 ^ 32 <= scale (l_offset s) ->
  exists ticks, parse_elst (pre ++ body ++ post) (zlen pre) = Some ticks /\ ticks < scale (l_offset s).
Proof. intros scale s body pre post W B. rewrite (elst_back _ _ _ pre post W). eexists. split; [reflexivity|]. unfold u32. pose proof (Z.mod_pos_bound (scale (l_offset s)) (2 ^ 32)). lia. Qed.
Print Assumptions C52_long_offset_refuted.
Example C52_long_offset_nonvacuous : exists body, write_edts (floor_scale 90000) (mkL [(477218588500, 0)] 0 477218588500) = Some body /\ floor_scale 90000 477218588500 = 2 ^ 32 /\ parse_elst body 0 = Some 0.
Proof. eexists. split; [reflexivity|]. split; [reflexivity|]. vm_compute. reflexivity. Qed.
(** Refuted: the edit list shows the whole stream.  Its second entry ends before the last sample
    starts, in every stream presented from its first sample on. *)
Theorem C52_last_sample_refuted : forall s, l_samples s <> [] -> 0 <= l_ctts s -> 0 <= first_dec s <= first_comp s -> first_comp s <= fst (last (l_samples s) (0, 0)) < 2 ^ 64 ->
  let media_time c := c - first_dec s + l_ctts s in stream_duration s <= media_time (fst (last (l_samples s) (0, 0))).
Proof. exact last_outside. Qed.
Print Assumptions C52_last_sample_refuted.
Example C52_last_sample_nonvacuous : stream_duration (mkL [(1000, 900); (1400, 1300); (1800, 1700)] 0 200) = 800 /\ 1800 - 900 = 900. Proof. split; reflexivity. Qed.
(** Refuted: a stream without samples is left alone.  It gets an offset of 2^64 - 1 less the
    start. *)
Theorem C52_empty_refuted : forall d c, 0 <= d <= c -> c < 2 ^ 62 -> exists a, level_start_time true [mkL [(c, d)] 0 0; mkL [] 0 0] = Some [a; mkL [] 0 (2 ^ 64 - 1 - d)].
Proof.
  intros d c H B. unfold level_start_time, earliest. unfold start_time at 1 2 4. cbn [l_samples]. destruct (Z.ltb_spec c U64MAX); [|unfold U64MAX in *; lia].
  unfold start_time at 1. cbn [l_samples]. destruct (Z.ltb_spec U64MAX c); [lia|]. cbn [map]. eexists. do 3 f_equal.
  change (decoding_start (mkL [(c, d)] 0 0)) with d. change (max_ctts [mkL [(c, d)] 0 0; mkL [] 0 0]) with 0. rewrite empty_level by (unfold U64MAX in *; lia). reflexivity.
Qed.
Print Assumptions C52_empty_refuted.
Example C52_empty_nonvacuous : level_start_time true [mkL [(500, 400)] 0 0; mkL [] 0 0] = Some [mkL [(500, 400)] 0 0; mkL [] 0 18446744073709551215]. Proof. reflexivity. Qed.
