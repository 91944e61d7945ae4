(** C60: clock references of a segment *)
From Coq Require Import ZifyNat.
From Verif Require Import Util Bits_spec TsTime_model Ts_model Es_model Crc_model TsSect_model TsDemux_model Es_props Seg_model Seg_proofs2 Seg_proofs3 Seg_props Clock_model Clock_proofs.
Local Open Scope Z_scope.

(** * C60 *)
(** The clock references in a segment are those of its video key frames, in order, at their
    decoding times: no other packet has one. *)
Theorem C60_references : forall g continuity l fill, segment_ok g l -> 0 <= continuity < 256 ->
  exists ps, segment g continuity l fill = Some (concat ps) /\ Forall (fun p => length p = 188%nat) ps /\ clock_refs ps = flat_map (call_refs g) l.
Proof. exact segment_refs. Qed.
Print Assumptions C60_references.
(** The second packet is the table; read back it announces the streams in order and, as the one
    that carries the references, the first video stream. *)
Theorem C60_announced : forall align g continuity l fill, segment_ok g l -> 0 <= continuity < 256 ->
  exists p0 p1 rest m crc, segment g continuity l fill = Some (concat (p0 :: p1 :: rest)) /\ length p0 = 188%nat /\ length p1 = 188%nat
   /\ psi_feed align 2 get_pmt [] (get_packets 1 p1) = [Table m crc]
   /\ (forall i s, nth_error (g_streams g) i = Some s -> is_video s -> (forall j t, (j < i)%nat -> nth_error (g_streams g) j = Some t -> ~ is_video t) -> m_pcr m = 0x100 + Z.of_nat i)
   /\ (forall ty pid ds, In (ty, pid, ds) (m_streams m) <-> ds = [] /\ exists i s, nth_error (g_streams g) i = Some s /\ pid = 0x100 + Z.of_nat i /\ ty = match s with SVideo _ _ => 0x1b | _ => 0x0f end).
Proof.
  intros align g cont l fill OK C. destruct (segment_pmt align g cont l fill OK C) as (p0 & p1 & rest & crc & E & L0 & L1 & R). exists p0, p1, rest. eexists _, crc. split; [exact E|]. split; [exact L0|]. split; [exact L1|]. split; [exact R|]. cbn [m_pcr m_streams]. split.
  - intros i s N V B. unfold pcr_pid_of. rewrite (proj2 (first_video_at (g_streams g) 0 i)); [reflexivity|]. exists i. split; [reflexivity|]. split; [eauto|exact B].
  - intros ty pid ds. pose proof OK as (SO & LE & _). rewrite (in_pmt g ty pid ds (carried_ok g SO LE)). split.
    + intros (i & s & N & -> & -> & ->). split; [reflexivity|]. exists i, s. split; [exact N|]. split; reflexivity.
    + intros (-> & i & s & N & -> & ->). exists i, s. split; [exact N|]. split; [reflexivity|]. split; reflexivity.
Qed.
Print Assumptions C60_announced.
(** Refuted: every segment has clock references.  Without video there is none, and the table
    announces PID 0, the one of the PAT, as carrying them. *)
Theorem C60_audio_only_refuted : forall align g continuity l fill, segment_ok g l -> 0 <= continuity < 256 -> Forall (fun s => ~ is_video s) (g_streams g) ->
  exists p0 p1 rest m crc, segment g continuity l fill = Some (concat (p0 :: p1 :: rest)) /\ length p0 = 188%nat /\ length p1 = 188%nat /\ Forall (fun p => length p = 188%nat) rest
   /\ clock_refs (p0 :: p1 :: rest) = [] /\ psi_feed align 2 get_pmt [] (get_packets 1 p1) = [Table m crc] /\ m_pcr m = 0.
Proof.
  intros align g cont l fill OK C NV. destruct (segment_pmt align g cont l fill OK C) as (p0 & p1 & rest & crc & E & L0 & L1 & R). destruct (segment_refs g cont l fill OK C) as (ps & E' & L & RF). rewrite E in E'. injection E' as E'.
  assert (SAME : forall (a b : list (list Z)), Forall (fun p => length p = 188%nat) b -> (exists x y r, a = x :: y :: r /\ length x = 188%nat /\ length y = 188%nat) -> concat a = concat b -> exists x y r r', a = x :: y :: r /\ b = x :: y :: r' /\ concat r = concat r').
  { clear. intros a b FB (x & y & r & -> & X & Y) Q. destruct b as [|u [|v w]]; inversion FB as [|? ? F1 F2]; subst.
    - apply (f_equal (@length Z)) in Q. cbn [concat] in Q. rewrite app_length in Q. cbn [length] in Q. lia.
    - apply (f_equal (@length Z)) in Q. cbn [concat] in Q. rewrite !app_length in Q. cbn [length] in Q. lia.
    - inversion F2 as [|? ? F3 F4]; subst. cbn [concat] in Q. assert (SP : forall (a b c d : list Z), length a = length b -> a ++ c = b ++ d -> a = b /\ c = d) by (clear; induction a as [|x a IH]; intros [|y b] c d Hl Q; try discriminate Hl; [auto|]; cbn [app] in Q; injection Q as -> Q; destruct (IH b c d ltac:(cbn in Hl; lia) Q) as [-> ->]; auto).
      apply SP in Q as [-> Q]; [|congruence]. apply SP in Q as [-> Q]; [|congruence]. exists u, v, r, w. auto. }
  destruct (SAME (p0 :: p1 :: rest) ps L ltac:(exists p0, p1, rest; auto) E') as (x & y & r & r' & Q1 & -> & Q2). injection Q1 as <- <- <-.
  exists p0, p1, r'. eexists _, crc. split; [rewrite E; cbn [concat]; rewrite Q2; reflexivity|]. split; [exact L0|]. split; [exact L1|]. split; [inversion L as [|? ? _ L']; inversion L'; assumption|]. split; [|split; [exact R|]].
  - rewrite RF. clear - NV OK. destruct OK as (_ & _ & _). induction l as [|c l IH]; [reflexivity|]. cbn [flat_map]. rewrite IH, app_nil_r. unfold call_refs. destruct (nth_error (g_streams g) (c_stream c)) as [s|] eqn:N; [|reflexivity]. apply nth_error_In in N. rewrite Forall_forall in NV. destruct s; [destruct (NV _ N I)|reflexivity|reflexivity].
  - cbn [m_pcr]. unfold pcr_pid_of. rewrite (proj2 (first_video_none (g_streams g) 0) NV). reflexivity.
Qed.
Print Assumptions C60_audio_only_refuted.
Definition ex_sound := ex_config [SAudio 2 44100 2].
Definition ex_sound_calls := [mkCall 0 (repeat 7 50) true 600000 600000].
Example C60_nonvacuous : flat_map (call_refs ex_av) ex_calls = [(256, 3600, 0)] /\ segment_ok ex_av ex_calls /\ segment_ok ex_sound ex_sound_calls.
Proof.
  split; [vm_compute; reflexivity|]. split; [apply C58_nonvacuous|]. split; [constructor; [exact ex_audio_strm|constructor]|]. split; [cbn; lia|]. split; [|split; [|discriminate]].
  - constructor; [|constructor]. unfold call_ok. cbn [ex_sound ex_config g_streams c_stream nth_error c_body c_key c_comp g_present]. split; [split; [apply Forall_forall; intros x Hx; apply repeat_spec in Hx; subst; unfold is_byte; lia|vm_compute; split; congruence]|]. split; [intros _; vm_compute; discriminate|]. apply ex_fits. lia.
  - intros [|[|i]] s N; try discriminate N. injection N as <-. cbv beta iota. vm_compute. discriminate.
Qed.
