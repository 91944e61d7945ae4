(** Proofs about Init_model: what is read of the segment. *)
From Coq Require Import ZifyNat String.
From Coq Require Import List. Import ListNotations.
From Verif Require Import Util Str_model RangeMap_model SampleTab_model SampleTab_proofs TimeTab_model Double_model Box_model Box_proofs Frag_model Frag_proofs Frag_proofs2 Level_model Level_proofs Movie_model Movie_proofs Movie_proofs2 Movie_proofs3 Movie_proofs4 Movie_proofs5 Movie_proofs7 Init_model Init_proofs Init_proofs2 Init_proofs3 Init_proofs4.
From Verif Require Bits_spec Bitstream_model Sps_model Esds_model Esds_proofs2.
Local Open Scope Z_scope.
Local Ltac Zify.zify_post_hook ::= Z.div_mod_to_equations.

Lemma sinf_bytes : forall kid, bytes kid -> List.length kid = 16%nat -> bytes (layout (sinf_item MP4A kid)) /\ exists r, layout (sinf_item MP4A kid) = 0 :: r.
Proof.
  intros kid B L. do 16 (destruct kid as [|? kid]; [discriminate L|]). destruct kid; [|discriminate L]. split.
  - unfold bytes in B. repeat match goal with H : Forall _ (_ :: _) |- _ => apply Forall_cons_iff in H; destruct H end.
    apply Forall_forall. intros y Y. cbv in Y. unfold is_byte in *. repeat (destruct Y as [<-|Y]; [first [assumption|lia]|]). contradiction.
  - eexists. reflexivity.
Qed.
Lemma config_more : forall b kid object rate chan, bytes kid -> List.length kid = 16%nat -> audio_config b object rate chan -> audio_config (b ++ layout (sinf_item MP4A kid)) object rate chan.
Proof.
  intros b kid object rate chan B L (x & g & after & X & A & N & G & E & Q1 & Q2 & Q3 & ->). destruct (sinf_bytes kid B L) as (Bs & r & R). revert Bs R. generalize (layout (sinf_item MP4A kid)). intros sf Bs R. subst sf. exists x, g, (after ++ 0 :: r).
  split; [exact X|]. split; [apply Forall_app; split; assumption|]. split.
  - intros t l. rewrite app_assoc. destruct (Esds_model.e_more x ++ after) as [|t' l']; [cbn [app]; intros Q; injection Q as <- <-; cbn [In]; lia|]. cbn [app]. intros Q. injection Q as <- <-. exact (N t' l' eq_refl).
  - do 5 (split; [assumption|]). rewrite app_assoc. reflexivity.
Qed.
Lemma entries_len : forall c key e, In e (entry_items c key) -> zlen (layout e) <= zlen (all_layout (entry_items c key)).
Proof. intros c [kid|] e H; cbn [entry_items In] in *; rewrite !all_layout_cons, !zlen_app'; change (zlen (all_layout [])) with 0; repeat match goal with |- context[zlen (layout ?x)] => lazymatch goal with _ : 0 <= zlen (layout x) |- _ => fail | _ => pose proof (zlen_nonneg (layout x)) end end; intuition (subst; lia). Qed.
Lemma entries_seen : forall c key, codec_ok c -> key_ok c key -> zlen (all_layout (entry_items c key)) < 2 ^ 32 -> exists seen, Forall2 (Ent (visual c)) (map layout (entry_items c key)) seen /\ entries_of c key seen.
Proof.
  intros c key C K L. pose proof (codec_name c C) as N. pose proof (seen_same c C) as Sm. assert (L1 : forall e, In e (entry_items c key) -> zlen (layout e) < 2 ^ 32) by (intros e H; pose proof (entries_len c key e H); lia).
  destruct key as [kid|]; cbn [entry_items In map entries_of key_ok] in *.
  - destruct K as (Lk & Bk & Ne). exists [seen_protected c kid; seen_entry c]. split.
    + constructor; [|constructor; [|constructor]]; [|apply plain_ent; [exact N|apply L1; tauto]]. pose proof (L1 _ (or_introl eq_refl)) as L2. destruct c as [w h n b|r ch b].
      * destruct N as (N & a & Na). exact (video_protected w h n b kid a Lk N Na L2).
      * destruct C as (_ & _ & [->|(o & ra & cc & A)]); [contradiction|]. apply (config_more b kid o ra cc Bk Lk) in A. eapply audio_protected; [exact Lk|exact (config_seen _ _ _ _ A)|exact L2].
    + exists (seen_protected c kid), (seen_entry c). split; [reflexivity|]. split; [|exact Sm]. destruct c as [w h n b|r ch b]; [exact Sm|]. cbn [same_protected seen_protected]. destruct (e_sinf kid) as [_ Es]. rewrite <- Es.
      destruct C as (H1 & H2 & [->|(o & ra & cc & A)]); [contradiction|]. split.
      * apply seen_same. cbn [codec_ok]. split; [exact H1|]. split; [exact H2|]. right. exists o, ra, cc. apply config_more; assumption.
      * intros o' ra' cc' A'. apply (config_more b kid _ _ _ Bk Lk) in A'. pose proof (config_nonempty _ _ _ _ A') as Nn. cbn [seen_entry]. rewrite (config_seen _ _ _ _ A'). unfold short in *. rewrite !Z.mod_small by lia. destruct (b ++ layout (sinf_item MP4A kid)); [contradiction|]. reflexivity.
  - exists [seen_entry c]. split; [constructor; [apply plain_ent; [exact N|apply L1; left; reflexivity]|constructor]|]. exists (seen_entry c). split; [reflexivity|exact Sm].
Qed.
Lemma given_bytes : forall l, bytes_of (given l) = pssh_boxes l. Proof. intros [|b l]; reflexivity. Qed.
Lemma stsd_le : forall now c ts id duration key p, zlen (all_layout (entry_items c key)) <= zlen (all_layout (init_items now c ts id duration key p)).
Proof.
  intros. unfold init_items, init_trak, init_mdia, init_minf, init_stbl_item, stsd_items. repeat (rewrite ?all_layout_cons, ?node_zlen, ?zlen_app').
  repeat match goal with |- context[zlen ?x] => lazymatch goal with _ : 0 <= zlen x |- _ => fail | _ => pose proof (zlen_nonneg x) end end. lia.
Qed.
Lemma init_read : forall now c ts id duration key l seg, codec_ok c -> 0 < ts < 2 ^ 32 -> 0 < id < 2 ^ 32 -> key_ok c key -> init now c ts id duration key (given l) = Some seg -> zlen seg < 2 ^ 32 ->
  exists x, read_movie seg = Some (mkMv 0 0 ts 0 [x]) /\ x_handler x = four (if is_video c then "vide" else "soun") /\ x_ts x = ts /\ x_id x = id /\ x_lang x = (117, 110, 100) /\ (x_width x, x_height x) = size_of c /\ entries_of c key (x_entries x) /\ no_samples x.
Proof.
  intros now c ts id duration key l seg C Ts Id K E L. rewrite init_u in E. assert (E' : seg = all_u (init_items now c ts id duration key (bytes_of (given l)))) by congruence. clear E. rewrite given_bytes in E'. rewrite E' in L. pose proof (all_u_small _ L) as U. rewrite U in *. subst seg. clear U.
  destruct (entries_seen c key C K) as (seen & F & Sn). { pose proof (stsd_le now c ts id duration key (pssh_boxes l)). lia. }
  pose proof (init_back now c ts id duration key l seen F L) as R. exists (init_track c ts id seen). unfold u32 in R. rewrite Z.mod_small in R by lia. split; [exact R|]. unfold init_track, no_samples. cbn [x_handler x_ts x_id x_lang x_width x_height x_entries x_track x_tables x_duration x_offset t_times t_keys p_count p_sizes p_chunks].
  split; [destruct c; vm_compute; reflexivity|]. unfold u32. rewrite !Z.mod_small by lia. split; [reflexivity|]. split; [reflexivity|]. split; [reflexivity|].
  split; [destruct c as [w h n b|r ch b]; cbn [wid hei size_of]; [destruct C as (H1 & H2 & _); unfold short in *; rewrite !Z.mod_small by lia; reflexivity|reflexivity]|]. split; [exact Sn|]. repeat (split; [reflexivity|]). reflexivity.
Qed.
Lemma init_bytes : forall now c ts id duration key pssh, exists seg, init now c ts id duration key pssh = Some seg /\ (zlen seg < 2 ^ 32 -> seg = all_layout (init_boxes now c ts id duration key (match pssh with Some b => b | None => [] end))).
Proof.
  intros. eexists. split; [apply init_u|]. intros L. rewrite (all_u_small _ L). apply init_layout.
Qed.
