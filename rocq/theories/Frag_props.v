(** Property C41: fragments are read back as they were written; the index and the auxiliary
    information in a fragment. *)
From Verif Require Import Util SampleTab_model HlsCrypt_model Box_model Box_proofs Cenc_model Frag_model Frag_proofs Frag_proofs4.
Local Open Scope Z_scope.

(** Any number of fragments with samples, written one after the other to a file, clear or all
    encrypted with the key given to the reader, for any rounding of times to the time scale: the
    reader finds the same fragments with the same sample bodies, the first decoding time of each
    is the one given to the fragment, every sample starts when the one before ends, and the
    composition times of video are as far from the decoding times as they were. *)
Theorem C41_roundtrip : forall scale key frs, Forall (fragment_ok scale key) frs -> exists w, write_fragments scale frs empty_file = Some w
  /\ (zlen (w_file w) < 2 ^ 63 -> read_file key (w_file w) = Some (map (fun '(st, base, l) => counted scale (timescale st) (0 <? first_flags st) base l) frs)).
Proof. intros scale key frs F. exact (roundtrip scale key frs F). Qed.
Print Assumptions C41_roundtrip.
(** With the time scale 10^7, samples that follow each other without gaps and audio composed when
    decoded, exactly the samples written are read. *)
Theorem C41_exact : forall scale key frs, Forall (fragment_ok scale key) frs -> Forall (fun '(st, base, l) => timescale st = 10000000 /\ continuous base l /\ (first_flags st <= 0 -> Forall (fun s => s_comp s = s_dec s) l)) frs ->
  exists w, write_fragments scale frs empty_file = Some w /\ (zlen (w_file w) < 2 ^ 63 -> read_file key (w_file w) = Some (map snd frs)).
Proof.
  intros scale key frs F G. destruct (roundtrip scale key frs F) as (w & W1 & W2). exists w. split; [exact W1|]. intros L. rewrite (W2 L). f_equal. clear - G. induction G as [|[[st base] l] frs (G1 & G2 & G3) G IH]; [reflexivity|]. cbn [map snd]. f_equal; [|exact IH]. unfold counted_of. rewrite G1. apply counted_exact; [exact G2|]. intros V. apply G3. apply Z.ltb_ge. exact V.
Qed.
Print Assumptions C41_exact.
(** What is added to the file is the boxes styp, sidx, moof and mdat; the mdat holds the bodies.
    The sidx gives the size of moof and mdat together, the time scale and the duration; the
    presentation time only modulo 2^32. *)
Theorem C41_index : forall scale key st base l f, key_for key st -> l <> [] -> room l -> exists w added sidx moof, end_fragment scale st base l (mkW f (zlen f) []) = Some w /\ w_file w = f ++ added
  /\ boxes added [(STYP, styp_body); (SIDX, sidx); (MOOF, moof); (MDAT, concat (fst (samples_out st l)))]
  /\ num_at sidx 24 4 = Some ((8 + zlen moof) + (8 + zlen (concat (map s_body l)))) /\ num_at sidx 8 4 = Some (timescale st mod 2 ^ 32)
  /\ num_at sidx 28 4 = Some (zsum (map (fun s => ticks scale (timescale st) (s_dur s) mod 2 ^ 32) l) mod 2 ^ 32)
  /\ forall s rest, l = s :: rest -> times_ok scale (timescale st) s -> num_at sidx 12 4 = Some ((base + ticks scale (timescale st) (s_comp s - s_dec s)) mod 2 ^ 32).
Proof.
  intros scale key st base l f K N R. destruct (frag_boxes scale key st base l f K N R) as (w & fb & sb & mb & H1 & H2 & H3 & H4 & H5 & H6 & H7 & _). exists w, fb, sb, mb. split; [exact H1|]. split; [exact H2|]. split; [exact H3|]. split; [exact H4|]. split; [exact H5|]. split; [exact H7|].
  intros s rest El T. rewrite H6. f_equal. rewrite <- (ticks_off scale (timescale st) s T). subst l. unfold cts0_of, items_of. cbn [map]. unfold item_of. apply first_time.
Qed.
Print Assumptions C41_index.
(** In an encrypted fragment: the data offset of the trun is where the mdat's content starts, and
    the offset in the saio where the entries of the senc start, both counted from the start of
    the moof. *)
Theorem C41_offsets : forall scale key st base l f, key_for key st -> crypt st <> None -> l <> [] -> room l -> exists w added styp sidx moof mdat, end_fragment scale st base l (mkW f (zlen f) []) = Some w /\ w_file w = f ++ added
  /\ boxes added [(STYP, styp); (SIDX, sidx); (MOOF, moof); (MDAT, mdat)]
  /\ exists mfhd traf before trun saiz saio senc off, boxes moof [(MFHD, mfhd); (TRAF, traf)] /\ boxes traf (before ++ [(TRUN, trun); (SAIZ, saiz); (SAIO, saio); (SENC, senc)])
     /\ num_at trun 8 4 = Some (8 + zlen moof + 8) /\ num_at saio 8 4 = Some off
     /\ let entries := concat (map senc_entry (snd (samples_out st l))) in skipn 8 senc = entries /\ firstn (length entries) (skipn (Z.to_nat (off - 8)) moof) = entries.
Proof.
  intros scale key st base l f K C N R. destruct (frag_boxes scale key st base l f K N R) as (w & fb & sb & mb & H1 & H2 & H3 & H4 & H5 & H6 & H7 & H8). exists w, fb, styp_body, sb, mb, (concat (fst (samples_out st l))). split; [exact H1|]. split; [exact H2|]. split; [exact H3|]. subst mb. destruct (aux_info scale key st base l K C N R) as (mf & tb & be & rb & zb & ab & eb & off & A1 & A2 & A3 & A4 & A5 & A6). exists mf, tb, be, rb, zb, ab, eb, off. split; [exact A1|]. split; [exact A2|]. split; [exact A3|]. split; [exact A4|]. split; [exact A5|exact A6].
Qed.
Print Assumptions C41_offsets.
(** two fragments of video, with a B frame, and two of encrypted audio *)
Definition ex_key (b : list Z) : list Z := map (fun x => (7 * x + 3) mod 256) (firstn 16 (b ++ repeat 0 16)).
Definition ex_video : list fragment :=
  [(mkSet 1 7 37748736 10000000 None 99 98, 4294967296, [mkS [1; 2; 3] 4295767296 4294967296 400000; mkS [4] 4296967296 4295367296 400000; mkS [] 4295767296 4295767296 400001]);
   (mkSet 1 8 37748736 10000000 None 97 96, 4296167297, [mkS [9; 9] 4296167290 4296167297 5])].
Definition ex_audio : list fragment :=
  [(mkSet 2 7 0 10000000 (Some (ex_key, false, repeat 255 8)) 99 98, 100, [mkS (zseq 1 20) 100 100 10; mkS (zseq 3 40) 110 110 10]);
   (mkSet 2 8 0 10000000 (Some (ex_key, true, repeat 7 8)) 97 96, 120, [mkS (zseq 0 150) 120 120 10])].
Lemma ex_cipher_ok : cipher ex_key. Proof. intros b. unfold ex_key. rewrite map_length, firstn_length, app_length, repeat_length. lia. Qed.
Lemma ex_iv_ok : forall x, is_byte x -> is_iv (repeat x 8). Proof. intros x H. split; [apply repeat_length|]. apply Forall_forall. intros y Hy. apply repeat_spec in Hy. subst y. exact H. Qed.
Ltac ex_times := repeat (apply Forall_cons; [vm_compute; repeat split; congruence|]); apply Forall_nil.
Example C41_roundtrip_nonvacuous : forall scale, Forall (fragment_ok scale None) ex_video /\ Forall (fragment_ok scale (Some ex_key)) ex_audio
  /\ (exists w, write_fragments scale ex_video empty_file = Some w /\ zlen (w_file w) = 414 /\ read_file None (w_file w) = Some (map snd ex_video))
  /\ (exists w, write_fragments scale ex_audio empty_file = Some w /\ zlen (w_file w) = 740 /\ read_file (Some ex_key) (w_file w) = Some (map snd ex_audio) /\ read_file None (w_file w) <> Some (map snd ex_audio)).
Proof.
  intros scale. split; [|split; [|split]].
  - apply Forall_cons; [|apply Forall_cons; [|apply Forall_nil]]; (split; [exact I|]; split; [lia|]; split; [discriminate|]; split; [vm_compute; reflexivity|ex_times]).
  - apply Forall_cons; [|apply Forall_cons; [|apply Forall_nil]]; (split; [split; [reflexivity|split; [exact ex_cipher_ok|apply ex_iv_ok; unfold is_byte; lia]]|]; split; [lia|]; split; [discriminate|]; split; [vm_compute; reflexivity|ex_times]).
  - eexists. split; [vm_compute; reflexivity|]. split; [vm_compute; reflexivity|]. vm_compute; reflexivity.
  - eexists. split; [vm_compute; reflexivity|]. split; [vm_compute; reflexivity|]. split; [vm_compute; reflexivity|]. vm_compute. discriminate.
Qed.
Example C41_exact_nonvacuous : Forall (fun '(st, base, l) => timescale st = 10000000 /\ continuous base l /\ (first_flags st <= 0 -> Forall (fun s => s_comp s = s_dec s) l)) (ex_video ++ ex_audio).
Proof. repeat (apply Forall_cons; [split; [reflexivity|]; split; [cbn; repeat split|]; intros H; try (exfalso; revert H; vm_compute; congruence); repeat (apply Forall_cons; [reflexivity|]); apply Forall_nil|]). apply Forall_nil. Qed.
(** other time scales: any function may be given for the rounding *)
Example C41_scale_nonvacuous : let scale ts t := (t * ts) / 10000000 in let fr := (mkSet 1 7 1 90000 None 99 98, 900, [mkS [1; 2; 3] 1800000 1000000 400000; mkS [4] 2200000 1400000 400000]) in fragment_ok scale None fr
  /\ exists w, write_fragments scale [fr] empty_file = Some w /\ read_file None (w_file w) = Some [[mkS [1; 2; 3] 8100 900 3600; mkS [4] 11700 4500 3600]].
Proof.
  cbv zeta. split; [split; [exact I|]; split; [lia|]; split; [discriminate|]; split; [vm_compute; reflexivity|ex_times]|]. eexists. split; [vm_compute; reflexivity|]. vm_compute; reflexivity.
Qed.
(** Findings.  The presentation time in the index starts again at 0 every 2^32 ticks: at 430 s
    with the time scale 10^7. *)
Theorem C41_index_time_refuted : exists st base l w sidx, timescale st = 10000000 /\ base = 2 ^ 32 /\ Forall (fun s => s_comp s = s_dec s) l /\ end_fragment (fun _ t => t) st base l empty_file = Some w
  /\ do_box (w_file w) 36 = Some (mkR 44 36 44 SIDX) /\ bytes_at (w_file w) 44 36 = Some sidx /\ num_at sidx 12 4 = Some 0.
Proof. exists (mkSet 1 7 1 10000000 None 0 0), (2 ^ 32), [mkS [1] (2 ^ 32) (2 ^ 32) 5]. eexists. eexists. split; [reflexivity|]. split; [reflexivity|]. split; [apply Forall_cons; [reflexivity|apply Forall_nil]|]. split; [vm_compute; reflexivity|]. split; [vm_compute; reflexivity|]. split; [vm_compute; reflexivity|]. vm_compute; reflexivity. Qed.
Print Assumptions C41_index_time_refuted.
(** A clear fragment after an encrypted one is read as if it were encrypted: the reader keeps the
    vectors of the fragment before. *)
Theorem C41_clear_after_encrypted_refuted : exists fr1 fr2 w l1 l2, fragment_ok (fun _ t => t) (Some ex_key) fr1 /\ fragment_ok (fun _ t => t) None fr2 /\ write_fragments (fun _ t => t) [fr1; fr2] empty_file = Some w
  /\ read_file (Some ex_key) (w_file w) = Some [l1; l2] /\ l1 = snd fr1 /\ map s_body l2 <> map s_body (snd fr2).
Proof.
  exists (nth 0 ex_audio (mkSet 0 0 0 0 None 0 0, 0, [])), (mkSet 2 8 0 10000000 None 97 96, 120, [mkS [1; 2; 3] 120 120 10]). eexists. eexists. eexists. destruct (C41_roundtrip_nonvacuous (fun _ t => t)) as (_ & F & _). split; [exact (Forall_inv F)|]. split; [split; [exact I|]; split; [lia|]; split; [discriminate|]; split; [vm_compute; reflexivity|ex_times]|].
  split; [vm_compute; reflexivity|]. split; [vm_compute; reflexivity|]. split; [vm_compute; reflexivity|]. vm_compute. discriminate.
Qed.
Print Assumptions C41_clear_after_encrypted_refuted.
(** Ending a fragment without samples reads an item that is not there. *)
Theorem C41_no_sample_refuted : forall scale st base w, end_fragment scale st base [] w = None.
Proof. intros. unfold end_fragment. cbn [map]. destruct (samples_out st []). reflexivity. Qed.
Print Assumptions C41_no_sample_refuted.
