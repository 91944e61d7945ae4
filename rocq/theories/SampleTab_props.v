(** Property C34: the tables of a written track lead the reader to every sample. *)
From Coq Require Import ZifyNat.
From Verif Require Import Util RangeMap_model SampleTab_model SampleTab_proofs.
Local Open Scope Z_scope.

(** Samples of any sizes written at any places (contiguous ones share a chunk): the reader
    finds each where it was written (moved with the media data by [mdat]) and with its size. *)
Theorem C34_round_trip : forall allow_empty mdat l, Forall (fits mdat) l -> 0 <= mdat -> Z.of_nat (length l) < 2 ^ 31 -> ~ all_same_size l ->
  exists ws p, write_tables allow_empty mdat (write_all l) = Some ws /\ parse_tables ws = Some p /\ p_count p = Z.of_nat (length l)
    /\ forall i, (i < length l)%nat -> sample_offset p (Z.of_nat i) = Some (fst (nth i l (0, 0)) + mdat) /\ sample_size p (Z.of_nat i) = Some (snd (nth i l (0, 0))).
Proof. exact tables_ok. Qed.
Print Assumptions C34_round_trip.
(** three chunks of 2, 2 and 1 samples, then two more: three runs *)
Example C34_nonvacuous : let l := [(10, 4); (14, 5); (30, 6); (36, 1); (50, 0); (60, 7); (70, 2)] in Forall (fits 1000) l /\ ~ all_same_size l
  /\ write_tables false 1000 (write_all l) = Some [52; box_stsc; 0; 3; 1; 2; 1; 3; 1; 1; 5; 1; 1; 48; box_stsz; 0; 0; 7; 4; 5; 6; 1; 0; 7; 2; 36; box_stco; 0; 5; 1010; 1030; 1050; 1060; 1070].
Proof.
  cbv zeta. split; [repeat (apply Forall_cons; [unfold fits; cbn [fst snd]; lia|]); apply Forall_nil|]. split; [|vm_compute; reflexivity].
  intros H. specialize (H (10, 4) (14, 5) (or_introl eq_refl) (or_intror (or_introl eq_refl))). discriminate.
Qed.
(** Refuted when all the samples have the same size: the table of sizes announced is not
    written, and the reader takes as many words from whatever follows as sizes. *)
Theorem C34_same_size_refuted : forall l rest, l <> [] -> Forall (fits 0) l -> Z.of_nat (length l) < 2 ^ 31 -> all_same_size l -> (length l <= length rest)%nat ->
  exists sz, write_stsz (write_all l) = sz :: box_stsz :: [0; 0; Z.of_nat (length l)] /\ parse_stsz (skipn 2 (write_stsz (write_all l) ++ rest)) = Some (0, Z.of_nat (length l), firstn (length l) rest, skipn (length l) rest).
Proof. exact same_size_table. Qed.
Print Assumptions C34_same_size_refuted.
(** So a track of one sample, whatever its size, is read as one sample of 20 bytes at no place. *)
Theorem C34_single_sample_refuted : forall allow_empty mdat s, fits 0 s -> fits mdat s -> 0 <= mdat ->
  exists ws p, write_tables allow_empty mdat (write_all [s]) = Some ws /\ parse_tables ws = Some p /\ sample_size p 0 = Some 20 /\ sample_offset p 0 = None.
Proof. exact single_sample. Qed.
Print Assumptions C34_single_sample_refuted.
Example C34_refuted_nonvacuous : fits 100 (5, 300) /\ all_same_size [(5, 300); (400, 300)] /\ parse_tables (match write_tables false 0 (write_all (map (fun i => (i * 8, 8)) (zseq 0 10))) with Some w => w | None => [] end) = None.
Proof. split; [unfold fits; cbn; lia|]. split; [|vm_compute; reflexivity]. intros a b [<-|[<-|[]]] [<-|[<-|[]]]; reflexivity. Qed.
(** A track without samples has tables only when that is allowed. *)
Theorem C34_empty : forall mdat, write_tables false mdat (write_all []) = None /\ exists ws p, write_tables true mdat (write_all []) = Some ws /\ parse_tables ws = Some p /\ p_count p = 0.
Proof. intros mdat. split; [reflexivity|]. eexists. eexists. split; [reflexivity|]. split; vm_compute; reflexivity. Qed.
Print Assumptions C34_empty.
