(** C90: listing the time codes of a movie.  Statements only; see Ltc_model for the vocabulary. *)
From Coq Require Import ZifyBool ZifyNat.
From Verif Require Import Util RangeMap_model SampleTab_model TimeTab_model Ltc_model Ltc_proofs.
Local Open Scope Z_scope.

(** Of a stream of time codes with any table of times, the lines are those of the samples from the one looked
    up for the start to the one looked up for the end, each once and in order, with the code which is in the
    file and the time of the sample moved by the offset of the stream; none if the second is before the first. *)
Theorem C90_rows : forall rs rest ts ord k so file places codes start end_, Forall (fun r => 0 < fst r)%nat rs -> Forall (fun r => 0 < snd r < 2 ^ 32) rs -> rs <> [] -> Z.of_nat (length (expand rs)) < 2 ^ 31 ->
  0 < ts -> 0 <= so -> 10000000 * zsum (expand rs) < 2 ^ 64 -> 10000000 * zsum (expand rs) / ts + so < 2 ^ 64 -> length codes = length (expand rs) -> stored file places codes -> 0 <= start -> start * ts < 2 ^ 64 -> 0 <= end_ -> end_ * ts < 2 ^ 64 ->
  exists tb, parse_stts (0 :: Z.of_nat (length rs) :: enc2 rs ++ rest) = Some (times_of 0 (expand rs), tb, rest)
  /\ exists s e, looked_up (expand rs) (start * ts / 10000000) s /\ looked_up (expand rs) (end_ * ts / 10000000) e
  /\ list_codes (Some (ts, mkT (times_of 0 (expand rs)) [] false ord tb k, so, places)) file start end_ = Returned 0 (map (fun i => mkRow (Z.of_nat i) (10000000 * begin_of (expand rs) i / ts + so) (nth i codes (mkTcode 0 0 0 0))) (seq s (S e - s))).
Proof. exact list_all. Qed.
Print Assumptions C90_rows.
Definition ex_code (c : Z) : tcode := mkTcode 7 c 0x664 0.
Definition ex_codes : list tcode := map ex_code [0x01000000; 0x01000500; 0x02000000; 0x02000100].
Definition ex_file : list Z := [1;2;3] ++ put_tcode (ex_code 0x01000000) ++ put_tcode (ex_code 0x01000500) ++ [9] ++ put_tcode (ex_code 0x02000000) ++ put_tcode (ex_code 0x02000100).
Definition ex_times : track := match parse_stts (0 :: 1 :: enc2 [(4%nat, 40)]) with Some (l, tb, _) => mkT l [] false [] tb None | None => mkT [] [] false [] [] None end.
Example C90_rows_nonvacuous : stored ex_file [3; 17; 32; 46] ex_codes /\ length ex_codes = length (expand [(4%nat, 40)]) /\ 10000000 * zsum (expand [(4%nat, 40)]) / 1000 + 600 < 2 ^ 64
  /\ list_codes (Some (1000, ex_times, 600, [3; 17; 32; 46])) ex_file 200000 800000 = Returned 0 [mkRow 0 600 (ex_code 0x01000000); mkRow 1 400600 (ex_code 0x01000500); mkRow 2 800600 (ex_code 0x02000000)].
Proof.
  split; [|split; [reflexivity|split; [vm_compute; reflexivity|vm_compute; reflexivity]]]. split.
  - unfold ex_codes. repeat (apply Forall_cons; [unfold fields_fit, ex_code; cbn [c_range c_code c_user c_flags]; lia|]). apply Forall_nil.
  - unfold ex_codes, ex_file. cbn [map]. apply Forall2_cons; [|apply Forall2_cons; [|apply Forall2_cons; [|apply Forall2_cons; [|apply Forall2_nil]]]]; (split; [lia|]).
    + exists [1;2;3], (put_tcode (ex_code 0x01000500) ++ [9] ++ put_tcode (ex_code 0x02000000) ++ put_tcode (ex_code 0x02000100)). split; reflexivity.
    + exists ([1;2;3] ++ put_tcode (ex_code 0x01000000)), ([9] ++ put_tcode (ex_code 0x02000000) ++ put_tcode (ex_code 0x02000100)). split; reflexivity.
    + exists ([1;2;3] ++ put_tcode (ex_code 0x01000000) ++ put_tcode (ex_code 0x01000500) ++ [9]), (put_tcode (ex_code 0x02000100)). split; reflexivity.
    + exists ([1;2;3] ++ put_tcode (ex_code 0x01000000) ++ put_tcode (ex_code 0x01000500) ++ [9] ++ put_tcode (ex_code 0x02000000)), []. split; reflexivity.
Qed.
(** The sample looked up is one only. *)
Theorem C90_looked_up : forall ds time s s', looked_up ds time s -> looked_up ds time s' -> s = s'.
Proof.
  assert (W : forall ds time s s', looked_up ds time s -> looked_up ds time s' -> (s < s')%nat -> False).
  { intros ds time s s' (A & B & C) (A' & B' & C') L. pose proof (B' s L) as X. destruct C as [[-> C]|(C & D & [E|E])]; [|lia|lia].
    destruct C' as [[-> C']|(C' & D' & _)]; [lia|]. specialize (C 1%nat ltac:(lia)). lia. }
  intros ds time s s' L L'. destruct (Nat.lt_total s s') as [H|[H|H]]; [exfalso; exact (W _ _ _ _ L L' H)|exact H|exfalso; exact (W _ _ _ _ L' L H)].
Qed.
Print Assumptions C90_looked_up.
Example C90_looked_up_nonvacuous : looked_up [40; 40; 40; 40] 50 2.
Proof. split; [cbn; lia|]. split; [intros j J; do 2 (destruct j as [|j]; [vm_compute; reflexivity|]); lia|]. right. split; [lia|]. split; [vm_compute; discriminate|]. left. vm_compute. discriminate. Qed.
(** What a record of a time code in the file is read as. *)
Theorem C90_record : forall before c after, fields_fit c -> read_tcode (before ++ put_tcode c ++ after) (Z.of_nat (length before)) = Some c.
Proof. exact read_stored. Qed.
Print Assumptions C90_record.
Example C90_record_nonvacuous : fields_fit (ex_code 0x23595924) /\ read_tcode (9 :: put_tcode (ex_code 0x23595924)) 1 = Some (ex_code 0x23595924).
Proof. split; [unfold fields_fit, ex_code; cbn [c_range c_code c_user c_flags]; lia|vm_compute; reflexivity]. Qed.
(** Without a stream of time codes, and with one without samples, there are no lines. *)
Theorem C90_none : forall file start end_ ts so places t, t_times t = [] -> list_codes None file start end_ = Returned 2 [] /\ list_codes (Some (ts, t, so, places)) file start end_ = Returned 3 [].
Proof. intros. unfold list_codes. rewrite H. split; reflexivity. Qed.
Print Assumptions C90_none.
Example C90_none_nonvacuous : t_times (mkT [] [] false [] [] None) = []. Proof. reflexivity. Qed.

(** Refuted: the time code in force at the start (that of the last sample which begins at or before it) is in
    the list.  If the start isn't the very beginning of a sample, after the first, the list begins with a later
    one: the one in force isn't listed, although it holds for a time until then. *)
Theorem C90_in_force_refuted : forall ds time i s, Forall (fun d => 0 < d) ds -> (0 < i)%nat -> (S i < length ds)%nat -> begin_of ds i < time < begin_of ds (S i) -> looked_up ds time s -> s = S i.
Proof.
  intros ds time i s P I H T L. apply (C90_looked_up ds time); [exact L|]. split; [exact H|]. split.
  - intros j J. destruct (begin_mono ds j i P) as [M _]; lia.
  - right. split; [lia|]. destruct (begin_mono ds 1 i P) as [M _]; [lia|lia|]. split; [lia|]. left. lia.
Qed.
Print Assumptions C90_in_force_refuted.
Example C90_in_force_nonvacuous : begin_of [40; 40; 40; 40] 1 < 50 < begin_of [40; 40; 40; 40] 2
  /\ list_codes (Some (1000, ex_times, 0, [3; 17; 32; 46])) ex_file 500000 800000 = Returned 0 [mkRow 2 800000 (ex_code 0x02000000)].
Proof. split; [split; vm_compute; reflexivity|vm_compute; reflexivity]. Qed.
(** Refuted: from a start after the end of the stream there is nothing to list.  The last is. *)
Theorem C90_after_refuted : forall ds time s, Forall (fun d => 0 < d) ds -> (0 < length ds)%nat -> begin_of ds (length ds) <= time -> looked_up ds time s -> s = (length ds - 1)%nat.
Proof.
  intros ds time s P N T L. apply (C90_looked_up ds time); [exact L|]. split; [lia|].
  assert (BEF : forall j, (j < length ds)%nat -> begin_of ds j < time) by (intros j J; destruct (begin_mono ds j (length ds) P) as [_ M]; [lia|lia|]; specialize (M J); lia).
  split; [intros j J; apply BEF; lia|]. destruct (Nat.eq_dec (length ds) 1) as [O|O]; [left; split; [lia|intros j J; lia]|]. right. split; [lia|]. split; [specialize (BEF 1%nat ltac:(lia)); lia|right; reflexivity].
Qed.
Print Assumptions C90_after_refuted.
Example C90_after_nonvacuous : list_codes (Some (1000, ex_times, 0, [3; 17; 32; 46])) ex_file 90000000 95000000 = Returned 0 [mkRow 3 1200000 (ex_code 0x02000100)].
Proof. vm_compute. reflexivity. Qed.
(** Refuted: the lines have times from the start to the end asked for.  These are taken without the offset of the
    stream, and the times of the lines with it: with an offset longer than the end all are after it. *)
Theorem C90_offset_refuted : list_codes (Some (1000, ex_times, 600000000, [3; 17; 32; 46])) ex_file 0 400000 = Returned 0 [mkRow 0 600000000 (ex_code 0x01000000); mkRow 1 600400000 (ex_code 0x01000500)]
  /\ list_codes (Some (1000, ex_times, 600000000, [3; 17; 32; 46])) ex_file 600000000 600400000 = Returned 0 [mkRow 3 601200000 (ex_code 0x02000100)].
Proof. split; vm_compute; reflexivity. Qed.
Print Assumptions C90_offset_refuted.
(** Refuted: without an end (0, as for the other lists) the list goes on to the last.  It stops at the first; with
    a start after it there are no lines. *)
Theorem C90_no_end_refuted : forall ds s, Forall (fun d => 0 < d) ds -> looked_up ds 0 s -> s = 0%nat.
Proof.
  intros ds s P L. apply (C90_looked_up ds 0); [exact L|]. destruct L as (L & _). split; [lia|]. split; [lia|]. left. split; [reflexivity|]. intros j J. destruct (begin_mono ds 0 j P) as [_ M]; [lia|lia|]. apply M. lia.
Qed.
Print Assumptions C90_no_end_refuted.
Example C90_no_end_nonvacuous : list_codes (Some (1000, ex_times, 0, [3; 17; 32; 46])) ex_file 0 0 = Returned 0 [mkRow 0 0 (ex_code 0x01000000)] /\ list_codes (Some (1000, ex_times, 0, [3; 17; 32; 46])) ex_file 400000 0 = Returned 0 [].
Proof. split; vm_compute; reflexivity. Qed.
