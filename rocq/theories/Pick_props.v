(** C87: listing the samples of a movie, and trying out made-up decoding times.  Statements only;
    see Pick_model for the vocabulary. *)
From Coq Require Import Sorted.
From Verif Require Import Util SampleTab_model SampleTab_proofs TimeTab_model Walk_model Walk_proofs Cut_model Cut_proofs Cut_props AutoDec_model AutoDec_proofs Pick_model Pick_proofs.
Local Open Scope Z_scope.
Ltac ex_fair := split; [repeat (apply Forall_cons; [lia|]); apply Forall_nil|cbn [length]; intros c Hc; cbn in Hc; lia].
Ltac ex_first := split; [left; reflexivity|cbn; lia].
Definition ex_alone : trk := mkTrk (ex_track [(12%nat, 20)] [] [] None) 1000 (map (fun i => (100 + 70 * i, 10)) [0;1;2;3;4;5;6;7;8;9;10;11]) 0 0 0 false 0.

(** Without an end time and a stream, the rows of each stream are its samples from where the listing
    begins to the last one, in order. *)
Theorem C87_all : forall n ks visual e start r i st, whole ks e -> begins ks visual e start r -> (total ks < n)%nat -> nth_error (r_streams r) i = Some st ->
  exists rows d, pick_samples n ks visual e start 0 (-1) = Some (rows, d) /\ rows_of i rows = rest st.
Proof. intros n ks visual e start r i st W B T N. destruct (pick_all n ks visual e start r i st W B T N) as (rows & A & C). eexists _, _. split; [exact A|exact C]. Qed.
Print Assumptions C87_all.
Example C87_all_nonvacuous : whole [ex_video; ex_audio] 2000 /\ (total [ex_video; ex_audio] < 19)%nat /\ begins [ex_video; ex_audio] [true; false] 2000 0 (opened [ex_video; ex_audio] 2000)
  /\ (exists r, begins [ex_video; ex_audio] [true; false] 2000 1300000 r /\ map (fun st => length (rest st)) (r_streams r) = [3; 6]%nat)
  /\ exists rows d, pick_samples 19 [ex_video; ex_audio] [true; false] 2000 1300000 0 (-1) = Some (rows, d) /\ map s_dec (rows_of 0 rows) = [1200000; 1600000; 2000000].
Proof.
  split; [ex_whole|]. split; [vm_compute; lia|]. split; [left; split; reflexivity|]. split; [eexists; split; [right; split; [lia|vm_compute; reflexivity]|vm_compute; reflexivity]|].
  eexists _, _. split; [vm_compute; reflexivity|vm_compute; reflexivity].
Qed.
(** From the start, they are all the samples of the track. *)
Theorem C87_whole : forall n ks visual e i k, whole ks e -> (total ks < n)%nat -> nth_error ks i = Some k ->
  exists rows d, pick_samples n ks visual e 0 0 (-1) = Some (rows, d) /\ rows_of i rows = samples_of k.
Proof.
  intros n ks visual e i k W T N. destruct (opened_ok ks e W) as (_ & _ & _ & _ & O). destruct (O i k N) as (st & N2 & R). rewrite <- R.
  exact (C87_all n ks visual e 0 _ i st W (or_introl (conj eq_refl eq_refl)) T N2).
Qed.
Print Assumptions C87_whole.
Example C87_whole_nonvacuous : whole [ex_video; ex_audio] 2000 /\ (total [ex_video; ex_audio] < 19)%nat /\ length (samples_of ex_audio) = 12%nat.
Proof. split; [ex_whole|]. split; [vm_compute; lia|vm_compute; reflexivity]. Qed.
(** With a stream selected, the rows are the samples of this stream up to the first one decoded at the
    end time or later, whatever the other streams are. *)
Theorem C87_one : forall n ks visual e start end_ r i st, whole ks e -> begins ks visual e start r -> (total ks < n)%nat -> 0 <= end_ < 2 ^ 63 -> nth_error (r_streams r) i = Some st ->
  exists rows d, pick_samples n ks visual e start end_ (Z.of_nat i) = Some (rows, d) /\ rows = map (fun x => (i, x)) (through (at_end end_) (rest st)).
Proof. intros n ks visual e start end_ r i st W B T E N. destruct (pick_one n ks visual e start end_ r i st W B T E N) as (rows & A & C). eexists _, _. split; [exact A|exact C]. Qed.
Print Assumptions C87_one.
Example C87_one_nonvacuous : exists rows d, pick_samples 19 [ex_video; ex_audio] [true; false] 2000 0 1000000 0 = Some (rows, d) /\ map (fun p => (fst p, s_dec (snd p))) rows = [(0%nat, 0); (0%nat, 400000); (0%nat, 800000); (0%nat, 1200000)].
Proof. eexists _, _. split; [vm_compute; reflexivity|vm_compute; reflexivity]. Qed.
(** With an end time and no stream selected, the listing is the one without an end time up to the first
    sample, of any stream, decoded at the end time or later. *)
Theorem C87_order : forall n ks visual e start end_ r, whole ks e -> begins ks visual e start r -> (total ks < n)%nat -> 0 <= end_ < 2 ^ 63 ->
  exists l d d', pick_samples n ks visual e start 0 (-1) = Some (l, d) /\ pick_samples n ks visual e start end_ (-1) = Some (through (fun p => at_end end_ (snd p)) l, d').
Proof.
  intros n ks visual e start end_ r W B T E. destruct (pick_order n ks visual e start end_ r W B T E) as (l & r' & K & P). destruct (pick_order n ks visual e start 0 r W B T) as (l2 & r2 & K2 & P2); [lia|].
  rewrite K in K2. injection K2 as <- <-. rewrite (through_none (nat * sample) (fun p => at_end 0 (snd p)) l) in P2 by (intros p _; reflexivity). eexists l, _, _. split; [exact P2|exact P].
Qed.
Print Assumptions C87_order.
(** Refuted: every sample decoded before the end time is listed.  The first sample at the end, of any
    stream, is the last row: what the file has after it isn't listed, also when it is decoded earlier. *)
Theorem C87_lost_refuted : forall n ks visual e start end_ r a p b d, whole ks e -> begins ks visual e start r -> (total ks < n)%nat -> 0 < end_ < 2 ^ 63 ->
  pick_samples n ks visual e start 0 (-1) = Some (a ++ p :: b, d) -> end_ <= s_dec (snd p) ->
  exists rows d', pick_samples n ks visual e start end_ (-1) = Some (rows, d') /\ (length rows <= S (length a))%nat /\ exists tail, a ++ [p] = rows ++ tail.
Proof.
  intros n ks visual e start end_ r a p b d W B T E P0 H. destruct (C87_order n ks visual e start end_ r W B T) as (l & d1 & d2 & A1 & A2); [lia|]. rewrite P0 in A1. injection A1 as <- _.
  destruct (through_split _ (fun p => at_end end_ (snd p)) a p b) as (c & t & E1 & E2); [unfold at_end; replace (end_ =? 0) with false by lia; cbn [negb andb]; lia|]. rewrite E2 in A2. exists c, d2. split; [exact A2|]. split; [|exists t; exact E1].
  apply (f_equal (@length _)) in E1. rewrite !app_length in E1. cbn in E1. lia.
Qed.
Print Assumptions C87_lost_refuted.
(** the video is stored half a second ahead of the audio *)
Definition ex_ahead : trk := mkTrk (ex_track [(6%nat, 40)] [] [] None) 1000 (map (fun i => (10 + 14 * i, 10)) [0; 1; 2; 3; 4; 5]) 0 0 0 false 0.
Example C87_lost_nonvacuous : whole [ex_ahead; ex_audio] 2000 /\ (total [ex_ahead; ex_audio] < 19)%nat
  /\ (exists a p b d, pick_samples 19 [ex_ahead; ex_audio] [true; false] 2000 0 0 (-1) = Some (a ++ p :: b, d) /\ length a = 2%nat /\ 800000 <= s_dec (snd p) /\ existsb (fun q => s_dec (snd q) <? 800000) b = true)
  /\ exists rows d, pick_samples 19 [ex_ahead; ex_audio] [true; false] 2000 0 800000 (-1) = Some (rows, d) /\ map (fun p => (fst p, s_dec (snd p))) rows = [(0%nat, 0); (0%nat, 400000); (0%nat, 800000)].
Proof.
  split; [split; [lia|]; intros k [<-|[<-|[]]]; cbn [k_places ex_ahead ex_audio map]; repeat (apply Forall_cons; [cbn [fst snd]; lia|]); apply Forall_nil|]. split; [vm_compute; lia|]. split.
  - assert (P : exists l d, pick_samples 19 [ex_ahead; ex_audio] [true; false] 2000 0 0 (-1) = Some (l, d) /\ l = firstn 2 l ++ nth 2 l (0%nat, mkS 0 0 0 0 0 true) :: skipn 3 l /\ length (firstn 2 l) = 2%nat
      /\ 800000 <= s_dec (snd (nth 2 l (0%nat, mkS 0 0 0 0 0 true))) /\ existsb (fun q => s_dec (snd q) <? 800000) (skipn 3 l) = true).
    { eexists _, _. split; [vm_compute; reflexivity|]. split; [reflexivity|]. split; [reflexivity|]. split; [cbn; lia|reflexivity]. }
    destruct P as (l & d & P1 & P2 & P3 & P4 & P5). exists (firstn 2 l), (nth 2 l (0%nat, mkS 0 0 0 0 0 true)), (skipn 3 l), d. rewrite <- P2. auto.
  - eexists _, _. split; [vm_compute; reflexivity|vm_compute; reflexivity].
Qed.
(** The largest distance reported is the largest time from decoding to presentation in the rows,
    and its time the presentation of such a sample. *)
Theorem C87_distance : forall n ks visual e start end_ stream rows d t, pick_samples n ks visual e start end_ stream = Some (rows, (d, t)) -> Forall (fun row => times_ok (snd row)) rows ->
  0 <= d /\ (forall row, In row rows -> s_comp (snd row) - s_dec (snd row) <= d) /\ ((d, t) = (0, 0) \/ exists row, In row rows /\ s_comp (snd row) - s_dec (snd row) = d /\ s_comp (snd row) = t).
Proof.
  intros n ks visual e start end_ stream rows d t P F. assert (M : (d, t) = max_distance rows).
  { unfold pick_samples in P. destruct (if 0 <? start then _ else _); [|discriminate]. destruct (pick_loop _ _ _ _ _) as [l|]; [|discriminate]. cbn in P. injection P as -> <-. reflexivity. }
  exact (distance_fold rows (0, 0) F (Z.le_refl 0) (d, t) M).
Qed.
Print Assumptions C87_distance.
Example C87_distance_nonvacuous : exists rows, pick_samples 19 [ex_late; ex_audio] [true; false] 2000 0 0 0 = Some (rows, (1200000, 1200000)) /\ Forall (fun row => times_ok (snd row)) rows /\ length rows = 6%nat.
Proof. eexists. split; [vm_compute; reflexivity|]. split; [|reflexivity]. repeat (apply Forall_cons; [unfold times_ok; cbn [snd s_dec s_comp]; lia|]). apply Forall_nil. Qed.

(** Trying out: the times collected are those of the samples of the stream up to the first one decoded
    at the end time or later, if there is one. *)
Theorem C87_simul_times : forall n ks visual e start end_ s r st, whole ks e -> move ks e start (first_visual 0 visual) = Some r -> (total ks < n)%nat -> 0 < end_ < 2 ^ 63 -> nth_error (r_streams r) s = Some st ->
  (exists x, In x (rest st) /\ end_ <= s_dec x) -> simul_times n ks visual e start end_ (Z.of_nat s) = Some (Times (map s_comp (through (at_end end_) (rest st)))).
Proof.
  intros n ks visual e start end_ s r st W M T E N (x & I & G). destruct (simul_run n ks visual e start end_ s r st W M T N) as (l & r' & K & Q & P). rewrite P. f_equal. unfold ending.
  rewrite existsb_rows, through_rows, Q by lia. replace (existsb (at_end end_) (rest st)) with true; [reflexivity|]. symmetry. apply existsb_exists. exists x. split; [exact I|]. unfold at_end. replace (end_ =? 0) with false by lia. cbn [negb andb]. lia.
Qed.
Print Assumptions C87_simul_times.
Example C87_simul_times_nonvacuous : (exists r st, move [ex_video; ex_audio] 2000 0 (first_visual 0 [true; false]) = Some r /\ nth_error (r_streams r) 0 = Some st /\ exists x, In x (rest st) /\ 1000000 <= s_dec x)
  /\ simul_times 19 [ex_video; ex_audio] [true; false] 2000 0 1000000 0 = Some (Times [400000; 800000; 1200000; 1600000]).
Proof. split; [|vm_compute; reflexivity]. eexists _, _. split; [vm_compute; reflexivity|]. split; [reflexivity|]. eexists. split; [right; right; right; left; reflexivity|cbn; lia]. Qed.
(** Without a stream (-1) they are those of the first. *)
Theorem C87_simul_default : forall n ks visual e start end_, simul_times n ks visual e start end_ (-1) = simul_times n ks visual e start end_ 0.
Proof. reflexivity. Qed.
Print Assumptions C87_simul_default.
Example C87_simul_default_nonvacuous : simul_times 19 [ex_video; ex_audio] [true; false] 2000 0 1000000 (-1) = Some (Times [400000; 800000; 1200000; 1600000]).
Proof. vm_compute. reflexivity. Qed.
(** Refuted: without an end time, or one after the end, they are the times of the samples of the stream.
    There is one more, that of the sample read last, whatever its stream. *)
Theorem C87_simul_extra_refuted : forall n ks visual e start end_ s r st l p r', whole ks e -> move ks e start (first_visual 0 visual) = Some r -> (total ks < n)%nat -> 0 <= end_ < 2 ^ 63 -> nth_error (r_streams r) s = Some st ->
  (end_ = 0 \/ forall x, In x (rest st) -> s_dec x < end_) -> walk n r = Some (l ++ [p], r') ->
  simul_times n ks visual e start end_ (Z.of_nat s) = Some (Times (map s_comp (rest st) ++ [s_comp (snd p)])).
Proof.
  intros n ks visual e start end_ s r st l p r' W M T E N H WK. destruct (simul_run n ks visual e start end_ s r st W M T N) as (l2 & r2 & K & Q & P). rewrite WK in K. injection K as <- <-. rewrite P. f_equal. unfold ending.
  rewrite existsb_rows, Q by exact E. replace (existsb (at_end end_) (rest st)) with false; [rewrite late_last; rewrite <- Q, map_map; reflexivity|]. symmetry. apply not_true_is_false. intros X. apply existsb_exists in X as (x & I & A). unfold at_end in A.
  destruct H as [->|H]; [discriminate|]. specialize (H x I). lia.
Qed.
Print Assumptions C87_simul_extra_refuted.
(** the sample read last is one of the audio, presented at 2.2 s + 0.5 s *)
Example C87_simul_extra_nonvacuous : (exists r l p r', move [ex_video; ex_audio] 2000 0 (first_visual 0 [true; false]) = Some r /\ walk 19 r = Some (l ++ [p], r') /\ fst p = 1%nat)
  /\ simul_times 19 [ex_video; ex_audio] [true; false] 2000 0 0 0 = Some (Times [400000; 800000; 1200000; 1600000; 2000000; 2400000; 2200000]).
Proof.
  split; [|vm_compute; reflexivity]. assert (P : exists r l r', move [ex_video; ex_audio] 2000 0 (first_visual 0 [true; false]) = Some r /\ walk 19 r = Some (l, r') /\ l = removelast l ++ [last l (0%nat, mkS 0 0 0 0 0 true)] /\ fst (last l (0%nat, mkS 0 0 0 0 0 true)) = 1%nat).
  { eexists _, _, _. split; [vm_compute; reflexivity|]. split; [vm_compute; reflexivity|]. split; reflexivity. }
  destruct P as (r & l & r' & P1 & P2 & P3 & P4). exists r, (removelast l), (last l (0%nat, mkS 0 0 0 0 0 true)), r'. rewrite <- P3. auto.
Qed.

(** The totals: the first is the earliest of the times collected, and each other one is the one before it
    and the time between the sample's presentation and the presentation just before it.  The distance
    reported is the largest time from presentation to total, or 0; the first sample isn't looked at. *)
Theorem C87_totals : forall c0 l m, fair (c0 :: l) -> earliest (c0 :: l) m -> exists ts d t, simulate (c0 :: l) = (m :: ts, (d, t)) /\ length ts = length l /\ 0 <= d
  /\ (forall i, (i < length l)%nat -> (earliest (c0 :: l) (nth i l 0) -> nth i ts 0 = nth i (m :: ts) 0) /\ (forall p, just_before (c0 :: l) p (nth i l 0) -> nth i ts 0 = nth i (m :: ts) 0 + (nth i l 0 - p)))
  /\ (forall i, (i < length l)%nat -> nth i ts 0 - nth i l 0 <= d) /\ (d = 0 \/ exists i, (i < length l)%nat /\ nth i ts 0 - nth i l 0 = d).
Proof. exact simulate_valid. Qed.
Print Assumptions C87_totals.
(** I P B B P B B *)
Example C87_totals_nonvacuous : let l := [0; 1200000; 400000; 800000; 2400000; 1600000; 2000000] in fair l /\ earliest l 0 /\ simulate l = ([0; 400000; 800000; 1200000; 1600000; 2000000; 2400000], (400000, 400000)).
Proof. cbv zeta. split; [ex_fair|]. split; [ex_first|]. vm_compute. reflexivity. Qed.
(** If the first sample is the earliest, the totals are the decoding times given to a track, and the
    distance is the offset it needs. *)
Theorem C87_same : forall c0 l, fair (c0 :: l) -> earliest (c0 :: l) c0 -> exists ts d t, simulate (c0 :: l) = (ts, (d, t)) /\ auto_decoding (c0 :: l) = (ts, d).
Proof. exact simulate_same. Qed.
Print Assumptions C87_same.
Example C87_same_nonvacuous : let l := [0; 1200000; 400000; 800000; 2400000; 1600000; 2000000] in fair l /\ earliest l 0 /\ auto_decoding l = ([0; 400000; 800000; 1200000; 1600000; 2000000; 2400000], 400000).
Proof. cbv zeta. split; [ex_fair|]. split; [ex_first|]. vm_compute. reflexivity. Qed.
(** Refuted for a first sample presented after another: each total is lower than the decoding time by the
    time between the first sample's presentation and the presentation just before it, and the distance
    is less than the offset needed, 0 if the offset is less than that. *)
Theorem C87_low_refuted : forall c0 l m p, fair (c0 :: l) -> earliest (c0 :: l) m -> just_before (c0 :: l) p c0 ->
  exists ts d t ds off, simulate (c0 :: l) = (ts, (d, t)) /\ auto_decoding (c0 :: l) = (ds, off) /\ ts = map (fun x => x - (c0 - p)) ds /\ d = Z.max 0 (off - (c0 - p)).
Proof. exact simulate_low. Qed.
Print Assumptions C87_low_refuted.
(** B I B *)
Example C87_low_nonvacuous : let l := [800000; 0; 400000; 1200000] in fair l /\ earliest l 0 /\ just_before l 400000 800000 /\ simulate l = ([0; 0; 400000; 800000], (0, 0)) /\ auto_decoding l = ([400000; 400000; 800000; 1200000], 400000).
Proof. cbv zeta. split; [ex_fair|]. split; [split; [right; left; reflexivity|cbn; lia]|]. split; [split; [cbn; lia|split; [lia|cbn; lia]]|]. split; vm_compute; reflexivity. Qed.
(** Refuted with the time collected twice at the end of a movie of one stream: samples presented in the order
    in which they are decoded need no offset, and the distance reported is the last time between two. *)
Theorem C87_twice_refuted : forall l a b, StronglySorted Z.lt (l ++ [a; b]) -> fair (l ++ [a; b; b]) -> exists ts t ds, simulate (l ++ [a; b; b]) = (ts, (b - a, t)) /\ auto_decoding (l ++ [a; b]) = (ds, 0).
Proof. exact simulate_twice_off. Qed.
Print Assumptions C87_twice_refuted.
Example C87_twice_nonvacuous : StronglySorted Z.lt ([0; 200000] ++ [400000; 600000]) /\ fair ([0; 200000] ++ [400000; 600000; 600000]) /\ simulate ([0; 200000] ++ [400000; 600000; 600000]) = ([0; 200000; 400000; 600000; 800000], (200000, 600000))
  /\ exists ks, whole ks 2000 /\ simul_times 13 ks [false] 2000 1900000 0 0 = Some (Times [2000000; 2200000; 2200000]).
Proof.
  split; [cbn [app]; repeat (apply SSorted_cons; [|repeat (apply Forall_cons; [lia|]); apply Forall_nil]); apply SSorted_nil|]. split; [cbn [app]; ex_fair|]. split; [vm_compute; reflexivity|].
  exists [ex_alone]. split; [split; [lia|]; intros k [<-|[]]; cbn [k_places ex_alone map]; repeat (apply Forall_cons; [cbn [fst snd]; lia|]); apply Forall_nil|]. vm_compute. reflexivity.
Qed.
