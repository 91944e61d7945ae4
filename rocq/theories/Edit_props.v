(** Properties C26 (the join times) and C42 (appending clips). *)
From Coq Require Import ZifyNat.
From Verif Require Import Util Edit_model Edit_proofs Edit_proofs2.
Local Open Scope Z_scope.

(** No stream is joined before its end so far. *)
Theorem C26_not_before_end : forall ends starts i, length ends = length starts -> (i < length ends)%nat ->
  nth i ends 0 <= join_times ends starts i.
Proof. intros. apply join_ge; assumption. Qed.
Print Assumptions C26_not_before_end.
(** Every stream of the clip is moved by the same amount, so they stay in sync. *)
Theorem C26_same_shift : forall ends starts i j, length ends = length starts -> (i < length ends)%nat -> (j < length ends)%nat ->
  join_times ends starts i - nth i starts 0 = join_times ends starts j - nth j starts 0.
Proof. intros. rewrite !join_eq by assumption. lia. Qed.
Print Assumptions C26_same_shift.
(** No smaller common shift would do: a shift that puts every stream after its end is at
    least that one, and some stream has no gap. *)
Theorem C26_least : forall ends starts, length ends = length starts -> ends <> [] ->
  (exists i, (i < length ends)%nat /\ join_times ends starts i = nth i ends 0)
  /\ forall shift, (forall i, (i < length ends)%nat -> nth i ends 0 <= nth i starts 0 + shift) ->
     forall i, (i < length ends)%nat -> join_times ends starts i <= nth i starts 0 + shift.
Proof.
  intros ends starts L N. destruct (join_some ends starts L N) as (k & Hk & Ek). split; [exists k; split; assumption|].
  intros sh H i Hi. pose proof (H k Hk). pose proof (C26_same_shift ends starts i k L Hi Hk). lia.
Qed.
Print Assumptions C26_least.
Example C26_nonvacuous : map (join_times [100; 90; 95] [7; 0; 20]) (seq 0 3) = [100; 93; 113].
Proof. reflexivity. Qed.

(** One shift for all the samples of a clip, whatever the stream: audio and video keep the
    relation they had in it. *)
Theorem C42_sync : forall p n prev f os k, streams_below n f -> edit_file p n prev f = Done (os, k) ->
  exists shift, Forall (fun o => o_comp o = shown f (o_src o) + shift) os.
Proof. exact file_shift. Qed.
Print Assumptions C42_sync.
(** Nothing of the range is lost, duplicated or reordered: with the samples of each stream in
    decoding order, those copied are those kept. *)
Theorem C42_complete : forall p n prev f os k, streams_below n f -> in_decoding_order f (f_samples f) ->
  edit_file p n prev f = Done (os, k) -> map o_src os = filter (kept p f) (f_samples f).
Proof. exact file_complete. Qed.
Print Assumptions C42_complete.
(** Any number of clips: in every stream, each sample of a later clip is presented not before
    the end of the last-presented sample of each earlier clip.  Each clip must give each
    stream a sample presented after time 0, and reorder within the look ahead. *)
Theorem C42_no_overlap : forall n fs res, edit_all n track0 fs = Done res ->
  Forall (fun pf => streams_below n (snd pf) /\ well_ordered (fst pf) (snd pf) /\ Forall (fun s => 0 <= dur_of (snd pf) s) (f_samples (snd pf))) fs ->
  (forall os i, In os res -> (i < n)%nat -> exists o, of_stream i os o /\ 0 < o_comp o) ->
  forall a b A B p f i, (a < b)%nat -> nth_error res a = Some A -> nth_error res b = Some B -> nth_error fs a = Some (p, f) -> (i < n)%nat ->
  exists last, of_stream i A last /\ (forall o, of_stream i A o -> o_comp o <= o_comp last)
    /\ forall o, of_stream i B o -> o_comp last + dur_of f (o_src last) <= o_comp o.
Proof. intros n fs res E H P. exact (proj2 (all_ok n fs track0 res E H P)). Qed.
Print Assumptions C42_no_overlap.
(** No sample of a clip is presented before the end of its stream so far. *)
Theorem C42_not_before : forall p n prev f os k i o, streams_below n f -> well_ordered p f -> edit_file p n prev f = Done (os, k) ->
  of_stream i os o -> k_comp (prev i) + k_dur (prev i) <= o_comp o.
Proof. intros p n prev f os k i o SB WO E. exact (file_no_overlap p n prev f os k SB WO E i o). Qed.
Print Assumptions C42_not_before.

(** concrete clips: [clip off m]: two streams, samples of duration 2 presented from [off] *)
Definition clip (off : Z) (m : nat) : list sample :=
  flat_map (fun i => let t := off + 2 * Z.of_nat i in [mksample 0 t t 2; mksample 1 (t + 1) (t + 1) 2]) (seq 0 m).
Definition the_file (l : list sample) : file := mkfile l (fun _ => 0) (fun i => Nat.eqb i 0) (fun i => Nat.eqb i 0) (fun _ => 2).
Definition whole := mkparams 0 0 true 20.
Definition upto e := mkparams 0 e true 20.
Definition times (i : nat) (os : list out) := map o_comp (filter (fun o => Nat.eqb (o_stream o) i) os).

Example C42_nonvacuous : exists res, edit_all 2 track0 [(upto 6, the_file (clip 0 15)); (whole, the_file (clip 100 15))] = Done res
  /\ map (times 0) (firstn 1 res) = [[0; 2; 4]] /\ map (times 1) (firstn 1 res) = [[1; 3; 5]]
  /\ hd 0 (times 0 (nth 1 res [])) = 6 /\ hd 0 (times 1 (nth 1 res [])) = 7 /\ length (times 1 (nth 1 res [])) = 15%nat.
Proof. eexists. split; [vm_compute; reflexivity|]. vm_compute. repeat split. Qed.
Fixpoint sortedb (f : file) (l : list sample) : bool :=
  match l with [] => true | s :: r => forallb (fun s' => negb (Nat.eqb (s_stream s') (s_stream s)) || (shown f s <=? shown f s')) r && sortedb f r end.
Lemma sorted_within : forall w f l, sortedb f l = true -> reorders_within w f l.
Proof.
  intros w f l H l1 s l2 s' E _ I Q. exists s'. split; [exact I|]. split; [exact Q|]. apply in_split in I. destruct I as (u & v & ->).
  subst l. rewrite <- app_assoc in H. induction u as [|x u IH]; cbn [app sortedb] in H; apply andb_prop in H; destruct H as (H & H'); [|apply IH; exact H'].
  rewrite forallb_forall in H. specialize (H s ltac:(apply in_or_app; right; left; reflexivity)). rewrite Q, Nat.eqb_refl in H. cbn [negb orb] in H. lia.
Qed.
Example C42_hypotheses_met :
  let fs := [(upto 6, the_file (clip 0 15)); (whole, the_file (clip 100 15))] in
  Forall (fun pf => streams_below 2 (snd pf) /\ well_ordered (fst pf) (snd pf) /\ Forall (fun s => 0 <= dur_of (snd pf) s) (f_samples (snd pf))) fs
  /\ exists res, edit_all 2 track0 fs = Done res /\ forall os i, In os res -> (i < 2)%nat -> exists o, of_stream i os o /\ 0 < o_comp o.
Proof.
  cbv zeta. split.
  - repeat (apply Forall_cons; [split; [|split]|]); try apply Forall_nil; cbn [fst snd].
    + apply Forall_forall. intros s Hs. cbv in Hs. repeat (destruct Hs as [<-|Hs]; [cbn [s_stream]; lia|]). destruct Hs.
    + apply sorted_within. vm_compute. reflexivity.
    + apply Forall_forall. intros s Hs. cbv in Hs. repeat (destruct Hs as [<-|Hs]; [cbv; discriminate|]). destruct Hs.
    + apply Forall_forall. intros s Hs. cbv in Hs. repeat (destruct Hs as [<-|Hs]; [cbn [s_stream]; lia|]). destruct Hs.
    + apply sorted_within. vm_compute. reflexivity.
    + apply Forall_forall. intros s Hs. cbv in Hs. repeat (destruct Hs as [<-|Hs]; [cbv; discriminate|]). destruct Hs.
  - eexists. split; [vm_compute; reflexivity|].
    intros os i [<-|[<-|[]]] Hi; (destruct i as [|[|i]]; [| |lia]).
    + eexists. split; [split; [do 2 right; left; reflexivity|reflexivity]|reflexivity].
    + eexists. split; [split; [do 3 right; left; reflexivity|reflexivity]|reflexivity].
    + eexists. split; [split; [do 2 right; left; reflexivity|reflexivity]|reflexivity].
    + eexists. split; [split; [do 3 right; left; reflexivity|reflexivity]|reflexivity].
Qed.

(** Refuted: when the only sample of a clip is presented at time 0 its duration is forgotten
    and the next clip is put on top of it. *)
Theorem C42_single_sample_refuted : exists res, edit_all 1 track0
    [(upto 1, mkfile (map (fun i => mksample 0 (2 * Z.of_nat i) (2 * Z.of_nat i) 2) (seq 0 30)) (fun _ => 0) (fun _ => false) (fun _ => false) (fun _ => 2));
     (whole, mkfile (map (fun i => mksample 0 (2 * Z.of_nat i) (2 * Z.of_nat i) 2) (seq 0 30)) (fun _ => 0) (fun _ => false) (fun _ => false) (fun _ => 2))] = Done res
  /\ times 0 (nth 0 res []) = [0] /\ hd 5 (times 0 (nth 1 res [])) = 0.
Proof. eexists. split; [vm_compute; reflexivity|]. vm_compute. split; reflexivity. Qed.
Print Assumptions C42_single_sample_refuted.
(** Refuted: a stream with no sample in the range of a clip starts again from 0 in the next:
    the second stream is presented up to 29, then again from before. *)
Definition late_second : list sample := map (fun i => mksample 0 (Z.of_nat i) (Z.of_nat i) 1) (seq 0 25) ++ map (fun i => mksample 1 (100 + Z.of_nat i) (100 + Z.of_nat i) 1) (seq 0 25).
Theorem C42_missing_stream_refuted : exists res, edit_all 2 track0
    [(upto 30, the_file (clip 0 25)); (upto 3, the_file late_second); (whole, the_file (map (fun s => mksample (s_stream s) (s_comp s + (if Nat.eqb (s_stream s) 0 then 200 else 0)) (s_dec s) 2) (clip 0 25)))] = Done res
  /\ last (times 1 (nth 0 res [])) 0 = 29 /\ times 1 (nth 1 res []) = [] /\ hd 0 (times 1 (nth 2 res [])) < 29.
Proof. eexists. split; [vm_compute; reflexivity|]. vm_compute. repeat split; reflexivity. Qed.
Print Assumptions C42_missing_stream_refuted.
(** Refuted: composition and decoding times are moved apart, so with B frames a sample decoded
    before it is presented in the clip can be decoded after it is presented in the result. *)
Definition bframes : list sample := flat_map (fun i => let t := 4 * Z.of_nat i in
  [mksample 0 (t + 1) t 1; mksample 0 (t + 4) (t + 1) 1; mksample 0 (t + 2) (t + 2) 1; mksample 0 (t + 3) (t + 3) 1]) (seq 0 8).
Theorem C42_decoded_late_refuted : in_decoding_order (the_file bframes) bframes /\ exists res, edit_all 1 track0 [(whole, the_file bframes)] = Done res
  /\ exists o, In o (nth 0 res []) /\ o_comp o < o_dec o.
Proof.
  split.
  - split; [|repeat constructor; vm_compute; discriminate].
    assert (X : forall l lo, (forall l1 s l2, l = l1 ++ s :: l2 -> s_dec s = lo + Z.of_nat (length l1)) -> forall l1 s l2 s', l = l1 ++ s :: l2 -> In s' l1 -> s_stream s' = s_stream s -> s_dec s' <= s_dec s).
    { intros l lo H l1 s l2 s' E I _. rewrite (H _ _ _ E). apply in_split in I. destruct I as (u & v & ->). rewrite <- app_assoc in E. cbn [app] in E. rewrite (H u s' (v ++ s :: l2) E). rewrite app_length. lia. }
    apply (X bframes 0). intros l1 s l2 E.
    assert (Y : nth_error bframes (length l1) = Some s) by (rewrite E, nth_error_app2, Nat.sub_diag by lia; reflexivity).
    assert (LL : (length l1 < 32)%nat) by (assert (W : length bframes = 32%nat) by reflexivity; rewrite E, app_length in W; cbn [length] in W; lia).
    clear E. revert Y LL. generalize (length l1). intros m Y LL. do 32 (destruct m as [|m]; [injection Y as <-; reflexivity|]). lia.
  - eexists. split; [vm_compute; reflexivity|]. vm_compute. eexists. split; [right; right; left; reflexivity|]. reflexivity.
Qed.
Print Assumptions C42_decoded_late_refuted.
(** Refuted: a clip of no more samples than the look ahead (20) cannot be appended. *)
Theorem C42_short_refuted : forall p n prev f, (0 < n)%nat -> Z.of_nat (length (f_samples f)) <= p_look_head p -> edit_file p n prev f = EThrown.
Proof.
  intros p n prev f N H. unfold edit_file. destruct (look_ahead p f n (fun _ => None) 0 (f_samples f)) as [|next unread] eqn:E; [reflexivity|].
  pose proof (scan_long0 _ _ _ _ _ _ N E). lia.
Qed.
Print Assumptions C42_short_refuted.
(** Refuted without bounded reordering: a sample presented first but stored after 21 others
    overlaps the clip before. *)
Theorem C42_late_refuted : exists f res, edit_all 1 track0 [(whole, the_file (map (fun i => mksample 0 (Z.of_nat i) (Z.of_nat i) 1) (seq 0 25))); (whole, f)] = Done res
  /\ last (times 0 (nth 0 res [])) 0 = 24 /\ In 4 (times 0 (nth 1 res [])).
Proof.
  exists (the_file (map (fun i => mksample 0 (21 + Z.of_nat i) (Z.of_nat i) 1) (seq 0 22) ++ [mksample 0 0 22 1])).
  eexists. split; [vm_compute; reflexivity|]. vm_compute. split; [reflexivity|]. tauto.
Qed.
Print Assumptions C42_late_refuted.
