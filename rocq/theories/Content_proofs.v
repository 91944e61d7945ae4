From Coq Require Import Sorted.
From Verif Require Import Util SampleTab_model Walk_model Cut_model Cut_proofs Points_model Points_proofs Points_proofs2 Smooth_model Smooth_proofs Content_model.
Local Open Scope Z_scope.

Lemma part_ok lib id base path v k a e : lib path = Some v -> cuttable v id k -> 0 <= a -> exists b, part_frames lib id base (mkPart path a e) = Some (between k a e, b).
Proof.
  intros L (SO & WH & N & (rs & T) & ST & OF) A. unfold part_frames. cbn [pt_path pt_start pt_end]. rewrite L. apply (audio_piece (v_tracks v) (v_end v) id k rs a e base (S (total (v_tracks v))) SO WH N T ST OF A). apply Nat.lt_succ_diag_r.
Qed.
Lemma between_split v id k a b c : cuttable v id k -> a <= b <= c -> between k a b ++ between k b c = between k a c.
Proof. intros (_ & _ & _ & (rs & T) & ST & OF) H. apply (filter_split (presented k)); [exact (sorted_steady rs k T ST OF)|exact H]. Qed.
(** * the end of a segment *)
Lemma from_key_app {A} (pre : zmap A) a v post : Forall (fun x => fst x < a) pre -> from_key a (pre ++ (a, v) :: post) = (a, v) :: post.
Proof. induction 1 as [|(k & u) l H F IH]; cbn [app from_key]; [rewrite Z.eqb_refl; reflexivity|]. cbn [fst] in H. replace (k =? a) with false by lia. exact IH. Qed.
Lemma end_list i pre a va b vb post : i_points i = pre ++ (a, va) :: (b, vb) :: post -> Forall (fun x => fst x < a) pre -> a < b -> StronglySorted Z.lt (i_files i) ->
  ((exists f, In f (i_files i) /\ a < f <= b) -> index_end i a = Value (va + (b - a))) /\ ((forall f, In f (i_files i) -> f <= a \/ b < f) -> index_end i a = Value vb).
Proof.
  intros P F L S. unfold index_end, get_end. rewrite P, from_key_app by exact F. split.
  - intros (f & I & R). destruct (eqset _ _) eqn:Q; [|reflexivity]. exfalso. apply eqset_eq in Q. assert (X : In f (upper_bound a (i_files i))) by (apply upper_in; [exact S|split; [exact I|lia]]). rewrite Q in X. apply upper_in in X; [lia|exact S].
  - intros N. replace (eqset _ _) with true; [reflexivity|]. symmetry. apply eqset_eq. apply upper_same; [exact S|lia|exact N].
Qed.
(** * the plan *)
Definition entry := (Z * Z * Z * trk)%type.
Fixpoint entries (k : trk) (stop : Z) (pts : list (Z * Z)) : list entry :=
  match pts with [] => [] | [x] => [(fst x, snd x, stop, k)] | x :: ((y :: _) as r) => (fst x, snd x, snd y, k) :: entries k stop r end.
Fixpoint plan (cs : list clip) (composition : Z) : list entry :=
  match cs with [] => [] | c :: r => entries (c_track c) (used_until c r composition) (c_points c) ++ plan r composition end.
Definition e_samples (q : entry) : list sample := let '(t, a, e, k) := q in between k a e.
Definition e_job (paths : zmap (list Z)) (q : entry) : job := let '(t, a, e, k) := q in mkJob t [mkPart (in_force paths t) a e].
Fixpoint fstarts (e : Z) (cs : list clip) : list Z := match cs with [] => [] | c :: r => e :: fstarts (c_stop c) r end.
Lemma hd_last_ordered l d : l <> [] -> ordered l -> fst (hd d l) <= fst (List.last l d) /\ snd (hd d l) <= snd (List.last l d).
Proof.
  induction l as [|x l IH]; intros N O; [contradiction|]. destruct l as [|y l]; [cbn; lia|]. destruct O as (O1 & O2 & O3). specialize (IH ltac:(discriminate) O3). change (List.last (x :: y :: l) d) with (List.last (y :: l) d). cbn [hd] in *. lia.
Qed.
Lemma tile v id k stop pts : cuttable v id k -> pts <> [] -> ordered pts -> snd (List.last pts (0, 0)) <= stop -> flat_map e_samples (entries k stop pts) = between k (snd (hd (0, 0) pts)) stop.
Proof.
  intros C N O L. induction pts as [|x pts IH]; [contradiction|]. destruct pts as [|y pts]; [cbn [entries flat_map e_samples hd]; apply app_nil_r|]. destruct O as (O1 & O2 & O3).
  change (entries k stop (x :: y :: pts)) with ((fst x, snd x, snd y, k) :: entries k stop (y :: pts)). cbn [flat_map]. rewrite IH; [|discriminate|exact O3|exact L]. cbn [e_samples hd]. apply (between_split v id); [exact C|]. change (List.last (x :: y :: pts) (0, 0)) with (List.last (y :: pts) (0, 0)) in L. pose proof (hd_last_ordered (y :: pts) (0, 0) ltac:(discriminate) O3) as (_ & H). cbn [hd] in H. lia.
Qed.
Lemma last_in {A} (l : list A) d : l <> [] -> In (List.last l d) l.
Proof. intros N. destruct (exists_last N) as (a & x & ->). rewrite List.last_last. apply in_or_app. right. left. reflexivity. Qed.
Lemma last_default {A} (l : list A) d d' : l <> [] -> List.last l d = List.last l d'.
Proof. intros N. destruct (exists_last N) as (a & x & ->). rewrite !List.last_last. reflexivity. Qed.
Lemma used_plan id cs : forall start composition, laid start cs -> last_orig cs <= composition -> Forall (fun c => exists v, cuttable v id (c_track c)) cs -> flat_map e_samples (plan cs composition) = used cs composition.
Proof.
  induction cs as [|c r IH]; intros start composition L E C; [reflexivity|]. destruct L as (L1 & L2 & L3 & _ & L4). inversion_clear C. destruct H as (v & V). cbn [plan used]. rewrite flat_map_app. f_equal.
  - apply (tile v id); [exact V|exact L1|exact L3|]. destruct r as [|c' r]; cbn [used_until]; [exact E|]. destruct L4 as (M1 & M2 & _). rewrite Forall_forall in L2, M2. pose proof (L2 _ (last_in _ (0, 0) L1)). assert (X : In (hd (0, 0) (c_points c')) (c_points c')) by (destruct (c_points c'); [contradiction|left; reflexivity]). apply M2 in X. lia.
  - destruct r as [|c' r]; [reflexivity|]. apply (IH (c_stop c)); [exact L4|exact E|exact H0].
Qed.
(** * the jobs *)
Lemma path_at (paths : zmap (list Z)) t : sorted paths -> paths <> [] -> get_path paths t = Some (in_force paths t).
Proof. apply path_in_force. Qed.
Lemma u64_small x : 0 <= x < 2 ^ 64 -> u64 x = x.
Proof. intros H. unfold u64. apply Z.mod_small. exact H. Qed.
Lemma job_plain i paths a va e : index_end i a = Value e -> sorted paths -> paths <> [] -> 0 <= a < 2 ^ 62 -> 0 <= va < 2 ^ 62 -> 0 <= e < 2 ^ 63 ->
  job_at i paths (a, va) = Some (mkJob a [mkPart (in_force paths a) va e]).
Proof.
  intros E S N A V B. unfold job_at. cbn [fst snd]. rewrite E. replace (va =? CROSS_POINT_TIME) with false by (unfold CROSS_POINT_TIME; lia). rewrite path_at by assumption. rewrite !u64_small by lia. reflexivity.
Qed.
Lemma removelast_app2 {A} (l : list A) x : removelast (l ++ [x]) = l.
Proof. apply removelast_last. Qed.
Lemma clip_jobs i paths e c (r : list clip) stop post : forall pts pre, i_points i = pre ++ pts ++ post -> Forall (fun x => e <= fst x < c_stop c /\ 0 <= snd x < 2 ^ 61) pts -> ordered pts ->
  sorted (i_points i) -> StronglySorted Z.lt (i_files i) -> sorted paths -> paths <> [] -> 0 <= e -> c_stop c < 2 ^ 61 ->
  (forall f, In f (i_files i) -> f <= e \/ c_stop c <= f) ->
  (pts <> [] -> exists b vb post', post = (b, vb) :: post' /\ c_stop c <= b < 2 ^ 61 /\ 0 <= vb < 2 ^ 61 /\ stop = (match r with [] => vb | _ => snd (List.last pts (0, 0)) + (b - fst (List.last pts (0, 0))) end)
     /\ match r with [] => forall f, In f (i_files i) -> f <= e | _ :: _ => In (c_stop c) (i_files i) end) ->
  map (job_at i paths) pts = map (fun q => Some (e_job paths q)) (entries (c_track c) stop pts).
Proof.
  induction pts as [|x pts IH]; intros pre P F O S1 S2 S3 N E C H X; [reflexivity|]. inversion_clear F. rename H0 into F1. rename H1 into F2. destruct x as (a & va). cbn [fst snd] in F1.
  assert (PRE : Forall (fun y => fst y < a) pre). { rewrite P in S1. apply sorted_app in S1. destruct S1 as (_ & _ & S1). apply Forall_forall. intros y Y. apply (S1 y (a, va) Y). left. reflexivity. }
  destruct pts as [|(b & vb) pts].
  - destruct (X ltac:(discriminate)) as (b & vb & post' & -> & B1 & B2 & B3 & B4). cbn [List.last fst snd] in B3. cbn [entries map e_job fst snd].
    assert (EN : index_end i a = Value stop).
    { destruct (end_list i pre a va b vb post') as (Y & Z0); [exact P|exact PRE|lia|exact S2|]. destruct r as [|c' r].
      - rewrite B3. apply Z0. intros f I. left. apply B4 in I. lia.
      - rewrite B3. apply Y. exists (c_stop c). split; [exact B4|lia]. }
    rewrite (job_plain i paths a va stop EN) by (assumption || (destruct r; lia)). reflexivity.
  - destruct O as (O1 & O2 & O3). cbn [fst snd] in O1, O2. inversion_clear F2. rename H0 into G1. cbn [fst snd] in G1.
    change (entries (c_track c) stop ((a, va) :: (b, vb) :: pts)) with ((a, va, vb, c_track c) :: entries (c_track c) stop ((b, vb) :: pts)). rewrite !map_cons. f_equal.
    + destruct (end_list i pre a va b vb (pts ++ post)) as (_ & Y); [exact P|exact PRE|lia|exact S2|]. rewrite (job_plain i paths a va vb); [reflexivity| |assumption|assumption|lia|lia|lia]. apply Y. intros f I. apply H in I. lia.
    + apply (IH (pre ++ [(a, va)])); try assumption.
      * rewrite P, <- app_assoc. reflexivity.
      * constructor; assumption.
      * intros _. apply X. discriminate.
Qed.
Lemma fstarts_ge e cs : forall start, laid start cs -> e <= start -> Forall (fun f => e <= f) (fstarts start cs).
Proof.
  induction cs as [|c r IH]; intros start L H; [constructor|]. destruct L as (L1 & L2 & _ & _ & L4). constructor; [exact H|]. apply IH; [exact L4|]. rewrite Forall_forall in L2. pose proof (L2 _ (last_in _ (0, 0) L1)). lia.
Qed.
Lemma plan_jobs i paths stop composition : sorted (i_points i) -> StronglySorted Z.lt (i_files i) -> sorted paths -> paths <> [] -> 0 <= composition < 2 ^ 61 -> stop < 2 ^ 61 ->
  forall cs e pre fpre, i_points i = pre ++ flat_map c_points cs ++ [(stop, composition)] -> i_files i = fpre ++ fstarts e cs -> Forall (fun f => f <= e) fpre -> laid e cs -> 0 <= e -> (cs <> [] -> Forall (fun c => c_stop c <= stop) cs) ->
  map (job_at i paths) (flat_map c_points cs) = map (fun q => Some (e_job paths q)) (plan cs composition).
Proof.
  intros S1 S2 S3 N CB SB. induction cs as [|c r IH]; intros e pre fpre P Q F L E W; [reflexivity|]. destruct L as (L1 & L2 & L3 & LC & L4). cbn [flat_map plan]. rewrite !map_app. specialize (W ltac:(discriminate)). inversion_clear W. f_equal.
  - assert (EC : e <= c_stop c) by (rewrite Forall_forall in L2; pose proof (L2 _ (last_in _ (0, 0) L1)); lia).
    assert (G : Forall (fun f => c_stop c <= f) (fstarts (c_stop c) r)) by (apply fstarts_ge; [exact L4|lia]).
    apply (clip_jobs i paths e c r (used_until c r composition) (flat_map c_points r ++ [(stop, composition)]) (c_points c) pre); try assumption.
    + rewrite P. cbn [flat_map]. rewrite <- app_assoc. reflexivity.
    + intros f I. rewrite Q in I. apply in_app_or in I. rewrite Forall_forall in F, G. destruct I as [I|[<-|I]]; [left; apply F; exact I|left; lia|right; apply G; exact I].
    + intros _. destruct r as [|c' r].
      * exists stop, composition, []. split; [reflexivity|]. split; [lia|]. split; [lia|]. split; [reflexivity|]. intros f I. rewrite Q in I. cbn [fstarts] in I. apply in_app_or in I. rewrite Forall_forall in F. destruct I as [I|[<-|[]]]; [apply F; exact I|lia].
      * destruct L4 as (M1 & M2 & M3 & MC & M4). destruct (c_points c') as [|(b & vb) pts] eqn:QQ; [contradiction|]. exists b, vb, (pts ++ flat_map c_points r ++ [(stop, composition)]). inversion_clear M2. cbn [fst snd] in H1.
        split; [cbn [flat_map]; rewrite QQ; rewrite <- !app_assoc; reflexivity|]. split; [lia|]. split; [lia|]. split; [unfold used_until; rewrite QQ; cbn [hd fst]; reflexivity|]. rewrite Q. apply in_or_app. right. cbn [fstarts]. right. left. reflexivity.
  - apply (IH (c_stop c) (pre ++ c_points c) (fpre ++ [e])).
    + rewrite P. cbn [flat_map]. rewrite <- !app_assoc. reflexivity.
    + rewrite Q. cbn [fstarts]. rewrite <- app_assoc. reflexivity.
    + apply Forall_app. rewrite Forall_forall in L2. pose proof (L2 _ (last_in _ (0, 0) L1)). split; [eapply Forall_impl; [|exact F]; intros f X; cbv beta in X; lia|constructor; [lia|constructor]].
    + exact L4.
    + rewrite Forall_forall in L2. pose proof (L2 _ (last_in _ (0, 0) L1)). lia.
    + intros _. exact H0.
Qed.
(** * the segments *)
Lemma e_segment lib id paths q : (exists v, lib (in_force paths (fst (fst (fst q)))) = Some v /\ cuttable v id (snd q)) -> 0 <= snd (fst (fst q)) ->
  exists s, segment lib id (e_job paths q) = Some s /\ seg_time s = fst (fst (fst q)) /\ seg_samples s = e_samples q.
Proof.
  destruct q as (((t & a) & e) & k). cbn [fst snd]. intros (v & V & C) A. unfold segment, e_job. cbn [j_time j_parts parts_frames]. destruct (part_ok lib id t (in_force paths t) v k a e V C A) as (b & ->). eexists. split; [reflexivity|]. split; [reflexivity|]. cbn [seg_samples fst snd]. apply app_nil_r.
Qed.
Lemma e_segments lib id paths qs : Forall (fun q : entry => (exists v, lib (in_force paths (fst (fst (fst q)))) = Some v /\ cuttable v id (snd q)) /\ 0 <= snd (fst (fst q))) qs ->
  exists l, all_some (map (segment lib id) (map (e_job paths) qs)) = Some l /\ map seg_time l = map (fun q => fst (fst (fst q))) qs /\ flat_map seg_samples l = flat_map e_samples qs.
Proof.
  induction 1 as [|q qs (H1 & H2) F (l & IH1 & IH2 & IH3)]; [exists []; repeat split; reflexivity|]. destruct (e_segment lib id paths q H1 H2) as (s & S1 & S2 & S3). exists (s :: l). cbn [map all_some]. rewrite S1, IH1. split; [reflexivity|]. cbn [map flat_map]. rewrite S2, S3, IH2, IH3. split; reflexivity.
Qed.
Lemma entries_in k stop pts q : In q (entries k stop pts) -> snd q = k /\ In (fst (fst (fst q)), snd (fst (fst q))) pts.
Proof.
  induction pts as [|x pts IH]; [intros []|]. destruct pts as [|y pts]; [intros [<-|[]]; split; [reflexivity|left; destruct x; reflexivity]|].
  change (entries k stop (x :: y :: pts)) with ((fst x, snd x, snd y, k) :: entries k stop (y :: pts)). intros [<-|I]; [split; [reflexivity|left; destruct x; reflexivity]|]. destruct (IH I) as (A & B). split; [exact A|right; exact B].
Qed.
Lemma entries_times k stop pts : map (fun q : entry => fst (fst (fst q))) (entries k stop pts) = map fst pts.
Proof. induction pts as [|x pts IH]; [reflexivity|]. destruct pts as [|y pts]; [reflexivity|]. change (entries k stop (x :: y :: pts)) with ((fst x, snd x, snd y, k) :: entries k stop (y :: pts)). cbn [map fst] in *. rewrite IH. reflexivity. Qed.
Lemma plan_times cs composition : map (fun q : entry => fst (fst (fst q))) (plan cs composition) = map fst (flat_map c_points cs).
Proof. induction cs as [|c r IH]; [reflexivity|]. cbn [plan flat_map]. rewrite !map_app, IH, entries_times. reflexivity. Qed.
Lemma all_some_somes {A} (l : list A) : all_some (map Some l) = Some l.
Proof. induction l as [|a l IH]; [reflexivity|]. cbn [map all_some]. rewrite IH. reflexivity. Qed.
Lemma segments_ok lib id i paths stop composition cs e fpre : sorted (i_points i) -> StronglySorted Z.lt (i_files i) -> sorted paths -> paths <> [] -> 0 <= composition < 2 ^ 61 -> stop < 2 ^ 61 ->
  i_points i = flat_map c_points cs ++ [(stop, composition)] -> i_files i = fpre ++ fstarts e cs -> Forall (fun f => f <= e) fpre -> laid e cs -> 0 <= e -> Forall (fun c => c_stop c <= stop) cs -> last_orig cs <= composition ->
  Forall (fun c => exists v, lib (c_path c) = Some v /\ cuttable v id (c_track c) /\ Forall (fun x => in_force paths (fst x) = c_path c) (c_points c)) cs ->
  exists l, segments lib id i paths = Some l /\ map seg_time l = map fst (flat_map c_points cs) /\ flat_map seg_samples l = used cs composition.
Proof.
  intros S1 S2 S3 N CB SB P Q F L E W LO C. unfold segments, jobs. rewrite P, removelast_app2.
  rewrite (plan_jobs i paths stop composition S1 S2 S3 N CB SB cs e [] fpre P Q F L E (fun _ => W)).
  replace (map (fun q => Some (e_job paths q)) (plan cs composition)) with (map Some (map (e_job paths) (plan cs composition))) by (rewrite map_map; reflexivity). rewrite all_some_somes.
  destruct (e_segments lib id paths (plan cs composition)) as (l & L1 & L2 & L3).
  - clear - C L E. revert e L E. induction cs as [|c r IH]; intros e L E; [constructor|]. cbn [plan]. destruct L as (L1 & L2 & _ & _ & L4). inversion_clear C. destruct H as (v & V1 & V2 & V3). apply Forall_app. split.
    + apply Forall_forall. intros q I. apply entries_in in I. destruct I as (I1 & I2). rewrite Forall_forall in L2, V3. pose proof (L2 _ I2) as B. pose proof (V3 _ I2) as V. cbn [fst snd] in B, V. split; [exists v; rewrite V, I1; split; assumption|lia].
    + apply (IH H0 (c_stop c)); [exact L4|]. rewrite Forall_forall in L2. pose proof (L2 _ (last_in _ (0, 0) L1)). lia.
  - exists l. split; [exact L1|]. split; [rewrite L2; apply plan_times|]. rewrite L3. apply (used_plan id cs e); [exact L|exact LO|]. eapply Forall_impl; [|exact C]. intros c (v & _ & V & _). exists v. exact V.
Qed.
