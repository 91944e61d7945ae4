(** C79: groups of files published as one presentation: which bit rates are announced, with what
    description, and which file every chunk is read from. *)
From Coq Require Import String Sorted.
From Verif Require Import Util Dec_spec Str_model Points_model Points_proofs2 Pres_model Smooth_model Smooth_proofs Fill_model Fill_proofs Fill_proofs2 Fill_proofs3.
Local Open Scope Z_scope.

(** A file as it is prepared: 1280x720 at a number of bits a second. *)
Definition piece (rate audio : Z) (name : string) : item := mkItem rate audio (str name) true (fun _ => Some ([rate], 1280, 720)).
Definition video : fstrm := mkFs (str "video0") false 0 0 0 [7] 640 360 [] (mkindex [] [] []) 0.
Definition audio : fstrm := mkFs (str "audio1") true 1 48000 2 [9] 0 0 [] (mkindex [] [] []) 0.
Definition two_groups : list group :=
  [mkGroup [piece 500 64 "a1"; piece 900 64 "a2"] [Add 0 0; Add 20 20] 40; mkGroup [piece 900 64 "b2"; piece 500 64 "b1"] [AddCross 40 0 40 35; Add 60 25] 70].

(** Every chunk of a bit rate is read from the file of that bit rate in the group the chunk's time
    is in. *)
Theorem C79_source : forall s gs s' stop composition, fresh s -> gs <> [] -> fill true s gs = Some s' -> in_order 0 gs -> composition <> - 2 ^ 63 ->
  exists y, shown_as (close s' stop composition) = Some y /\ length (y_paths y) = length (n_reps (y_strm y)) /\
    forall rp paths t g it, In (rp, paths) (combine (n_reps (y_strm y)) (y_paths y)) -> group_at t gs = Some g -> file_of (f_audio s) (r_rate rp) (g_items g) = Some it ->
      in_force paths t = it_path it.
Proof.
  intros s gs s' stop c F NE E O C. destruct gs as [|g0 gs]; [contradiction|]. destruct (publish_ok s g0 gs s' stop c F E O C) as (y & Y1 & _ & _ & _ & _ & _ & _ & _ & _ & _ & YL & Y). exists y. split; [exact Y1|]. split; [exact YL|].
  intros rp p t g it X G I. destruct (Y rp p X) as (it0 & b & I0 & P & _). destruct (source_ok s (g0 :: gs) s' (r_rate rp) t g it F E O) as (b' & B1 & B2); [constructor; [congruence|constructor]|exact G|exact I|].
  destruct (fill_paths s g0 gs s' F E O _ _ I0) as (b2 & B3 & B4 & _). assert (b2 = b') by congruence. subst b2. rewrite <- P in B4. rewrite B4 in B2.
  destruct O as (O1 & _ & O3). destruct (starts_keys (f_audio s) (r_rate rp) gs (g_end g0) O3) as (K & S). rewrite path_in_force in B2; [congruence| |rewrite P; discriminate].
  rewrite P. cbn [sorted]. split; [|exact S]. eapply Forall_impl; [|exact K]. intros x Q. cbv beta in Q. lia.
Qed.
Print Assumptions C79_source.
Example C79_source_nonvacuous : exists s' y, fresh video /\ fill true video two_groups = Some s' /\ in_order 0 two_groups /\ shown_as (close s' 70 35) = Some y
  /\ group_at 40 two_groups = Some (nth 1 two_groups (mkGroup [] [] 0)) /\ map (fun p => in_force p 39) (y_paths y) = [str "a1"; str "a2"] /\ map (fun p => in_force p 40) (y_paths y) = [str "b1"; str "b2"].
Proof.
  do 2 eexists. split; [vm_compute; auto|]. split; [vm_compute; reflexivity|]. split; [|split; [vm_compute; reflexivity|split; [reflexivity|split; vm_compute; reflexivity]]].
  cbn. split; [lia|]. split; [constructor; [cbn; lia|constructor; [cbn; lia|constructor]]|]. split; [lia|]. split; [constructor; [cbn; lia|constructor; [cbn; lia|constructor]]|exact Logic.I].
Qed.

(** The bit rates announced are those of the first group, each once and in order, and every one but
    the first file's is described by its own file.  The first's is described by the stream. *)
Theorem C79_rates : forall s first rest points stop1 gs s' stop composition, fresh s -> f_audio s = false ->
  fill true s (mkGroup (first :: rest) points stop1 :: gs) = Some s' -> in_order 0 (mkGroup (first :: rest) points stop1 :: gs) -> composition <> - 2 ^ 63 ->
  NoDup (map it_rate (first :: rest)) ->
  exists y, shown_as (close s' stop composition) = Some y /\ StronglySorted Z.lt (map r_rate (n_reps (y_strm y))) /\
    (forall r, In r (map r_rate (n_reps (y_strm y))) <-> In r (map it_rate (first :: rest))) /\
    (forall rp, In rp (n_reps (y_strm y)) -> r_rate rp = it_rate first -> r_private rp = f_private s /\ r_width rp = f_width s /\ r_height rp = f_height s) /\
    (forall rp it, In rp (n_reps (y_strm y)) -> In it rest -> r_rate rp = it_rate it -> it_visual it (f_id s) = Some (r_private rp, r_width rp, r_height rp)).
Proof.
  intros s h t ps e gs s' stop c F A E O C N. destruct (publish_ok s _ gs s' stop c F E O C) as (y & Y1 & _ & _ & _ & Y2 & Y3 & _ & _ & _ & _ & YL & Y). cbn [g_items] in *.
  exists y. split; [exact Y1|]. split; [exact Y2|]. split.
  - intros r. rewrite Y3, file_of_iff, in_map_iff. unfold rate_of. rewrite A. split; intros (it & X1 & X2); exists it; split; assumption.
  - assert (M : forall rp, In rp (n_reps (y_strm y)) -> exists b, made s (h :: t) (r_rate rp) b /\ rp = mkRep (r_rate rp) (b_width b) (b_height b) (b_private b)).
    { intros rp I. destruct (In_nth _ _ rp I) as (i & I1 & I2). destruct (Y rp (nth i (y_paths y) [])) as (it & b & _ & _ & M1 & M2).
      - rewrite <- I2 at 1. rewrite <- combine_nth by (symmetry; exact YL). apply nth_In. rewrite combine_length, YL, Nat.min_id. exact I1.
      - exists b. split; assumption. }
    inversion_clear N. rename H into N1. rename H0 into N2. split.
    + intros rp I R. destruct (M rp I) as (b & [(_ & M1 & M2 & M3)|(_ & it & J & K & _)] & ->); cbn [r_private r_width r_height]; [repeat split; assumption|]. exfalso. apply N1. rewrite <- R, <- K. apply in_map. exact J.
    + intros rp it I J R. destruct (M rp I) as (b & [(K & _)|(_ & it2 & J2 & K2 & V)] & Q); rewrite Q; cbn [r_private r_width r_height].
      * exfalso. apply N1. unfold rate_of in K. rewrite A in K. rewrite K, R. apply in_map. exact J.
      * assert (it2 = it); [|subst it2; exact V]. rewrite R in K2. clear - J J2 K2 N2. induction t as [|x t IH]; [destruct J|]. cbn [map] in N2. inversion_clear N2. destruct J as [<-|J]; destruct J2 as [<-|J2].
        -- reflexivity.
        -- exfalso. apply H. rewrite <- K2. apply in_map. exact J2.
        -- exfalso. apply H. rewrite K2. apply in_map. exact J.
        -- apply IH; assumption.
Qed.
Print Assumptions C79_rates.
Example C79_rates_nonvacuous : exists s' y, fill true video two_groups = Some s' /\ shown_as (close s' 70 35) = Some y
  /\ n_reps (y_strm y) = [mkRep 500 640 360 [7]; mkRep 900 1280 720 [900]].
Proof. do 2 eexists. split; [vm_compute; reflexivity|]. split; [vm_compute; reflexivity|]. vm_compute. reflexivity. Qed.

(** What is published this way can be shown: points in order, sources for every bit rate in order of
    their start, and the parts of every chunk that spans two files. *)
Theorem C79_publishable : forall s gs s' stop composition, fresh s -> gs <> [] -> fill true s gs = Some s' -> in_order 0 gs -> composition <> - 2 ^ 63 ->
  Forall (fun g => Forall (fun it => ~ In 34 (it_path it)) (g_items g)) gs ->
  exists y, shown_as (close s' stop composition) = Some y /\ n_name (y_strm y) = f_name s /\ n_audio (y_strm y) = f_audio s /\ n_id (y_strm y) = f_id s
    /\ sources_ok y /\ n_points (y_strm y) <> [] /\ sorted (n_points (y_strm y)) /\ sorted (y_cross y)
    /\ forall t, In (t, - 2 ^ 63) (n_points (y_strm y)) -> exists c, In (t, c) (y_cross y).
Proof.
  intros s gs s' stop c F NE E O C Q. destruct gs as [|g gs]; [contradiction|]. destruct (publish_ok s _ gs s' stop c F E O C) as (y & Y1 & Y2 & Y3 & Y4 & _ & _ & Y5 & Y6 & Y7 & Y8 & YL & Y). exists y.
  split; [exact Y1|]. split; [exact Y2|]. split; [exact Y3|]. split; [exact Y4|]. split; [|split; [exact Y5|split; [exact Y6|split; [exact Y7|exact Y8]]]]. split; [exact YL|].
  apply Forall_forall. intros m M. destruct (In_nth _ _ [] M) as (i & I1 & I2). destruct (Y (nth i (n_reps (y_strm y)) (mkRep 0 0 0 [])) m) as (it & b & J & -> & _).
  - rewrite <- I2 at 1. rewrite <- combine_nth by (symmetry; exact YL). apply nth_In. rewrite combine_length, YL, Nat.min_id. rewrite <- YL. exact I1.
  - set (r := r_rate _) in *. clearbody r. split; [discriminate|]. destruct O as (O1 & _ & O3). destruct (starts_keys (f_audio s) r gs (g_end g) O3) as (K & S). split.
    + cbn [sorted]. split; [|exact S]. eapply Forall_impl; [|exact K]. intros x X. cbv beta in X. lia.
    + constructor.
      * cbn [snd]. apply file_of_in in J. pose proof (Forall_inv Q) as Q1. cbv beta in Q1. rewrite Forall_forall in Q1. apply Q1. apply J.
      * eapply Forall_impl; [|apply starts_paths]. intros x (g' & it' & G & J2 & X). cbv beta in *. rewrite X. apply Forall_inv_tail in Q. rewrite Forall_forall in Q. specialize (Q _ G). rewrite Forall_forall in Q. apply Q. exact J2.
Qed.
Print Assumptions C79_publishable.
Example C79_publishable_nonvacuous : exists s', fill true video two_groups = Some s' /\ Forall (fun g => Forall (fun it => ~ In 34 (it_path it)) (g_items g)) two_groups
  /\ i_points (f_index (close s' 70 35)) = [(0, 0); (20, 20); (40, - 2 ^ 63); (60, 25); (70, 35)].
Proof.
  eexists. split; [vm_compute; reflexivity|]. split; [|vm_compute; reflexivity].
  constructor; [|constructor; [|constructor]]; cbn [g_items]; (constructor; [intros I; vm_compute in I; intuition discriminate|constructor; [intros I; vm_compute in I; intuition discriminate|constructor]]).
Qed.

(** A later group with a bit rate the first group does not have is refused. *)
Theorem C79_unknown : forall s g gs g' it, fresh s -> f_audio s = false -> In g' gs -> In it (g_items g') -> ~ In (it_rate it) (map it_rate (g_items g)) -> fill true s (g :: gs) = None.
Proof.
  intros s g gs g' it F A I J N. apply (fill_unknown s g gs g' it F I J). intros it' I' Q. apply N. unfold rate_of in Q. rewrite A in Q. rewrite <- Q. apply in_map. exact I'.
Qed.
Print Assumptions C79_unknown.
Example C79_unknown_nonvacuous : fill true video [mkGroup [piece 500 64 "a1"] [Add 0 0] 40; mkGroup [piece 500 64 "b1"; piece 900 64 "b2"] [Add 40 0] 80] = None.
Proof. vm_compute. reflexivity. Qed.
(** Files of a group with different audio bit rates, though every group has them alike, are refused:
    only the first file's audio bit rate is taken up. *)
Theorem C79_audio_refuted : forall s first rest points stop gs, fresh s -> f_audio s = true -> Exists (fun it => it_audio it <> it_audio first) rest ->
  fill true s (mkGroup (first :: rest) points stop :: gs) = None.
Proof.
  intros s h t ps e gs F A X. cbn [fill g_items]. destruct (begin_processing true s (h :: t)) as [s1|] eqn:B; [|reflexivity]. exfalso. pose proof (begin_audio s h t s1 F A B) as Y. rewrite Forall_forall in Y. apply Exists_exists in X. destruct X as (it & I & N). exact (N (Y it I)).
Qed.
Print Assumptions C79_audio_refuted.
Example C79_audio_nonvacuous : exists s' y, fresh audio /\ Exists (fun it => it_audio it <> it_audio (piece 500 64 "a1")) [piece 900 128 "a2"] /\ fill true audio two_groups = Some s' /\ shown_as (close s' 70 35) = Some y
  /\ n_reps (y_strm y) = [mkRep 64 0 0 [9]].
Proof. do 2 eexists. split; [vm_compute; auto|]. split; [constructor; vm_compute; discriminate|]. split; [vm_compute; reflexivity|]. split; [vm_compute; reflexivity|]. vm_compute. reflexivity. Qed.

(** A later group without one of the bit rates: its chunks are announced in that bit rate too and
    read from the file of the group before. *)
Theorem C79_missing_refuted : forall s g1 g2 s' stop composition it1 r, fresh s -> fill true s [g1; g2] = Some s' -> in_order 0 [g1; g2] -> composition <> - 2 ^ 63 ->
  file_of (f_audio s) r (g_items g1) = Some it1 -> file_of (f_audio s) r (g_items g2) = None ->
  exists y rp paths, shown_as (close s' stop composition) = Some y /\ In (rp, paths) (combine (n_reps (y_strm y)) (y_paths y)) /\ r_rate rp = r /\ forall t, in_force paths t = it_path it1.
Proof.
  intros s g1 g2 s' stop c it1 r F E O C I1 I2. destruct (publish_ok s _ _ s' stop c F E O C) as (y & Y1 & _ & _ & _ & _ & Y3 & _ & _ & _ & _ & YL & Y). exists y.
  assert (IR : In r (map r_rate (n_reps (y_strm y)))) by (apply Y3; rewrite I1; discriminate). apply in_map_iff in IR. destruct IR as (rp & R & I). destruct (In_nth _ _ rp I) as (i & J1 & J2). exists rp, (nth i (y_paths y) []).
  assert (X : In (rp, nth i (y_paths y) []) (combine (n_reps (y_strm y)) (y_paths y))). { rewrite <- J2 at 1. rewrite <- combine_nth by (symmetry; exact YL). apply nth_In. rewrite combine_length, YL, Nat.min_id. exact J1. }
  split; [exact Y1|]. split; [exact X|]. split; [exact R|]. intros t. destruct (Y _ _ X) as (it & b & K & P & _). rewrite P. rewrite R in *. cbn [starts]. rewrite I2. assert (it = it1) by congruence. subst it. unfold in_force. cbn [fold_left fst snd]. destruct (0 <=? t); reflexivity.
Qed.
Print Assumptions C79_missing_refuted.
Example C79_missing_nonvacuous : exists s', fill true video [mkGroup [piece 500 64 "a1"; piece 900 64 "a2"] [Add 0 0] 40; mkGroup [piece 900 64 "b2"] [Add 40 0] 80] = Some s'.
Proof. eexists. vm_compute. reflexivity. Qed.
(** Two files of the first group with one bit rate: the description is the last one's, the file read
    the first one's. *)
Theorem C79_same_rate_refuted : exists s' y, fill true video [mkGroup [piece 500 64 "a1"; mkItem 500 64 (str "a2") true (fun _ => Some ([5], 320, 180))] [Add 0 0] 40] = Some s'
  /\ shown_as (close s' 40 40) = Some y /\ n_reps (y_strm y) = [mkRep 500 320 180 [5]] /\ y_paths y = [[(0, str "a1")]].
Proof. do 2 eexists. split; [vm_compute; reflexivity|]. split; [vm_compute; reflexivity|]. split; vm_compute; reflexivity. Qed.
Print Assumptions C79_same_rate_refuted.
(** A group that adds nothing to the stream: its file, not the next group's, is read for the next
    group's chunks. *)
Theorem C79_empty_refuted : exists s' y, fill true video [mkGroup [piece 500 64 "a"] [Add 0 0] 40; mkGroup [piece 500 64 "b"] [] 40; mkGroup [piece 500 64 "c"] [Add 40 0] 80] = Some s'
  /\ shown_as (close s' 80 40) = Some y /\ map (fun p => in_force p 40) (y_paths y) = [str "b"].
Proof. do 2 eexists. split; [vm_compute; reflexivity|]. split; [vm_compute; reflexivity|]. vm_compute. reflexivity. Qed.
Print Assumptions C79_empty_refuted.
(** A group whose last chunk starts at the group's end (a single key frame closing the file): that
    chunk is read from the next group's file. *)
Theorem C79_last_refuted : exists s' y, fill true video [mkGroup [piece 500 64 "a"] [Add 0 0; Add 40 40] 40; mkGroup [piece 500 64 "b"] [Add 80 40] 120] = Some s'
  /\ shown_as (close s' 120 80) = Some y /\ In (40, 40) (n_points (y_strm y)) /\ map (fun p => in_force p 40) (y_paths y) = [str "b"].
Proof. do 2 eexists. split; [vm_compute; reflexivity|]. split; [vm_compute; reflexivity|]. split; [vm_compute; auto|]. vm_compute. reflexivity. Qed.
Print Assumptions C79_last_refuted.
