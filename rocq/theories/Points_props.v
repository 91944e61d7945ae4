(** Properties C31 (segments of a dynamic stream) and C32 (looking a time up). *)
From Coq Require Import String ZifyNat.
From Verif Require Import Util Dec_spec Dec_lemmas Str_model Mpd_model Mpd_proofs Points_model Points_proofs Points_proofs2.
Local Open Scope Z_scope.

(** Whatever points are added, in whatever order: the segments announced follow each other
    without gap or overlap from the first time to the last; each starts at a time added and
    carries the original time last given for it; every time but the last starts one; and the
    duration announced is their total. *)
Theorem C31_segments : forall ops, (exists t, added t ops) -> exists lo hi pts, render (i_points (build ops)) = Some pts
  /\ added lo ops /\ added hi ops /\ (forall k, added k ops -> lo <= k <= hi)
  /\ contiguous lo hi (segs pts) /\ duration (i_points (build ops)) = hi - lo /\ fold_right Z.add 0 (map p_dur pts) = hi - lo
  /\ (forall p, In p pts -> last_added (p_time p) ops = Some (p_orig p))
  /\ (forall k, added k ops -> k < hi -> In k (map p_time pts)).
Proof.
  intros ops H. destruct (render_ok ops H) as (lo & hi & pts & A & B & C & D & E & F & G & K). exists lo, hi, pts.
  split; [exact A|]. split; [exact B|]. split; [exact C|]. split; [exact D|]. split; [exact E|]. split; [exact F|]. split; [|split; assumption].
  apply contiguous_sum in E. unfold segs in E. rewrite map_map in E. exact E.
Qed.
Print Assumptions C31_segments.
(** In the DASH and in the Smooth manifest the segments read back are those. *)
Theorem C31_manifests : forall ops pts lo hi, render (i_points (build ops)) = Some pts -> contiguous lo hi (segs pts) -> 0 <= lo -> hi < 2 ^ 64 ->
  (exists es, timeline (timeline_text (segs pts)) = Some es /\ segments 0 es = segs pts)
  /\ read_chunks (length (chunks_text pts)) 0 (chunks_text pts) = Some (segs pts).
Proof.
  intros ops pts lo hi R C L H. split; [|apply (read_chunks_ok pts lo hi L C)]. apply timeline_ok. apply (contiguous_ok _ lo hi L H C).
Qed.
Print Assumptions C31_manifests.
Definition demo : list index_op := [AddFile 0; Add 0 5; Add 20 25; Add 45 50; AddFile 60; Add 60 0; Add 20 26; Add 75 15].
Example C31_nonvacuous : render (i_points (build demo)) = Some [mkpoint 0 20 5; mkpoint 20 25 26; mkpoint 45 15 50; mkpoint 60 15 0]
  /\ chunks_text [mkpoint 0 20 5; mkpoint 20 25 26] = str "<c d=""20"" t=""0""></c>" ++ [13; 10] ++ str "<c d=""25""></c>" ++ [13; 10]
  /\ exists t, added t demo.
Proof. split; [reflexivity|]. split; [reflexivity|]. exists 0. vm_compute. discriminate. Qed.
(** Refuted: the number of segments announced in the Smooth manifest is always one more than
    the segments listed. *)
Theorem C31_count_refuted : forall m pts, render m = Some pts -> chunks_announced m = Z.of_nat (length pts) + 1.
Proof.
  intros [|(k & v) m] pts E; [discriminate|]. injection E as <-. unfold chunks_announced. cbn [length].
  assert (L : forall m t te, length (render_from t te m) = length m) by (induction m0 as [|(k0 & v0) m0 IH]; intros; [reflexivity|]; cbn [render_from length]; rewrite IH; reflexivity).
  rewrite L. lia.
Qed.
Print Assumptions C31_count_refuted.
(** Refuted: a stream to which nothing was added reads the first entry of an empty map. *)
Theorem C31_empty_refuted : forall ops, (forall t, ~ added t ops) -> render (i_points (build ops)) = None.
Proof.
  intros ops H. destruct (i_points (build ops)) as [|(k & v) m] eqn:E; [reflexivity|]. exfalso. apply (H k). apply added_key. rewrite E. left. reflexivity.
Qed.
Print Assumptions C31_empty_refuted.

(** Rebasing by any amount is as if every time had been added moved by it; after rebasing all
    the streams of a presentation none starts before 0, and they move together. *)
Theorem C31_rebase : forall off ops, i_points (index_rebase off (build ops)) = i_points (build (map (shift_op off) ops))
  /\ i_files (index_rebase off (build ops)) = i_files (build (map (shift_op off) ops))
  /\ map fst (i_cross (index_rebase off (build ops))) = map fst (i_cross (build (map (shift_op off) ops))).
Proof. exact rebase_ok. Qed.
Print Assumptions C31_rebase.
Theorem C31_rebase_all : forall l, Forall (fun ops => exists t, added t ops) l ->
  exists off, 0 <= off /\ rebase_all (map (fun ops => i_points (build ops)) l) = map (fun ops => i_points (build (map (shift_op off) ops))) l
  /\ (forall ops, In ops l -> 0 <= mint (i_points (build (map (shift_op off) ops))))
  /\ ((forall ops, In ops l -> 0 <= mint (i_points (build ops))) -> off = 0).
Proof.
  intros l NE. unfold rebase_all. set (S := map (fun ops => i_points (build ops)) l). destruct (least_le S (2 ^ 63 - 1)) as (B & Lm). fold (least_start S) in *.
  assert (Sh : forall off ops, In ops l -> mint (i_points (build (map (shift_op off) ops))) = mint (i_points (build ops)) + off).
  { intros off ops Hin. rewrite points_shift. eapply Forall_forall in NE; [|exact Hin]. destruct NE as (t & Ht). apply added_key in Ht.
    destruct (i_points (build ops)) as [|(k & v) m]; [destruct Ht|reflexivity]. }
  assert (InS : forall ops, In ops l -> In (i_points (build ops)) S) by (intros ops Hin; subst S; exact (in_map (fun ops => i_points (build ops)) l ops Hin)).
  destruct (Z.ltb_spec (least_start S) 0).
  - exists (- least_start S). split; [lia|]. split; [|split].
    + subst S. rewrite map_map. apply map_ext_in. intros ops Hin. replace (least_start _ * -1) with (- least_start (map (fun ops => i_points (build ops)) l)) by lia.
      apply (rebase_ok _ ops).
    + intros ops Hin. rewrite Sh by exact Hin. pose proof (Lm _ (InS _ Hin)). unfold least_start in *. lia.
    + intros Hnn. exfalso. assert (G : forall S a, 0 <= a -> (forall m, In m S -> 0 <= mint m) -> 0 <= fold_left (fun a (m : zmap Z) => if mint m <? a then mint m else a) S a).
      { induction S0 as [|x r IH]; intros a Ha Hm; [exact Ha|]. cbn [fold_left]. apply IH; [|intros m Hmm; apply Hm; right; exact Hmm].
        pose proof (Hm x (or_introl eq_refl)). destruct (mint x <? a); lia. }
      assert (G0 : 0 <= least_start S). { apply G; [lia|]. intros m Hm. subst S. apply in_map_iff in Hm. destruct Hm as (ops & <- & Hin). apply Hnn. exact Hin. }
      lia.
  - exists 0. split; [lia|]. split; [|split].
    + subst S. apply map_ext. intros ops. rewrite points_shift. rewrite <- map_id at 1. apply map_ext. intros (k & v). cbn [fst snd]. rewrite Z.add_0_r. reflexivity.
    + intros ops Hin. rewrite Sh by exact Hin. pose proof (Lm _ (InS _ Hin)). unfold least_start in *. lia.
    + reflexivity.
Qed.
Print Assumptions C31_rebase_all.
Example C31_rebase_nonvacuous : rebase_all (map (fun ops => i_points (build ops)) [[Add (-30) 0; Add 10 40]; [Add (-5) 7; Add 20 32]]) = [[(0, 0); (40, 40)]; [(25, 7); (50, 32)]].
Proof. reflexivity. Qed.
(** Refuted: the times inside a point that joins two files are not moved; the path rendered for
    it is looked up at the old time. *)
Theorem C31_rebase_cross_refuted : forall off t c t2 c2, off <> 0 ->
  get (t + off) (i_cross (index_rebase off (build [AddCross t c t2 c2]))) = Some (mkcross t c t2 c2) /\ mkcross t c t2 c2 <> mkcross (t + off) c (t2 + off) c2.
Proof.
  intros. split; [cbn; rewrite Z.eqb_refl; reflexivity|]. intros E. injection E as E1 E2. lia.
Qed.
Print Assumptions C31_rebase_cross_refuted.

(** The time found for a request is a time added, and none is nearer; past the last one the
    request fails. *)
Theorem C32_closest : forall ops t, (exists a b, a <> b /\ added a ops /\ added b ops) ->
  ((exists k, added k ops /\ t <= k) -> exists k, get_closest (i_points (build ops)) t = Value k /\ added k ops /\ forall k', added k' ops -> Z.abs (k - t) <= Z.abs (k' - t))
  /\ ((forall k, added k ops -> k < t) -> get_closest (i_points (build ops)) t = Throws).
Proof.
  intros ops t (a & b & N & A & B). pose proof (build_sorted ops) as S. apply added_key in A. apply added_key in B.
  split.
  - intros (k & K & L). apply added_key in K. destruct (closest_ok (i_points (build ops)) t S) as (r & E & Hr & M).
    + destruct (i_points (build ops)) as [|p [|q m]]; [destruct A| |cbn [length]; lia]. destruct A as [A|[]], B as [B|[]]. congruence.
    + pose proof (maxt_max _ _ S K). lia.
    + exists r. split; [exact E|]. split; [apply added_key; exact Hr|]. intros k' Hk. apply M. apply added_key. exact Hk.
  - intros H. unfold get_closest. destruct (lower_bound t [] _) as (bf & f) eqn:E. destruct (lb_split _ _ _ _ S E) as (M & _ & F & _).
    destruct f as [|(k & v) f]; [reflexivity|]. exfalso. pose proof (Forall_inv F) as L. cbn in L.
    assert (K : added k ops) by (apply added_key; rewrite M; unfold has_key; rewrite map_app; apply in_or_app; right; left; reflexivity). apply H in K. lia.
Qed.
Print Assumptions C32_closest.
Example C32_nonvacuous : map (get_closest (i_points (build demo))) [0; 9; 10; 11; 32; 33; 75; 76] = [Value 0; Value 0; Value 20; Value 20; Value 20; Value 45; Value 75; Throws]
  /\ exists a b, a <> b /\ added a demo /\ added b demo.
Proof. split; [reflexivity|]. exists 0, 20. split; [lia|]. split; vm_compute; discriminate. Qed.
(** Refuted with a single point: the search steps past the end of the map. *)
Theorem C32_single_refuted : forall c o t, t <= c -> get_closest (i_points (build [Add c o])) t = UB.
Proof. intros c o t H. cbn. unfold get_closest. cbn [lower_bound]. replace (c <? t) with false by lia. reflexivity. Qed.
Print Assumptions C32_single_refuted.
(** The end of a segment in its file: where the next one starts in the file; or, when another
    file starts in between, its own start plus its duration. *)
Theorem C32_end : forall ops a b va vb, next_point a b ops -> last_added a ops = Some va -> last_added b ops = Some vb ->
  (file_between a b ops -> index_end (build ops) a = Value (va + (b - a))) /\ (~ file_between a b ops -> index_end (build ops) a = Value vb).
Proof. exact end_ok. Qed.
Print Assumptions C32_end.
Example C32_end_nonvacuous : map (index_end (build demo)) [0; 20; 45; 60; 75] = [Value 26; Value 50; Value (50 + 15); Value 15; UB]
  /\ next_point 45 60 demo /\ file_between 45 60 demo.
Proof.
  split; [reflexivity|]. split.
  - split; [vm_compute; discriminate|]. split; [vm_compute; discriminate|]. split; [lia|]. intros k H. apply added_key in H. cbn in H. lia.
  - exists 60. split; [cbn; tauto|lia].
Qed.
(** Refuted: before a point joining two files the end is -2^63, whatever the segment. *)
Theorem C32_end_before_cross_refuted : forall ops a b va, next_point a b ops -> last_added a ops = Some va -> last_added b ops = Some CROSS_POINT_TIME -> ~ file_between a b ops ->
  index_end (build ops) a = Value (- 2 ^ 63).
Proof. intros ops a b va N A B F. exact (proj2 (end_ok ops a b va CROSS_POINT_TIME N A B) F). Qed.
Print Assumptions C32_end_before_cross_refuted.
Example C32_end_before_cross_nonvacuous : index_end (build [AddFile 0; Add 0 0; Add 20 20; AddFile 50; AddCross 40 40 50 0; Add 60 10; Add 80 30]) 20 = Value (- 2 ^ 63).
Proof. reflexivity. Qed.
(** The file in force at a time: the one added with the greatest start not after it, or the
    first one. *)
Theorem C32_path : forall (adds : list (Z * list Z)) t, adds <> [] -> exists p k, get_path (add_paths adds) t = Some p /\ get k (file_starts adds) = Some p
  /\ ((k <= t /\ forall k', has_key (file_starts adds) k' -> k' <= t -> k' <= k)
      \/ ((forall k', has_key (file_starts adds) k' -> t < k') /\ forall k', has_key (file_starts adds) k' -> k <= k')).
Proof.
  intros adds t N.
  assert (G : forall k, get k (add_paths adds) = get k (file_starts adds)) by (intros k; apply (add_paths_get adds k N)).
  assert (K : forall k, has_key (file_starts adds) k -> has_key (add_paths adds) k) by (intros k; rewrite !get_key, G; tauto).
  destruct (add_paths_get adds 0 N) as (S & Nm & _).
  destruct (path_ok (add_paths adds) t S Nm) as (p & E & [(k & I1 & L & M)|(F & k & I1 & M)]); exists p, k; (split; [exact E|]); rewrite <- G; (split; [apply get_in; assumption|]).
  - left. split; [exact L|]. intros k' H. apply M. apply K. exact H.
  - right. split; [intros k' H; apply F; apply K; exact H|intros k' H; apply M; apply K; exact H].
Qed.
Print Assumptions C32_path.
Example C32_path_nonvacuous : let m := add_paths [(10, str "a.mp4"); (50, str "b.mp4"); (50, str "c.mp4")] in
  map (get_path m) [0; 9; 10; 49; 50; 51] = [Some (str "a.mp4"); Some (str "a.mp4"); Some (str "a.mp4"); Some (str "a.mp4"); Some (str "b.mp4"); Some (str "b.mp4")].
Proof. reflexivity. Qed.
