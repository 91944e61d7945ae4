(** Lemmas on the Smooth Streaming manifest: what it says of files, levels and sources. *)
From Coq Require Import String ZifyNat Permutation.
From Verif Require Import Util Dec_spec Dec_lemmas Str_model HNano_model Mpd_model Points_model Points_proofs Points_proofs2 Pres_model Pres_proofs Pres_proofs2 Pres_proofs3 Pres_proofs5 Smooth_model Smooth_proofs Smooth_proofs2.
Local Open Scope Z_scope.
Local Ltac Zify.zify_post_hook ::= Z.div_mod_to_equations.

(** * files *)
Inductive sub {A} : list A -> list A -> Prop :=
  | sub_nil : sub [] []
  | sub_skip x a b : sub a b -> sub a (x :: b)
  | sub_keep x a b : sub a b -> sub (x :: a) (x :: b).
Lemma sub_in {A} (a b : list A) : sub a b -> forall x, In x a -> In x b.
Proof. induction 1 as [|x a b H IH|x a b H IH]; intros y Y; [destruct Y|right; apply IH; exact Y|]. destruct Y as [->|Y]; [left; reflexivity|right; apply IH; exact Y]. Qed.
Lemma sub_nodup {A} (a b : list A) : sub a b -> NoDup b -> NoDup a.
Proof. induction 1 as [|x a b H IH|x a b H IH]; intros N; [constructor|inversion N; subst; apply IH; assumption|]. inversion N as [|? ? NI N']; subst. constructor; [intros X; apply NI; apply (sub_in a b H); exact X|apply IH; exact N']. Qed.
Lemma sub_refl {A} (a : list A) : sub a a. Proof. induction a; constructor; assumption. Qed.
Lemma sub_app {A} (a b : list A) : sub a b -> forall c d, sub c d -> sub (a ++ c) (b ++ d).
Proof. induction 1; intros c d H2; [exact H2| |]; cbn [app]; constructor; apply IHsub; exact H2. Qed.
Lemma sub_flat {A B} (f g : A -> list B) l : (forall x, sub (f x) (g x)) -> sub (flat_map f l) (flat_map g l).
Proof. intros H. induction l as [|x l IH]; [constructor|]. cbn [flat_map]. apply sub_app; [apply H|exact IH]. Qed.
Lemma media_sub p : sub (flat_map media_files p) (flat_map strm_files p).
Proof. apply sub_flat. intros s. unfold media_files, strm_files. apply sub_flat. intros r. constructor. apply sub_refl. Qed.
Lemma dec_ends t : 0 <= t -> exists a d, dec t = a ++ [d] /\ is_digit d.
Proof.
  intros T. pose proof (dec_digits t T) as D. assert (NE : dec t <> []) by apply (dec_ok t T).
  destruct (exists_last NE) as (a & d & E). exists a, d. split; [exact E|]. rewrite E in D. apply Forall_app in D. exact (Forall_inv (proj2 D)).
Qed.
Lemma initial_not s r t : 0 <= t -> ~ initial (file_name s r (dec t)).
Proof.
  intros T (a & H). destruct (dec_ends t T) as (b & d & E & D). unfold is_digit in D. unfold file_name in H. rewrite E in H.
  assert (W : forall x y : Z, forall e f g, length e = 4%nat -> length f = 4%nat -> g ++ [x] ++ e = a ++ [95; y] ++ f -> x = y).
  { intros x y e f g Le Lf Q. replace (a ++ [95; y] ++ f) with ((a ++ [95]) ++ y :: f) in Q by (rewrite <- app_assoc; reflexivity). change (g ++ [x] ++ e) with (g ++ x :: e) in Q.
    assert (L : length g = length (a ++ [95])) by (apply (f_equal (@length Z)) in Q; rewrite !app_length in Q; cbn [length] in Q; rewrite app_length; cbn [length] in *; lia).
    clear - L Q. revert Q. generalize dependent (a ++ [95]). intros h. revert h. induction g as [|u g IH]; intros [|v h] L Q; cbn [length] in L; try lia; cbn [app] in Q; [congruence|]. apply (IH h); [lia|congruence]. }
  set (x := if n_audio s then str ".m4a" else str ".m4v") in *. assert (Lx : length x = 4%nat) by (subst x; destruct (n_audio s); reflexivity).
  replace (n_name s ++ str "_" ++ dec r ++ str "_" ++ (b ++ [d]) ++ x) with ((n_name s ++ str "_" ++ dec r ++ str "_" ++ b) ++ [d] ++ x) in H by (rewrite <- !app_assoc; reflexivity).
  assert (Q : d = 105) by (destruct H as [H|H]; [apply (W d 105 x (str ".m4v") _ Lx eq_refl H)|apply (W d 105 x (str ".m4a") _ Lx eq_refl H)]). lia.
Qed.
Lemma initial_is s r : initial (file_name s r (str "i")).
Proof. exists (n_name s ++ str "_" ++ dec r). unfold file_name. rewrite <- !app_assoc. destruct (n_audio s); [right|left]; reflexivity. Qed.
Lemma media_in p u : Forall (fun s => Forall (fun x => 0 <= fst x) (n_points s)) p -> In u (flat_map media_files p) <-> In u (flat_map strm_files p) /\ ~ initial u.
Proof.
  intros F. split.
  - intros I. split; [apply (sub_in _ _ (media_sub p)); exact I|]. apply in_flat_map in I. destruct I as (s & Is & I). unfold media_files in I. apply in_flat_map in I. destruct I as (r & Ir & I). apply in_map_iff in I. destruct I as (t & <- & It).
    apply initial_not. apply all_but_last_in in It. apply in_map_iff in It. destruct It as (x & <- & Ix). rewrite Forall_forall in F. specialize (F s Is). rewrite Forall_forall in F. apply F. exact Ix.
  - intros (I & N). apply in_flat_map in I. destruct I as (s & Is & I). apply in_flat_map. exists s. split; [exact Is|]. apply in_files in I. destruct I as (r & l & Ir & -> & [->|(t & It & ->)]); [exfalso; apply N; apply initial_is|].
    unfold media_files. apply in_flat_map. exists r. split; [exact Ir|]. apply (in_map (fun t => file_name s (r_rate r) (dec t))). exact It.
Qed.
Lemma smooth_resolves l : l <> [] -> Permutation (map (fun y => n_id (y_strm y)) l) (zupto 0 (length l)) -> NoDup (map (fun y => n_name (y_strm y)) l) -> Forall sm_ok l ->
  exists text files, smooth l = Some text /\ files_written (map y_strm l) = Some files /\ NoDup (client_urls text) /\ forall u, In u (client_urls text) <-> In u files /\ ~ initial u.
Proof.
  intros NE H N F. destruct (smooth_is l NE H F) as (off & text & c & d & E & R & O & OZ & T & C & S & M & _).
  assert (H' : Permutation (map n_id (map (moved off) (map y_strm l))) (zupto 0 (length (map (moved off) (map y_strm l))))) by (rewrite !map_map, !map_length; exact H).
  destruct (in_turn_perm _ H') as (q & Eq & P). exists text, (flat_map strm_files q). split; [exact E|]. split; [unfold files_written; rewrite R, Eq; reflexivity|].
  assert (OK : Forall (fun s => rates_ok (n_reps s) /\ sorted (n_points s) /\ Forall (fun x => 0 <= fst x) (n_points s)) (map (moved off) (map y_strm l))).
  { apply Forall_map, Forall_map. apply Forall_forall. intros y I. rewrite Forall_forall in F, M. destruct (M y I) as (M1 & M2). destruct (F y I) as ((_ & Q & (_ & S1 & _) & _) & _). split; [exact Q|]. split; [rewrite M1; apply sorted_shift; exact S1|].
    eapply Forall_impl; [|exact M2]. intros x X. cbv beta in X. lia. }
  assert (U : client_urls text = flat_map media_files (map (moved off) (map y_strm l))).
  { unfold client_urls. rewrite (emits_scan _ _ T). cbn [snd fold_left]. rewrite fold_left_app. change (client_tag (mkClient [] [] 0 [] []) (root_tag d)) with (mkClient [] [] 0 [] []).
    rewrite client_streams.
    - cbn [fold_left]. match goal with |- cl_urls (client_tag ?c _) = _ => change (client_tag c (mkTag (str "/SmoothStreamingMedia") [])) with c end. cbn [cl_urls app]. rewrite C, !map_map. reflexivity.
    - apply Forall_forall. intros x I. assert (I2 : In (fst x) (map (sm_moved off) l)) by (rewrite <- C; apply in_map; exact I). apply in_map_iff in I2. destruct I2 as (y & Q & Iy). rewrite <- Q. rewrite Forall_forall in F, S. destruct (F y Iy) as (_ & B & _).
      rewrite Forall_forall in OK. destruct (OK (moved off (y_strm y))) as ((_ & O1) & O2 & O3); [apply in_map, in_map; exact Iy|]. split; [exact B|]. split; [exact O1|]. split; [exact O2|]. split; [exact O3|]. apply S. exact I. }
  rewrite U. split.
  - apply (sub_nodup _ _ (media_sub _)). apply files_nodup; [|exact OK]. rewrite !map_map. exact N.
  - intros u. rewrite media_in by (eapply Forall_impl; [|exact OK]; intros s X; apply X). split; intros (I & X); (split; [|exact X]).
    + apply (Permutation_in _ (Permutation_flat_map strm_files (Permutation_sym P))). exact I.
    + apply (Permutation_in _ (Permutation_flat_map strm_files P)). exact I.
Qed.

(** * levels *)
Lemma named_levels y l : forall i, named (str "QualityLevel") (level_tags y i l) = level_tags y i l.
Proof. intros i. apply named_all. revert i. induction l as [|r l IH]; intros i; [constructor|]. cbn [level_tags]. constructor; [reflexivity|apply IH]. Qed.
Lemma named_chunks y n l : In n [str "QualityLevel"; str "StreamIndex"] -> forall first, Forall (told y) l -> named n (chunks_tags first l) = [].
Proof.
  intros N first F. apply named_none. revert first. induction l as [|(p & ts) l IH]; intros first; [constructor|]. cbn [chunks_tags]. apply Forall_app. split; [|apply IH; exact (Forall_inv_tail F)].
  unfold chunk_tags. constructor; [|apply Forall_app; split].
  - unfold c_tag. cbn [tag_name]. intros Q. rewrite <- Q in N. destruct N as [N|[N|[]]]; vm_compute in N; discriminate N.
  - eapply Forall_impl; [|exact (told_side y (p, ts) (Forall_inv F))]. intros t [Q|Q] Q2; rewrite Q in Q2; rewrite <- Q2 in N; destruct N as [N|[N|[]]]; vm_compute in N; discriminate N.
  - constructor; [|constructor]. cbn [tag_name]. intros Q. rewrite <- Q in N. destruct N as [N|[N|[]]]; vm_compute in N; discriminate N.
Qed.
Fixpoint all_levels (i : Z) (l : list sm_strm) : list tag := match l with [] => [] | y :: r => level_tags y i (n_reps (y_strm y)) ++ all_levels (i + zlen (n_reps (y_strm y))) r end.
Lemma named_streams c : forall i, Forall shown c -> named (str "QualityLevel") (streams_tags i c) = all_levels i (map fst c) /\ named (str "StreamIndex") (streams_tags i c) = map (fun y => index_tag (y_strm y)) (map fst c).
Proof.
  induction c as [|(y & l) c IH]; intros i F; [split; reflexivity|]. destruct (IH (i + zlen (n_reps (y_strm y))) (Forall_inv_tail F)) as (I1 & I2). destruct (Forall_inv F) as (_ & T). cbn [fst snd] in T. cbn [streams_tags all_levels map fst]. unfold stream_tags.
  assert (W : forall n, named n (index_tag (y_strm y) :: level_tags y i (n_reps (y_strm y)) ++ chunks_tags true l ++ [mkTag (str "/StreamIndex") []]) = named n [index_tag (y_strm y)] ++ named n (level_tags y i (n_reps (y_strm y))) ++ named n (chunks_tags true l) ++ named n [mkTag (str "/StreamIndex") []]).
  { intros n. rewrite <- !named_app. reflexivity. }
  rewrite !named_app, !W, I1, I2. split.
  - rewrite (named_chunks y) by (try exact T; left; reflexivity). rewrite named_levels. change (named (str "QualityLevel") [index_tag (y_strm y)]) with (@nil tag). change (named (str "QualityLevel") [mkTag (str "/StreamIndex") []]) with (@nil tag). cbn [app]. rewrite app_nil_r. reflexivity.
  - rewrite (named_chunks y) by (try exact T; right; left; reflexivity). rewrite (named_none _ (level_tags y i (n_reps (y_strm y)))).
    + reflexivity.
    + generalize (n_reps (y_strm y)). intros rs. revert i I1 I2 W. induction rs as [|r rs IHr]; intros i I1 I2 W; [constructor|]. cbn [level_tags]. constructor; [discriminate|]. assert (X : forall j, Forall (fun t => tag_name t <> str "StreamIndex") (level_tags y j rs)); [|apply X].
      clear. induction rs as [|r rs IH]; intros j; [constructor|]. cbn [level_tags]. constructor; [discriminate|apply IH].
Qed.
Lemma smooth_tags l : l <> [] -> Permutation (map (fun y => n_id (y_strm y)) l) (zupto 0 (length l)) -> Forall sm_ok l ->
  exists off text, smooth l = Some text /\ tags_named (str "QualityLevel") text = all_levels 0 (map (sm_moved off) l)
  /\ tags_named (str "StreamIndex") text = map (fun y => index_tag (y_strm (sm_moved off y))) l
  /\ exists d, tags_named (str "SmoothStreamingMedia") text = [root_tag d] /\ (forall y0, In y0 l -> n_id (y_strm y0) = 0 -> d = maxt (n_points (y_strm y0)) - mint (n_points (y_strm y0))).
Proof.
  intros NE H F. destruct (smooth_is l NE H F) as (off & text & c & d & E & R & O & OZ & T & C & S & M & D). exists off, text. split; [exact E|].
  assert (W : forall n, tags_named n text = named n [root_tag d] ++ named n (streams_tags 0 c) ++ named n [mkTag (str "/SmoothStreamingMedia") []]).
  { intros n. unfold tags_named. rewrite (emits_scan _ _ T). cbn [snd]. rewrite <- !named_app. reflexivity. }
  rewrite !W. destruct (named_streams c 0 S) as (I1 & I2). rewrite I1, I2, C. split; [cbn [named filter]; reflexivity || (rewrite app_nil_r; reflexivity)|]. split; [|exists d; split; [|exact D]].
  - rewrite map_map. cbn [app]. reflexivity || (rewrite app_nil_r; reflexivity).
  - rewrite (named_none _ (streams_tags 0 c)); [reflexivity|]. clear - S. revert S. generalize 0. induction c as [|(y & l) c IH]; intros i S; [constructor|]. cbn [streams_tags]. apply Forall_app. split; [|apply IH; exact (Forall_inv_tail S)]. destruct (Forall_inv S) as (_ & T). cbn [fst snd] in T.
    unfold stream_tags. constructor; [discriminate|]. apply Forall_app. split; [|apply Forall_app; split; [|constructor; [discriminate|constructor]]].
    + clear. generalize (n_reps (y_strm y)). intros rs. revert i. induction rs as [|r rs IHr]; intros i; [constructor|]. cbn [level_tags]. constructor; [discriminate|apply IHr].
    + assert (X : forall first, Forall (fun t => tag_name t <> str "SmoothStreamingMedia") (chunks_tags first l)); [|apply X]. clear - T. induction l as [|(p & ts) l IH]; intros first; [constructor|]. cbn [chunks_tags]. apply Forall_app. split; [|apply (IH (Forall_inv_tail T))]. unfold chunk_tags. constructor; [discriminate|]. apply Forall_app. split; [|constructor; [discriminate|constructor]].
      eapply Forall_impl; [|exact (told_side y (p, ts) (Forall_inv T))]. intros t [Q|Q]; rewrite Q; discriminate.
Qed.

(** * sources *)
Definition is_source (t : tag) : bool := same_text (tag_name t) (str "h") || same_text (tag_name t) (str "cp").
Definition read_source (t : tag) := (tag_name t, attr (str "p") t, option_map undec (attr (str "t") t), option_map undec (attr (str "c") t)).
Lemma no_source ts : Forall (fun t => is_source t = false) ts -> filter is_source ts = [].
Proof. induction ts as [|t ts IH]; intros F; [reflexivity|]. cbn [filter]. rewrite (Forall_inv F). apply IH. exact (Forall_inv_tail F). Qed.
Lemma all_source ts : Forall side ts -> filter is_source ts = ts.
Proof. induction ts as [|t ts IH]; intros F; [reflexivity|]. cbn [filter]. rewrite IH by exact (Forall_inv_tail F). destruct (Forall_inv F) as [Q|Q]; unfold is_source; rewrite Q; reflexivity. Qed.
Lemma chunks_source y l : forall first, Forall (told y) l -> filter is_source (chunks_tags first l) = flat_map snd l.
Proof.
  induction l as [|(p & ts) l IH]; intros first F; [reflexivity|]. cbn [chunks_tags flat_map snd]. rewrite filter_app, IH by exact (Forall_inv_tail F). f_equal. unfold chunk_tags.
  change (filter is_source (c_tag first p :: ts ++ [mkTag (str "/c") []])) with (filter is_source (ts ++ [mkTag (str "/c") []])). rewrite filter_app, all_source by exact (told_side y (p, ts) (Forall_inv F)). apply app_nil_r.
Qed.
Lemma levels_source y rs : forall i, filter is_source (level_tags y i rs) = [].
Proof. induction rs as [|r rs IH]; intros i; [reflexivity|]. cbn [level_tags]. change (filter is_source (level_tag y i r (data_of r) :: level_tags y (i + 1) rs)) with (filter is_source (level_tags y (i + 1) rs)). apply IH. Qed.
Lemma streams_source c : forall i, Forall shown c -> filter is_source (streams_tags i c) = flat_map (fun x => flat_map snd (snd x)) c.
Proof.
  induction c as [|(y & l) c IH]; intros i F; [reflexivity|]. destruct (Forall_inv F) as (_ & T). cbn [fst snd] in T. cbn [streams_tags flat_map snd]. rewrite filter_app, IH by exact (Forall_inv_tail F). f_equal. unfold stream_tags.
  change (filter is_source (index_tag (y_strm y) :: ?a)) with (filter is_source a). rewrite !filter_app, levels_source, (chunks_source y) by exact T. cbn [app]. apply app_nil_r.
Qed.
Definition understood (q : list Z * option (list Z) * option (list Z) * option (list Z)) := let '(n, p, t, c) := q in (n, p, option_map undec t, option_map undec c).
Lemma read_said t : read_source t = understood (says t). Proof. reflexivity. Qed.
Lemma removelast_points m : forall k v, map (fun p => (p_time p, p_orig p)) (render_from k v m) = removelast ((k, v) :: m).
Proof. induction m as [|(k2 & v2) m IH]; intros k v; [reflexivity|]. cbn [render_from map p_time p_orig]. rewrite IH. reflexivity. Qed.
Lemma force_shift off m t : in_force (map (fun x => (fst x + off, snd x)) m) (t + off) = in_force m t.
Proof.
  unfold in_force. replace (match map (fun x => (fst x + off, snd x)) m with [] => [] | (_, p) :: _ => p end) with (match m with [] => [] | (_, p) :: _ => p end) by (destruct m as [|(? & ?) ?]; reflexivity).
  generalize (match m with [] => [] | (_, p) :: _ => p end). induction m as [|(k & v) m IH]; intros p; [reflexivity|]. cbn [map fold_left fst snd]. replace (k + off <=? t + off) with (k <=? t) by (destruct (Z.leb_spec k t), (Z.leb_spec (k + off) (t + off)); lia). apply IH.
Qed.
Lemma get_find {A} k (m : zmap A) : get k m = option_map snd (List.find (fun e => fst e =? k) m).
Proof. induction m as [|(a & b) m IH]; [reflexivity|]. cbn [get List.find fst]. rewrite (Z.eqb_sym a k). destruct (k =? a); [reflexivity|exact IH]. Qed.
Lemma removelast_map {A B} (f : A -> B) l : removelast (map f l) = map f (removelast l).
Proof. induction l as [|a [|b l] IH]; [reflexivity|reflexivity|]. cbn [map removelast] in *. rewrite IH. reflexivity. Qed.
Lemma removelast_in {A} (l : list A) x : In x (removelast l) -> In x l.
Proof. induction l as [|a [|b l] IH]; intros I; [destruct I|destruct I|]. change (In x (a :: removelast (b :: l))) in I. destruct I as [->|I]; [left; reflexivity|right; apply IH; exact I]. Qed.
Lemma point_said off y p m : 0 <= p_time p + off < 2 ^ 63 -> sorted m -> sorted (y_cross y) -> (p_orig p = CROSS_POINT_TIME -> off = 0) ->
  map understood (said_at (sm_moved off y) (mkpoint (p_time p + off) (p_dur p) (p_orig p)) (rebase off m)) = sources_of y off (p_time p, p_orig p) m.
Proof.
  intros T S C O. unfold said_at, sources_of. cbn [p_orig p_time snd fst]. rewrite rebase_map by exact S. destruct (Z.eqb_spec (p_orig p) CROSS_POINT_TIME) as [Q|Q].
  - specialize (O Q). subst off. unfold sm_moved. cbn [y_cross]. rewrite rebase_map by exact C. rewrite get_find.
    assert (Z0 : forall (A : Type) (z : zmap A), map (fun x => (fst x + 0, snd x)) z = z) by (intros A z; rewrite <- (map_id z) at 2; apply map_ext; intros (a & b); cbn [fst snd]; rewrite Z.add_0_r; reflexivity).
    rewrite !Z0, Z.add_0_r. destruct (List.find (fun e => fst e =? p_time p) (y_cross y)) as [(k & c)|]; [|reflexivity]. cbn [option_map snd map]. unfold said, understood. cbn [option_map]. rewrite !undec_dec by apply u64_nonneg. rewrite !Z.add_0_r. reflexivity.
  - rewrite force_shift. unfold said. cbn [map understood option_map]. rewrite !undec_dec by apply u64_nonneg. unfold u64. rewrite (Z.mod_small (p_time p + off)) by lia. reflexivity.
Qed.
Lemma map_flat_map {A B C} (f : A -> list B) (g : B -> C) l : map g (flat_map f l) = flat_map (fun x => map g (f x)) l.
Proof. induction l as [|a l IH]; [reflexivity|]. cbn [flat_map]. rewrite map_app, IH. reflexivity. Qed.
Lemma flat_map_ext_in {A B} (f g : A -> list B) l : (forall x, In x l -> f x = g x) -> flat_map f l = flat_map g l.
Proof. induction l as [|a l IH]; intros H; [reflexivity|]. cbn [flat_map]. rewrite (H a (or_introl eq_refl)), IH by (intros x I; apply H; right; exact I). reflexivity. Qed.
Lemma flat_map_map {A B C} (f : A -> B) (g : B -> list C) l : flat_map g (map f l) = flat_map (fun x => g (f x)) l.
Proof. induction l as [|a l IH]; [reflexivity|]. cbn [map flat_map]. rewrite IH. reflexivity. Qed.
Lemma told_all y l : Forall (told y) l -> map read_source (flat_map snd l) = flat_map (fun p => flat_map (fun m => map understood (said_at y p m)) (y_paths y)) (map fst l).
Proof.
  intros F. rewrite map_flat_map, flat_map_map. apply flat_map_ext_in. intros x I. rewrite Forall_forall in F. specialize (F x I). unfold told in F.
  rewrite (map_ext _ (fun t => understood (says t))) by apply read_said. rewrite <- map_map, F, map_flat_map. reflexivity.
Qed.
Lemma stream_said off y l : sm_ok y -> 0 <= off -> (no_cross y \/ off = 0) -> n_points (moved off (y_strm y)) = map (fun x => (fst x + off, snd x)) (n_points (y_strm y)) -> Forall (fun x => 0 <= fst x < 2 ^ 63) (n_points (moved off (y_strm y))) -> shown (sm_moved off y, l) ->
  map read_source (flat_map snd l) = flat_map (fun x => flat_map (sources_of y off x) (y_paths y)) (removelast (n_points (y_strm y))).
Proof.
  intros (_ & _ & (_ & SO) & (CS & _) & _) O NC E F (R & T). cbn [fst snd] in *. rewrite (told_all _ _ T). unfold sm_moved at 1 in R. cbn [y_strm] in R.
  assert (P : map (fun p => (p_time p, p_orig p)) (map fst l) = map (fun x => (fst x + off, snd x)) (removelast (n_points (y_strm y)))).
  { rewrite <- removelast_map, <- E. destruct (n_points (moved off (y_strm y))) as [|(k & v) m]; [discriminate|]. cbn [render] in R. assert (Q : map fst l = render_from k v m) by congruence. rewrite Q. apply removelast_points. }
  unfold sm_moved at 2. cbn [y_paths].
  assert (W : forall (ps : list point) (xs : list (Z * Z)), map (fun p => (p_time p, p_orig p)) ps = map (fun x => (fst x + off, snd x)) xs -> (forall x, In x xs -> In x (n_points (y_strm y))) ->
    flat_map (fun p => flat_map (fun m => map understood (said_at (sm_moved off y) p m)) (map (rebase off) (y_paths y))) ps = flat_map (fun x => flat_map (sources_of y off x) (y_paths y)) xs).
  { induction ps as [|p ps IH]; intros [|x xs] Q I; try discriminate Q; [reflexivity|]. cbn [map] in Q. assert (Q1 : p_time p = fst x + off /\ p_orig p = snd x) by (split; congruence). destruct Q1 as (Q1 & Q2). assert (Q3 : map (fun p => (p_time p, p_orig p)) ps = map (fun x => (fst x + off, snd x)) xs) by congruence.
    cbn [flat_map]. rewrite (IH xs Q3) by (intros z Iz; apply I; right; exact Iz). f_equal. rewrite flat_map_map. apply flat_map_ext_in. intros m Im.
    assert (Ix : In x (n_points (y_strm y))) by (apply I; left; reflexivity).
    assert (B : 0 <= fst x + off < 2 ^ 63) by (rewrite E in F; rewrite Forall_forall in F; apply (F (fst x + off, snd x)); apply in_map_iff; exists x; split; [reflexivity|exact Ix]).
    destruct x as (a & b). cbn [fst snd] in *.
    pose proof (point_said off y (mkpoint a (p_dur p) b) m) as PS. cbn [p_time p_dur p_orig] in PS. destruct p as [pt pd po]. cbn [p_time p_orig p_dur] in *. subst pt po. apply PS; [exact B| |exact CS|].
    - rewrite Forall_forall in SO. apply (SO m Im).
    - intros Q9. destruct NC as [NC|NC]; [|exact NC]. unfold no_cross in NC. rewrite Forall_forall in NC. exfalso. exact (NC _ Ix Q9). }
  apply W; [exact P|]. intros x. apply removelast_in.
Qed.
Lemma smooth_said l : l <> [] -> Permutation (map (fun y => n_id (y_strm y)) l) (zupto 0 (length l)) -> Forall sm_ok l -> (Forall no_cross l \/ Forall (fun y => Forall (fun x => 0 <= fst x) (n_points (y_strm y))) l) ->
  exists off text, smooth l = Some text /\ 0 <= off /\ (off = 0 \/ exists y, In y l /\ In (- off) (map fst (n_points (y_strm y)))) /\ Forall (fun y => Forall (fun x => 0 <= fst x + off) (n_points (y_strm y))) l
  /\ sources_said text = flat_map (fun y => flat_map (fun x => flat_map (sources_of y off x) (y_paths y)) (removelast (n_points (y_strm y)))) l.
Proof.
  intros NE H F NC. destruct (smooth_is l NE H F) as (off & text & c & d & E & R & O & OZ & T & C & S & M & D). exists off, text. split; [exact E|]. split; [exact O|]. split; [exact OZ|]. split.
  - eapply Forall_impl; [|exact M]. intros y (M1 & M2). rewrite M1 in M2. apply (proj1 (Forall_map _ _ _)) in M2. eapply Forall_impl; [|exact M2]. intros x X. cbn [fst] in X. apply X.
  - change (sources_said text) with (map read_source (filter is_source (snd (scan text)))). rewrite (emits_scan _ _ T). cbn [snd].
    change (filter is_source (root_tag d :: ?a)) with (filter is_source a). rewrite filter_app, streams_source by exact S. change (filter is_source [mkTag (str "/SmoothStreamingMedia") []]) with (@nil tag). rewrite app_nil_r.
    assert (NC' : Forall (fun y => no_cross y \/ off = 0) l).
    { destruct NC as [NC|NC]; [eapply Forall_impl; [|exact NC]; intros y Y; left; exact Y|]. apply Forall_forall. intros y I. right. destruct OZ as [OZ|(y2 & I2 & K)]; [exact OZ|]. rewrite Forall_forall in NC. specialize (NC y2 I2). apply in_map_iff in K. destruct K as (x & Ex & Ix). rewrite Forall_forall in NC. specialize (NC x Ix). lia. }
    clear - C S F M O NC'. revert c C S. induction l as [|y l IH]; intros [|(z & ll) c] C S; try discriminate C; [reflexivity|]. cbn [map fst] in C. assert (Q : z = sm_moved off y) by congruence. subst z. assert (C' : map fst c = map (sm_moved off) l) by congruence.
    cbn [flat_map snd]. rewrite map_app. rewrite (IH (Forall_inv_tail F) (Forall_inv_tail M) (Forall_inv_tail NC') c C' (Forall_inv_tail S)). f_equal. destruct (Forall_inv M) as (M1 & M2).
    apply (stream_said off y ll (Forall_inv F) O (Forall_inv NC') M1 M2 (Forall_inv S)).
Qed.
