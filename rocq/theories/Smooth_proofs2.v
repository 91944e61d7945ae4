(** Lemmas on the Smooth Streaming manifest: streams, clients, files. *)
From Coq Require Import String ZifyNat Permutation.
From Verif Require Import Util Dec_spec Dec_lemmas Str_model HNano_model Mpd_model Points_model Points_proofs Points_proofs2 Pres_model Pres_proofs Pres_proofs2 Pres_proofs3 Smooth_model Smooth_proofs.
Local Open Scope Z_scope.
Local Ltac Zify.zify_post_hook ::= Z.div_mod_to_equations.

(** * private data *)
Lemma sum_lor a b : 0 <= a -> 0 <= b < 256 -> Z.lor (Z.shiftl a 8) b = a * 256 + b.
Proof.
  intros A B. rewrite Z.shiftl_mul_pow2 by lia. change (2 ^ 8) with 256.
  assert (L : Z.land (a * 256) b = 0).
  { apply Z.bits_inj'. intros n N. rewrite Z.land_spec, Z.bits_0. destruct (Z_lt_le_dec n 8).
    - change 256 with (2 ^ 8). rewrite Z.mul_pow2_bits_low by lia. reflexivity.
    - replace b with (b mod 2 ^ 8) by (apply Z.mod_small; change (2 ^ 8) with 256; lia). rewrite Z.mod_pow2_bits_high by lia. apply andb_false_r. }
  rewrite <- Z.lxor_lor by exact L. rewrite <- Z.add_nocarry_lxor by exact L. reflexivity.
Qed.
Lemma start_codes_ok d sps pps : parameter_sets d sps pps -> start_codes d = Some ([0; 0; 0; 1] ++ sps ++ [0; 0; 0; 1] ++ pps).
Proof.
  intros (A & B & ->). cbn [app]. unfold start_codes. set (b0 := zlen sps / 256). set (b1 := zlen sps mod 256). cbv zeta.
  assert (N : Z.lor (Z.shiftl b0 8) b1 = zlen sps) by (rewrite sum_lor; unfold b0, b1, zlen in *; lia). rewrite N.
  set (c0 := zlen pps / 256). set (c1 := zlen pps mod 256).
  replace (4 + zlen sps <=? zlen (b0 :: b1 :: sps ++ c0 :: c1 :: pps)) with true by (symmetry; apply Z.leb_le; unfold zlen; cbn [length]; rewrite app_length; cbn [length]; lia).
  cbn [skipn]. unfold zlen. rewrite Nat2Z.id. rewrite firstn_app, Nat.sub_diag, firstn_all, firstn_O, app_nil_r.
  replace (Z.to_nat (4 + Z.of_nat (length sps))) with (S (S (length (sps ++ [c0; c1])))) by (rewrite app_length; cbn [length]; lia). cbn [skipn].
  replace (sps ++ c0 :: c1 :: pps) with ((sps ++ [c0; c1]) ++ pps) by (rewrite <- app_assoc; reflexivity). rewrite skipn_app, Nat.sub_diag, skipn_all. reflexivity.
Qed.
Lemma private_ok sps pps : zlen sps < 65536 -> zlen pps < 65536 -> parameter_sets (private_data sps pps) sps pps.
Proof.
  intros A B. split; [exact A|]. split; [exact B|]. unfold private_data.
  assert (Q : forall n, 0 <= n < 65536 -> [Z.land (Z.shiftr n 8) 255; Z.land n 255] = [n / 256; n mod 256]).
  { intros n N. change 255 with (Z.ones 8). rewrite !Z.land_ones by lia. rewrite Z.shiftr_div_pow2 by lia. change (2 ^ 8) with 256. rewrite (Z.mod_small (n / 256)) by lia. reflexivity. }
  rewrite (Q (zlen sps)), (Q (zlen pps)) by (unfold zlen in *; lia). reflexivity.
Qed.

(** * moved streams *)
Lemma sm_rebase_is l : Permutation (map (fun y => n_id (y_strm y)) l) (zupto 0 (length l)) -> Forall (fun y => points_ok (n_points (y_strm y))) l -> Forall (fun y => Forall sorted (y_paths y) /\ sorted (y_cross y)) l ->
  exists off, sm_rebase l = Some (map (sm_moved off) l) /\ rebase_pres (map y_strm l) = Some (map (moved off) (map y_strm l)) /\ 0 <= off
  /\ (off = 0 \/ exists y, In y l /\ has_key (n_points (y_strm y)) (- off))
  /\ forall s, In s (map y_strm l) -> n_points (moved off s) = map (fun x => (fst x + off, snd x)) (n_points s) /\ Forall (fun x => 0 <= fst x < 2 ^ 63) (n_points (moved off s)).
Proof.
  intros H F G. assert (H' : Permutation (map n_id (map y_strm l)) (zupto 0 (length (map y_strm l)))) by (rewrite map_map, map_length; exact H).
  assert (F' : Forall (fun s => points_ok (n_points s)) (map y_strm l)) by (apply Forall_map; exact F).
  destruct (in_turn_perm _ H') as (q & E & P). unfold sm_rebase, rebase_pres. rewrite E. cbv zeta. set (m := least_start (map n_points q)).
  assert (PT : forall s, In s (map y_strm l) -> n_points s <> [] /\ sorted (n_points s) /\ Forall (fun p => - 2 ^ 62 <= fst p < 2 ^ 62) (n_points s)) by (intros s I; rewrite Forall_forall in F'; exact (F' s I)).
  assert (M1 : m = 2 ^ 63 - 1 \/ exists s, In s (map y_strm l) /\ m = mint (n_points s)).
  { unfold m, least_start. generalize (2 ^ 63 - 1). intros a0. assert (X : forall s, In s q -> In s (map y_strm l)) by (intros s; apply Permutation_in; exact P). clear - X. revert a0. induction q as [|s q IH]; intros a0; [left; reflexivity|]. cbn [map fold_left].
    destruct (IH (fun s I => X s (or_intror I)) (if mint (n_points s) <? a0 then mint (n_points s) else a0)) as [Q|(s' & I & Q)]; [|right; exists s'; split; assumption]. destruct (mint (n_points s) <? a0); [|left; exact Q]. right. exists s. split; [apply X; left; reflexivity|exact Q]. }
  assert (M2 : forall s x, In s (map y_strm l) -> In x (n_points s) -> m <= fst x).
  { intros s x I J. destruct (PT s I) as (NE & S & B). apply (Z.le_trans _ (mint (n_points s))).
    - unfold m, least_start. apply least_le. apply in_map. apply (Permutation_in _ (Permutation_sym P)). exact I.
    - apply mint_min; [exact S|]. apply in_map. exact J. }
  assert (M3 : forall s, In s (map y_strm l) -> exists x, In x (n_points s) /\ fst x = mint (n_points s)).
  { intros s I. destruct (PT s I) as (NE & _). pose proof (mint_key _ NE) as K. apply in_map_iff in K. destruct K as (x & Ex & Ix). exists x. split; assumption. }
  assert (R : forall off s, In s (map y_strm l) -> n_points (moved off s) = map (fun x => (fst x + off, snd x)) (n_points s)).
  { intros off s I. unfold moved. cbn [n_points]. apply rebase_map. apply (PT s I). }
  assert (Z0 : forall (A : Type) (z : zmap A), sorted z -> rebase 0 z = z).
  { intros A z S. rewrite rebase_map by exact S. rewrite <- (map_id z) at 2. apply map_ext. intros (a & b). cbn [fst snd]. rewrite Z.add_0_r. reflexivity. }
  exists (if m <? 0 then m * -1 else 0). split; [|split; [|split; [|split]]].
  - f_equal. destruct (m <? 0); [reflexivity|]. rewrite <- (map_id l) at 1. apply map_ext_in. intros y I. unfold sm_moved, moved. rewrite Forall_forall in G. destruct (G y I) as (G1 & G2). rewrite (Z0 _ _ G2), Z0 by (apply (PT (y_strm y)); apply in_map; exact I).
    rewrite (map_ext_in _ (fun z => z)) by (intros z Iz; apply Z0; rewrite Forall_forall in G1; exact (G1 z Iz)). rewrite map_id. destruct y as [[? ? ? ? ? ?] ? ? ? ?]. reflexivity.
  - f_equal. destruct (Z.ltb_spec m 0).
    + rewrite fold_on_id; [|reflexivity|apply zupto_nodup|apply (Permutation_NoDup (Permutation_sym H')); apply zupto_nodup].
      apply map_ext_in. intros s I. replace (existsb (fun i => i =? n_id s) (zupto 0 (length (map y_strm l)))) with true; [reflexivity|]. symmetry. apply existsb_exists. exists (n_id s). split; [|apply Z.eqb_refl].
      apply (Permutation_in _ H'). apply in_map. exact I.
    + rewrite <- (map_id (map y_strm l)) at 1. apply map_ext_in. intros s I. unfold moved. rewrite Z0 by apply (PT s I). destruct s as [? ? ? ? ? ?]. reflexivity.
  - destruct (Z.ltb_spec m 0); lia.
  - destruct (Z.ltb_spec m 0); [right|left; reflexivity]. destruct M1 as [M1|(s & I & M1)]; [lia|]. apply in_map_iff in I. destruct I as (y & <- & I). exists y. split; [exact I|]. replace (- (m * -1)) with m by lia. rewrite M1. apply mint_key. apply (PT (y_strm y)). apply in_map. exact I.
  - intros s I. rewrite R by exact I. split; [reflexivity|]. apply Forall_forall. intros y J. apply in_map_iff in J. destruct J as (x & <- & J). cbn [fst]. pose proof (M2 s x I J) as X1. destruct (PT s I) as (_ & _ & B). rewrite Forall_forall in B. specialize (B x J).
    assert (X2 : m = 2 ^ 63 - 1 \/ - 2 ^ 62 <= m).
    { destruct M1 as [M1|(s' & I' & M1)]; [left; exact M1|]. right. destruct (M3 s' I') as (x' & Ix' & Ex'). destruct (PT s' I') as (_ & _ & B'). rewrite Forall_forall in B'. specialize (B' x' Ix'). lia. }
    destruct (Z.ltb_spec m 0); lia.
Qed.
(** * fit after moving *)
Definition no_cross (y : sm_strm) : Prop := Forall (fun x => snd x <> CROSS_POINT_TIME) (n_points (y_strm y)).
Lemma in_shift {A} off (m : zmap A) k v : In (k, v) (map (fun x => (fst x + off, snd x)) m) <-> In (k - off, v) m.
Proof.
  split.
  - intros I. apply in_map_iff in I. destruct I as ((a & b) & E & I). cbn [fst snd] in E. assert (Q : a = k - off /\ b = v) by (split; [assert (a + off = k) by congruence; lia|congruence]). destruct Q as (-> & ->). exact I.
  - intros I. apply in_map_iff. exists (k - off, v). split; [|exact I]. cbn [fst snd]. f_equal. lia.
Qed.
Lemma moved_fit off y : 0 <= off -> sm_ok y -> n_points (moved off (y_strm y)) = map (fun x => (fst x + off, snd x)) (n_points (y_strm y)) -> Forall (fun x => 0 <= fst x < 2 ^ 63) (n_points (moved off (y_strm y))) -> strm_fit (sm_moved off y).
Proof.
  intros O (OK & _ & (_ & SO) & (CS & CI & CB) & PV) E F. destruct (moved_ready off (y_strm y) OK E F) as (N1 & _ & _ & B & pts & R & PO). unfold strm_fit. unfold sm_moved at 1. cbn [y_strm]. split; [exact N1|]. split.
  - unfold sm_moved. cbn [y_strm y_channels y_bits]. apply Forall_forall. intros r I. unfold level_fit. cbn [y_strm moved n_audio]. intros A. specialize (PV A). rewrite Forall_forall in PV, B. destruct (PV r I) as (sps & pps & P). exists ([0; 0; 0; 1] ++ sps ++ [0; 0; 0; 1] ++ pps). split; [apply start_codes_ok; exact P|].
    specialize (B r I). destruct P as (_ & _ & P). rewrite P in B. unfold bytes in *. apply Forall_app in B. destruct B as (_ & B). apply Forall_app in B. destruct B as (B1 & B). apply Forall_app in B. destruct B as (_ & B2).
    assert (Z4 : Forall is_byte [0; 0; 0; 1]) by (repeat (constructor; [unfold is_byte; lia|]); constructor). apply Forall_app. split; [exact Z4|]. apply Forall_app. split; [exact B1|]. apply Forall_app. split; assumption.
  - split.
    + unfold sm_moved. cbn [y_paths]. apply Forall_map. eapply Forall_impl; [|exact SO]. intros m (M1 & M2 & M3). unfold path_fit. rewrite rebase_map by exact M2. split; [destruct m; [contradiction|discriminate]|]. split; [apply sorted_shift; exact M2|]. apply Forall_map. exact M3.
    + exists pts. split; [exact R|]. apply Forall_forall. intros p I. rewrite Forall_forall in PO. assert (I2 : In (p_time p, p_dur p) (segs pts)) by (unfold segs; apply (in_map (fun p => (p_time p, p_dur p))); exact I).
      specialize (PO _ I2). unfold pt_ok in PO. cbn [fst snd] in PO.
      assert (I3 : In (p_time p, p_orig p) (n_points (moved off (y_strm y)))).
      { clear - R I. unfold sm_moved in R. cbn [y_strm] in R. destruct (n_points (moved off (y_strm y))) as [|(k & v) m]; [discriminate|]. cbn [render] in R. assert (Q : pts = render_from k v m) by congruence. subst pts. apply render_points. exact I. }
      pose proof (proj1 (Forall_forall _ _) F _ I3) as X. cbn [fst] in X. split; [lia|]. split; [lia|]. intros Q.
      rewrite E in I3. apply in_shift in I3. rewrite Q in I3. destruct (CI _ I3) as (c & IC). exists c. split.
      * unfold sm_moved. cbn [y_cross]. rewrite rebase_map by exact CS. apply get_in; [apply sorted_shift; exact CS|]. apply in_shift. exact IC.
      * rewrite Forall_forall in CB. specialize (CB _ IC). cbn [snd] in CB. lia.
Qed.
(** * a client *)
Definition media_files (s : strm) : list (list Z) := flat_map (fun r => map (fun t => file_name s (r_rate r) (dec t)) (all_but_last (n_points s))) (n_reps s).
Lemma client_levels y l : forall index u n ts us, Forall (fun r => 0 <= r_rate r < 2 ^ 31) l ->
  forall rs, fold_left client_tag (level_tags y index l) (mkClient u rs n ts us) = mkClient u (rs ++ map (fun r => dec (r_rate r)) l) n ts us.
Proof.
  induction l as [|r l IH]; intros index u n ts us F rs; [cbn [level_tags fold_left map]; rewrite app_nil_r; reflexivity|]. cbn [level_tags fold_left map].
  assert (W : client_tag (mkClient u rs n ts us) (level_tag y index r (data_of r)) = mkClient u (rs ++ [dec_signed (int32 (r_rate r))]) n ts us) by (unfold level_tag; destruct (n_audio (y_strm y)); reflexivity).
  pose proof (Forall_inv F) as R. cbv beta in R. rewrite W, IH by exact (Forall_inv_tail F). rewrite int32_ok by exact R. unfold dec_signed. replace (r_rate r <? 0) with false by lia. rewrite <- app_assoc. reflexivity.
Qed.
Definition side (t : tag) : Prop := tag_name t = str "h" \/ tag_name t = str "cp".
Lemma told_side y x : told y x -> Forall side (snd x).
Proof.
  unfold told. intros T. assert (S : Forall (fun q => fst (fst (fst q)) = str "h" \/ fst (fst (fst q)) = str "cp") (map says (snd x))).
  { rewrite T. apply Forall_flat_map. apply Forall_forall. intros m _. unfold said_at. destruct (p_orig (fst x) =? CROSS_POINT_TIME).
    - destruct (get (p_time (fst x)) (y_cross y)); [|constructor]. constructor; [right; reflexivity|constructor; [right; reflexivity|constructor]].
    - constructor; [left; reflexivity|constructor]. }
  apply (proj1 (Forall_map _ _ _)) in S. exact S.
Qed.
Lemma client_sides ts : forall c, Forall side ts -> fold_left client_tag ts c = c.
Proof.
  induction ts as [|t ts IH]; intros c F; [reflexivity|]. cbn [fold_left]. rewrite IH by exact (Forall_inv_tail F). destruct (Forall_inv F) as [Q|Q]; unfold client_tag; rewrite Q; reflexivity.
Qed.
Lemma client_chunk (first : bool) p ts u rs n tms us : Forall side ts -> 0 <= p_time p -> 0 <= p_dur p -> (first = true \/ n = p_time p) ->
  fold_left client_tag (chunk_tags first p ts) (mkClient u rs n tms us) = mkClient u rs (p_time p + p_dur p) (tms ++ [p_time p]) us.
Proof.
  intros S T D H. unfold chunk_tags. cbn [fold_left]. rewrite fold_left_app, (client_sides ts) by exact S. cbn [fold_left].
  assert (W : client_tag (mkClient u rs n tms us) (c_tag first p) = mkClient u rs ((if first then undec (dec (p_time p)) else n) + undec (dec (p_dur p))) (tms ++ [if first then undec (dec (p_time p)) else n]) us) by (unfold c_tag; destruct first; reflexivity).
  rewrite W, !undec_dec by assumption. change (client_tag ?c (mkTag (str "/c") [])) with c. destruct first; [reflexivity|]. destruct H as [H|H]; [discriminate|]. rewrite H. reflexivity.
Qed.
Lemma client_chunks y l : forall (first : bool) lo hi u rs n tms us, Forall (told y) l -> 0 <= lo -> contiguous lo hi (segs (map fst l)) -> (first = true \/ n = lo) ->
  exists n', fold_left client_tag (chunks_tags first l) (mkClient u rs n tms us) = mkClient u rs n' (tms ++ map p_time (map fst l)) us.
Proof.
  induction l as [|(p & ts) l IH]; intros first lo hi u rs n tms us T L C H; [exists n; cbn [chunks_tags fold_left map]; rewrite app_nil_r; reflexivity|].
  cbn [map fst segs] in C. unfold segs in C. cbn [map] in C. cbn [contiguous] in C. destruct C as (C1 & C2 & C3). cbn [chunks_tags map fst]. rewrite fold_left_app.
  rewrite client_chunk; [|exact (told_side y (p, ts) (Forall_inv T))|lia|lia|destruct H; [left; assumption|right; lia]].
  destruct (IH false (p_time p + p_dur p) hi u rs (p_time p + p_dur p) (tms ++ [p_time p]) us (Forall_inv_tail T)) as (n' & E); [lia| |right; reflexivity|].
  - exact C3.
  - exists n'. rewrite E, <- app_assoc. reflexivity.
Qed.

Lemma expand_brace_plain b t name rest : ~ In 123 name -> expand_braces b t None (name ++ rest) = name ++ expand_braces b t None rest.
Proof.
  intros N. induction name as [|c name IH]; [reflexivity|]. cbn [app expand_braces]. replace (c =? 123) with false by (symmetry; apply Z.eqb_neq; intros ->; apply N; left; reflexivity). f_equal. apply IH. intros X. apply N. right. exact X.
Qed.
Lemma brace_template b t : expand_braces b t None (str "_{bitrate}_{start time}" ++ str ".m4a") = str "_" ++ b ++ str "_" ++ t ++ str ".m4a" /\ expand_braces b t None (str "_{bitrate}_{start time}" ++ str ".m4v") = str "_" ++ b ++ str "_" ++ t ++ str ".m4v".
Proof.
  assert (W : forall x, expand_braces b t None (str "_{bitrate}_{start time}" ++ x) = 95 :: b ++ 95 :: t ++ expand_braces b t None x) by reflexivity.
  split; rewrite W; reflexivity.
Qed.
Lemma client_stream y index l u : ~ In 123 (n_name (y_strm y)) -> Forall (fun r => 0 <= r_rate r < 2 ^ 31) (n_reps (y_strm y)) -> sorted (n_points (y_strm y)) -> Forall (fun x => 0 <= fst x) (n_points (y_strm y)) ->
  shown (y, l) -> fold_left client_tag (stream_tags y index l) (mkClient [] [] 0 [] u) = mkClient [] [] 0 [] (u ++ media_files (y_strm y)).
Proof.
  intros N R S F (RD & T). cbn [fst snd] in *. unfold stream_tags. rewrite <- app_comm_cons || idtac. cbn [fold_left]. rewrite !fold_left_app.
  set (tpl := n_name (y_strm y) ++ str "_{bitrate}_{start time}" ++ (if n_audio (y_strm y) then str ".m4a" else str ".m4v")).
  assert (W : client_tag (mkClient [] [] 0 [] u) (index_tag (y_strm y)) = mkClient tpl [] 0 [] u) by reflexivity. rewrite W, client_levels by exact R. cbn [app].
  assert (C : exists lo hi, 0 <= lo /\ contiguous lo hi (segs (map fst l))).
  { destruct (n_points (y_strm y)) as [|(k & v) m]; [discriminate|]. cbn [render] in RD. assert (Q : map fst l = render_from k v m) by congruence. rewrite Q. exists k, (maxt ((k, v) :: m)). split; [exact (Forall_inv F)|]. apply render_contiguous. exact S. }
  destruct C as (lo & hi & L & C). destruct (client_chunks y l true lo hi tpl (map (fun r => dec (r_rate r)) (n_reps (y_strm y))) 0 [] u T L C (or_introl eq_refl)) as (n' & E). rewrite E. cbn [app fold_left].
  match goal with |- client_tag (mkClient ?t ?r ?n ?x ?u) _ = _ => change (client_tag (mkClient t r n x u) (mkTag (str "/StreamIndex") [])) with (mkClient [] [] 0 [] (u ++ flat_map (fun b => map (fun y => expand_braces b (dec y) None t) x) r)) end.
  f_equal. f_equal. unfold media_files. rewrite <- (render_all_but_last _ _ RD). unfold segs. rewrite (map_map _ fst). cbn [fst]. rewrite flat_map_concat_map, map_map, flat_map_concat_map. f_equal. apply map_ext. intros r. apply map_ext. intros t.
  unfold tpl. rewrite expand_brace_plain by exact N. unfold file_name. destruct (n_audio (y_strm y)); [rewrite (proj1 (brace_template _ _))|rewrite (proj2 (brace_template _ _))]; reflexivity.
Qed.
Lemma client_streams c : forall index u, Forall (fun x => ~ In 123 (n_name (y_strm (fst x))) /\ Forall (fun r => 0 <= r_rate r < 2 ^ 31) (n_reps (y_strm (fst x))) /\ sorted (n_points (y_strm (fst x))) /\ Forall (fun x => 0 <= fst x) (n_points (y_strm (fst x))) /\ shown x) c ->
  fold_left client_tag (streams_tags index c) (mkClient [] [] 0 [] u) = mkClient [] [] 0 [] (u ++ flat_map media_files (map y_strm (map fst c))).
Proof.
  induction c as [|(y & l) c IH]; intros index u F; [cbn [streams_tags fold_left map flat_map]; rewrite app_nil_r; reflexivity|]. destruct (Forall_inv F) as (F1 & F2 & F3 & F4 & F5). cbn [fst] in *. cbn [streams_tags map flat_map fst]. rewrite fold_left_app, client_stream by assumption.
  rewrite IH by exact (Forall_inv_tail F). rewrite <- app_assoc. reflexivity.
Qed.
(** * the whole *)
Lemma smooth_is l : l <> [] -> Permutation (map (fun y => n_id (y_strm y)) l) (zupto 0 (length l)) -> Forall sm_ok l ->
  exists off text c d, smooth l = Some text /\ rebase_pres (map y_strm l) = Some (map (moved off) (map y_strm l)) /\ 0 <= off
  /\ (off = 0 \/ exists y, In y l /\ has_key (n_points (y_strm y)) (- off))
  /\ emits text (root_tag d :: streams_tags 0 c ++ [mkTag (str "/SmoothStreamingMedia") []]) /\ map fst c = map (sm_moved off) l /\ Forall shown c
  /\ Forall (fun y => n_points (moved off (y_strm y)) = map (fun x => (fst x + off, snd x)) (n_points (y_strm y)) /\ Forall (fun x => 0 <= fst x < 2 ^ 63) (n_points (moved off (y_strm y)))) l
  /\ (forall y0, In y0 l -> n_id (y_strm y0) = 0 -> d = maxt (n_points (y_strm y0)) - mint (n_points (y_strm y0))).
Proof.
  intros NE H F. destruct (sm_rebase_is l H) as (off & E & R & O & OZ & M).
  - eapply Forall_impl; [|exact F]. intros y ((_ & _ & P & _) & _). exact P.
  - eapply Forall_impl; [|exact F]. intros y (_ & _ & (_ & S) & (C & _) & _). split; [|exact C]. eapply Forall_impl; [|exact S]. intros m X. apply X.
  - assert (M' : Forall (fun y => n_points (moved off (y_strm y)) = map (fun x => (fst x + off, snd x)) (n_points (y_strm y)) /\ Forall (fun x => 0 <= fst x < 2 ^ 63) (n_points (moved off (y_strm y)))) l) by (apply Forall_forall; intros y I; apply M; apply in_map; exact I).
    assert (ND : NoDup (map n_id (map y_strm (map (sm_moved off) l)))) by (rewrite !map_map; cbn [sm_moved y_strm moved n_id]; apply (Permutation_NoDup (Permutation_sym H)); apply zupto_nodup).
    assert (B : forall y0, In y0 l -> by_id (map y_strm (map (sm_moved off) l)) (n_id (y_strm y0)) = Some (moved off (y_strm y0))).
    { intros y0 I. change (n_id (y_strm y0)) with (n_id (moved off (y_strm y0))). apply by_id_found; [exact ND|]. rewrite map_map. apply (in_map (fun y => y_strm (sm_moved off y))) in I. exact I. }
    assert (X : In 0 (map (fun y => n_id (y_strm y)) l)) by (apply (Permutation_in _ (Permutation_sym H)); destruct l; [contradiction|left; reflexivity]). apply in_map_iff in X. destruct X as (y0 & E0 & I0).
    pose proof (B y0 I0) as B0. rewrite E0 in B0. rewrite Forall_forall in M'.
    assert (D : forall y, In y l -> duration (n_points (moved off (y_strm y))) = maxt (n_points (y_strm y)) - mint (n_points (y_strm y)) /\ 0 <= duration (n_points (moved off (y_strm y)))).
    { intros y I. destruct (M' y I) as (M1 & M2). rewrite M1. rewrite Forall_forall in F. destruct (F y I) as ((_ & _ & (NE' & S & _) & _) & _). unfold duration.
      assert (Mi : mint (map (fun x => (fst x + off, snd x)) (n_points (y_strm y))) = mint (n_points (y_strm y)) + off) by (destruct (n_points (y_strm y)) as [|(a & b) r]; [contradiction|reflexivity]).
      assert (Ma : forall r : zmap Z, r <> [] -> maxt (map (fun x => (fst x + off, snd x)) r) = maxt r + off).
      { induction r as [|p [|q r] IH]; intros Q; [contradiction|destruct p; reflexivity|]. cbn [map] in *. rewrite !maxt_cons. apply IH. discriminate. }
      rewrite Mi, Ma by exact NE'. split; [lia|]. pose proof (maxt_max _ _ S (mint_key _ NE')). lia. }
    destruct (text_emits (map (sm_moved off) l) (moved off (y_strm y0)) B0 (proj2 (D y0 I0))) as (text & c & T1 & T2 & T3 & T4).
    { apply Forall_map. apply Forall_forall. intros y I. rewrite Forall_forall in F. destruct (M' y I). apply moved_fit; [exact O|apply F; exact I|assumption|assumption]. }
    exists off, text, c. eexists. unfold smooth. rewrite E. split; [exact T1|]. split; [exact R|]. split; [exact O|]. split; [exact OZ|]. split; [exact T2|]. split; [exact T3|]. split; [exact T4|]. split; [apply Forall_forall; exact M'|].
    intros y1 I1 E1. pose proof (B y1 I1) as B1. rewrite E1, B0 in B1. assert (Q : moved off (y_strm y0) = moved off (y_strm y1)) by congruence. rewrite Q. apply (D y1 I1).
Qed.
