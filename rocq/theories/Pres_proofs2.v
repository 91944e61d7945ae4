(** Lemmas on the DASH presentation: what a player asks for. *)
From Coq Require Import String ZifyNat Permutation.
From Verif Require Import Util Dec_spec Dec_lemmas Str_model Str_proofs Mpd_model Mpd_proofs Points_model Points_proofs Points_proofs2 Pres_model Pres_proofs.
Local Open Scope Z_scope.

Lemma same_text_eq a : forall b, same_text a b = true <-> a = b.
Proof.
  induction a as [|x a IH]; intros [|y b]; cbn [same_text]; split; intros H; try discriminate; try reflexivity.
  - apply andb_prop in H. destruct H as (H1 & H2). apply Z.eqb_eq in H1. apply IH in H2. congruence.
  - injection H as -> ->. rewrite Z.eqb_refl. cbn [andb]. apply IH. reflexivity.
Qed.
Lemma same_text_ne a b : a <> b -> same_text a b = false.
Proof. intros H. destruct (same_text a b) eqn:E; [apply same_text_eq in E; contradiction|reflexivity]. Qed.
(** tags of no interest *)
Lemma player_skip t P : ~ In (tag_name t) [str "AdaptationSet"; str "SegmentTemplate"; str "S"; str "Representation"; str "/AdaptationSet"] -> player_tag P t = P.
Proof.
  intros H. unfold player_tag. rewrite !same_text_ne; [reflexivity|..]; intros E; apply H; rewrite E; cbn [In]; tauto.
Qed.
Lemma player_skips ts : forall P, Forall (fun t => ~ In (tag_name t) [str "AdaptationSet"; str "SegmentTemplate"; str "S"; str "Representation"; str "/AdaptationSet"]) ts -> fold_left player_tag ts P = P.
Proof. induction ts as [|t ts IH]; intros P F; [reflexivity|]. cbn [fold_left]. rewrite player_skip by exact (Forall_inv F). apply IH. exact (Forall_inv_tail F). Qed.
(** the timeline *)
Lemma player_line es : forall m i l r u, Forall selt_ok es -> fold_left player_tag (map (fun e => mkTag (str "S") (selt_attrs e)) es) (mkPlayer m i l r u) = mkPlayer m i (l ++ es) r u.
Proof.
  induction es as [|e es IH]; intros m i l r u F; [rewrite app_nil_r; reflexivity|]. cbn [map fold_left].
  assert (Q : player_tag (mkPlayer m i l r u) (mkTag (str "S") (selt_attrs e)) = mkPlayer m i (l ++ [e]) r u).
  { pose proof (Forall_inv F) as (D & R & T). destruct e as [d [t|] n]; cbn [s_d s_t s_r] in *; unfold selt_attrs; cbn [s_d s_t s_r].
    - destruct T as (T & ->). change (mkPlayer m i (l ++ [mkS (undec (dec d)) (Some (undec (dec t))) 0]) r u = mkPlayer m i (l ++ [mkS d (Some t) 0]) r u). rewrite !undec_dec by assumption. reflexivity.
    - destruct (Z.ltb_spec 0 n).
      + change (mkPlayer m i (l ++ [mkS (undec (dec d)) None (undec (dec n))]) r u = mkPlayer m i (l ++ [mkS d None n]) r u). rewrite !undec_dec by lia. reflexivity.
      + replace n with 0 by lia. change (mkPlayer m i (l ++ [mkS (undec (dec d)) None 0]) r u = mkPlayer m i (l ++ [mkS d None 0]) r u). rewrite undec_dec by assumption. reflexivity. }
  rewrite Q, IH by exact (Forall_inv_tail F). rewrite <- app_assoc. reflexivity.
Qed.
(** the representations *)
Lemma video_bandwidth st c r : tag_name (video_tag st c r) = str "Representation" /\ attr (str "bandwidth") (video_tag st c r) = Some (dec_signed (int32 (r_rate r))) /\ attr (str "id") (video_tag st c r) = Some (dec st ++ str "_" ++ dec_signed (int32 (r_rate r))).
Proof. split; [reflexivity|]. split; reflexivity. Qed.
Lemma player_reps st s : forall m i l r u, fold_left player_tag (strm_reps st s) (mkPlayer m i l r u) = mkPlayer m i l (r ++ map (fun x => dec_signed (int32 (r_rate x))) (n_reps s)) u.
Proof.
  unfold strm_reps. destruct (n_audio s).
  - induction (n_reps s) as [|x reps IH]; intros m i l r u; [cbn [map fold_left]; rewrite app_nil_r; reflexivity|]. cbn [map fold_left].
    change (player_tag (mkPlayer m i l r u) (audio_tag st (n_sampling s) x)) with (mkPlayer m i l (r ++ [dec_signed (int32 (r_rate x))]) u). rewrite IH, <- app_assoc. reflexivity.
  - generalize (@nil Z) at 1. induction (n_reps s) as [|x reps IH]; intros c m i l r u; [cbn [map fold_left video_tags]; rewrite app_nil_r; reflexivity|]. cbn [map fold_left video_tags].
    change (player_tag (mkPlayer m i l r u) (video_tag st c x)) with (mkPlayer m i l (r ++ [dec_signed (int32 (r_rate x))]) u). rewrite IH, <- app_assoc. reflexivity.
Qed.
(** the templates *)
Lemma expand_plain b t name rest : ~ In 36 name -> expand_template b t None (name ++ rest) = name ++ expand_template b t None rest.
Proof.
  induction name as [|c name IH]; intros H; [reflexivity|]. cbn [app expand_template]. destruct (Z.eqb_spec c 36) as [->|NE]; [exfalso; apply H; left; reflexivity|]. rewrite IH by (intros X; apply H; right; exact X). reflexivity.
Qed.
Lemma media_template b t : expand_template b t None (str "_$Bandwidth$_$Time$.m4" ++ str "a") = str "_" ++ b ++ str "_" ++ t ++ str ".m4a" /\ expand_template b t None (str "_$Bandwidth$_$Time$.m4" ++ str "v") = str "_" ++ b ++ str "_" ++ t ++ str ".m4v".
Proof. split; reflexivity. Qed.
Lemma init_template b t : expand_template b t None (str "_$Bandwidth$_i.m4" ++ str "a") = str "_" ++ b ++ str "_" ++ str "i" ++ str ".m4a" /\ expand_template b t None (str "_$Bandwidth$_i.m4" ++ str "v") = str "_" ++ b ++ str "_" ++ str "i" ++ str ".m4v".
Proof. split; reflexivity. Qed.
Lemma times_all m : forall k v, map p_time (render_from k v m) = all_but_last ((k, v) :: m).
Proof. induction m as [|(k2 & v2) m IH]; intros k v; [reflexivity|]. cbn [render_from map p_time]. rewrite IH. reflexivity. Qed.
Lemma render_all_but_last m pts : render m = Some pts -> map fst (segs pts) = all_but_last m.
Proof. destruct m as [|(k & v) m]; [discriminate|]. intros E. assert (Q : pts = render_from k v m) by (cbn [render] in E; congruence). subst pts. unfold segs. rewrite map_map. cbn [fst]. apply times_all. Qed.
(** a stream *)
Lemma player_strm cpvt cpat k s es pts u : ~ In 36 (n_name s) -> Forall (fun r => 0 <= r_rate r < 2 ^ 31) (n_reps s) ->
  Forall (fun t => ~ In (tag_name t) [str "AdaptationSet"; str "SegmentTemplate"; str "S"; str "Representation"; str "/AdaptationSet"]) cpvt ->
  Forall (fun t => ~ In (tag_name t) [str "AdaptationSet"; str "SegmentTemplate"; str "S"; str "Representation"; str "/AdaptationSet"]) cpat ->
  Forall selt_ok es -> render (n_points s) = Some pts -> segments 0 es = segs pts ->
  fold_left player_tag (strm_tags cpvt cpat k s es) (mkPlayer [] [] [] [] u) = mkPlayer [] [] [] [] (u ++ strm_files s).
Proof.
  intros N RT Cv Ca E R S. destruct k as (((st & g) & w0) & h0). unfold strm_tags, after. set (w := if n_audio s then w0 else _). set (h := if n_audio s then h0 else _). unfold set_tags.
  rewrite !fold_left_app. cbn [fold_left]. rewrite (player_skips (if n_audio s then cpat else cpvt)) by (destruct (n_audio s); assumption).
  change (player_tag (mkPlayer [] [] [] [] u) (set_tag (st + 1) g (n_audio s) (strm_codecs s) w h)) with (mkPlayer [] [] [] [] u).
  set (x := if n_audio s then str "a" else str "v").
  assert (T : player_tag (mkPlayer [] [] [] [] u) (template_tag (n_name s) (n_audio s)) = mkPlayer (n_name s ++ str "_$Bandwidth$_$Time$.m4" ++ x) (n_name s ++ str "_$Bandwidth$_i.m4" ++ x) [] [] u) by reflexivity.
  rewrite T. change (player_tag ?P (mkTag (str "SegmentTimeline") [])) with P. rewrite player_line by exact E. cbn [app].
  change (player_tag (player_tag ?P (mkTag (str "/SegmentTimeline") [])) (mkTag (str "/SegmentTemplate") [])) with P. rewrite player_reps. cbn [app].
  match goal with |- player_tag (mkPlayer ?m ?i ?l ?r ?u) (mkTag (str "/AdaptationSet") []) = _ => change (player_tag (mkPlayer m i l r u) (mkTag (str "/AdaptationSet") []))
    with (mkPlayer [] [] [] [] (u ++ flat_map (fun b => expand_template b [] None i :: map (fun x => expand_template b (dec (fst x)) None m) (segments 0 l)) r)) end.
  f_equal. f_equal. unfold strm_files. rewrite S, <- (render_all_but_last _ _ R), !flat_map_concat_map, !map_map. f_equal. apply map_ext_in. intros r Hr. rewrite Forall_forall in RT. specialize (RT r Hr).
  rewrite int32_ok by exact RT. unfold dec_signed. destruct (Z.ltb_spec (r_rate r) 0); [lia|]. unfold file_name. rewrite expand_plain by exact N.
  f_equal.
  - subst x. destruct (n_audio s); [rewrite (proj1 (init_template _ _))|rewrite (proj2 (init_template _ _))]; reflexivity.
  - rewrite map_map. apply map_ext. intros q. rewrite expand_plain by exact N. subst x. destruct (n_audio s); [rewrite (proj1 (media_template _ _))|rewrite (proj2 (media_template _ _))]; reflexivity.
Qed.
(** * all the streams *)
Definition quiet (t : tag) : Prop := ~ In (tag_name t) [str "AdaptationSet"; str "SegmentTemplate"; str "S"; str "Representation"; str "/AdaptationSet"].
Definition ready (s : strm) : Prop := ~ In 34 (n_name s) /\ ~ In 36 (n_name s) /\ Forall (fun r => 0 <= r_rate r < 2 ^ 31) (n_reps s) /\ Forall (fun r => bytes (r_private r)) (n_reps s) /\ exists pts, render (n_points s) = Some pts /\ Forall pt_ok (segs pts).
Definition line_of (s : strm) (es : list selt) : Prop := Forall selt_ok es /\ exists pts, render (n_points s) = Some pts /\ segments 0 es = segs pts.
Lemma all_emit cpv cpa cpvt cpat p : forall d, 0 <= d_stream d -> 0 <= d_group d -> Forall ready p -> emits (flat_map (fun c => c ++ CRLF) cpv) cpvt -> emits (flat_map (fun c => c ++ CRLF) cpa) cpat ->
  exists d' t ess, render_all cpv cpa d p = Some d' /\ d_xml d' = d_xml d ++ t /\ emits t (all_tags cpvt cpat (nums_of d) p ess) /\ Forall2 line_of p ess.
Proof.
  induction p as [|s p IH]; intros d D G F Cv Ca.
  - exists d, [], []. cbn [render_all all_tags]. rewrite app_nil_r. split; [reflexivity|]. split; [reflexivity|]. split; [apply emits_nil|constructor].
  - destruct (Forall_inv F) as (N1 & N2 & R & B & pts & E & O). destruct (strm_emits cpv cpa cpvt cpat d s pts D G N1 B Cv Ca E O) as (d1 & t1 & es & X1 & X2 & X3 & X4 & X5 & X6).
    assert (Q : d_stream d1 = d_stream d + 1 /\ d_group d1 = d_group d + zlen (n_reps s)) by (unfold nums_of, after in X3; split; congruence). destruct Q as (Q1 & Q2).
    destruct (IH d1) as (d2 & t2 & ess & Y1 & Y2 & Y3 & Y4); [lia|rewrite Q2; pose proof (zlen_nonneg (n_reps s)); lia|exact (Forall_inv_tail F)|exact Cv|exact Ca|].
    exists d2, (t1 ++ t2), (es :: ess). cbn [render_all all_tags]. rewrite X1, Y1, Y2, X2, <- app_assoc, <- X3. split; [reflexivity|]. split; [reflexivity|]. split; [apply emits_app; assumption|]. constructor; [|exact Y4].
    split; [exact X5|]. exists pts. split; assumption.
Qed.
Lemma player_all cpvt cpat p : forall k ess u, Forall ready p -> Forall quiet cpvt -> Forall quiet cpat -> Forall2 line_of p ess ->
  fold_left player_tag (all_tags cpvt cpat k p ess) (mkPlayer [] [] [] [] u) = mkPlayer [] [] [] [] (u ++ flat_map strm_files p).
Proof.
  induction p as [|s p IH]; intros k ess u F Cv Ca L; [inversion L; cbn [all_tags fold_left flat_map]; rewrite app_nil_r; reflexivity|].
  inversion L as [|? es ? ess' (E1 & pts & E2 & E3) L' Q1 Q2]; subst. cbn [all_tags flat_map]. destruct (Forall_inv F) as (N1 & N2 & R & _). rewrite fold_left_app, (player_strm cpvt cpat k s es pts u) by assumption.
  rewrite IH by (assumption || exact (Forall_inv_tail F)). rewrite <- app_assoc. reflexivity.
Qed.
Lemma harmless_emits l : Forall harmless l -> exists ts, emits (flat_map (fun c => c ++ CRLF) l) ts /\ Forall quiet ts.
Proof.
  induction l as [|c l IH]; intros F; [exists []; split; [apply emits_nil|constructor]|]. destruct (IH (Forall_inv_tail F)) as (ts & E & Q). destruct (Forall_inv F) as (H1 & H2).
  exists (snd (scan c) ++ ts). cbn [flat_map]. split.
  - apply emits_app; [|exact E]. rewrite <- (app_nil_r (snd (scan c))). apply emits_app; [apply scan_emits; exact H1|]. intros ts0. cbn. rewrite app_nil_r. reflexivity.
  - apply Forall_app. split; [exact H2|exact Q].
Qed.
Lemma begin_emits b d : 0 <= d -> exists a, emits (mpd_begin b d) [mkTag (str "MPD") a; mkTag (str "Period") []].
Proof.
  intros D. unfold mpd_begin. assert (N : ~ In 34 (duration_text d)).
  { unfold duration_text. assert (H : forall a b, ~ In 34 a -> ~ In 34 b -> ~ In 34 (a ++ b)) by (intros x y X Y Q; apply in_app_or in Q; tauto).
    apply H; [vm_compute; intuition discriminate|]. apply H; [apply dec_no34; apply Z.div_pos; lia|]. apply H; [vm_compute; intuition discriminate|]. apply H; [apply dec_no34; apply Z.mod_pos_bound; lia|]. vm_compute. intuition discriminate. }
  set (x := duration_text d) in *. clearbody x.
  assert (P : emits ([9] ++ str "<Period>" ++ CRLF) [mkTag (str "Period") []]) by (intros ts0; reflexivity).
  assert (Q : forall pre st, (forall ts0, sc pre (Outside, ts0) = (InValue (str "MPD") st (str "mediaPresentationDuration") [], ts0)) -> exists a, emits (pre ++ x ++ str """ minBufferTime=""PT3S"">" ++ CRLF ++ [9] ++ str "<Period>" ++ CRLF) [mkTag (str "MPD") a; mkTag (str "Period") []]).
  { intros pre st H. eexists. replace (pre ++ x ++ str """ minBufferTime=""PT3S"">" ++ CRLF ++ [9] ++ str "<Period>" ++ CRLF) with ((pre ++ x ++ str """ minBufferTime=""PT3S"">" ++ CRLF) ++ [9] ++ str "<Period>" ++ CRLF) by (rewrite <- !app_assoc; reflexivity).
    apply (emits_app _ _ [_] [_]); [|exact P]. intros ts0. rewrite !sc_app, H, sc_value by exact N. reflexivity. }
  rewrite app_assoc. rewrite (app_assoc (_ ++ _)).
  destruct b; (eapply Q; intros ts0; rewrite sc_tags; match goal with |- context [sc ?l ?st] => let r := eval vm_compute in (sc l st) in replace (sc l st) with r by (vm_compute; reflexivity) end; cbn [fst snd]; rewrite app_nil_r; reflexivity).
Qed.
