(** Lemmas on the DASH presentation: representations and adaptation sets as listed. *)
From Coq Require Import String ZifyNat Permutation.
From Verif Require Import Util Dec_spec Dec_lemmas Str_model Str_proofs Mpd_model Mpd_proofs Points_model Points_proofs Points_proofs2 Pres_model Pres_proofs Pres_proofs2 Pres_proofs3 Pres_proofs4.
Local Open Scope Z_scope.

Definition named (n : list Z) (ts : list tag) : list tag := filter (fun t => same_text (tag_name t) n) ts.
Lemma named_app n a b : named n (a ++ b) = named n a ++ named n b.
Proof. apply filter_app. Qed.
Lemma named_all n ts : Forall (fun t => tag_name t = n) ts -> named n ts = ts.
Proof. intros F. unfold named. induction F as [|t ts E F IH]; [reflexivity|]. cbn [filter]. rewrite (proj2 (same_text_eq _ _) E), IH. reflexivity. Qed.
Lemma named_none n ts : Forall (fun t => tag_name t <> n) ts -> named n ts = [].
Proof. intros F. unfold named. induction F as [|t ts E F IH]; [reflexivity|]. cbn [filter]. rewrite (same_text_ne _ _ E). exact IH. Qed.
Lemma quiet_none n ts : Forall quiet ts -> In n [str "AdaptationSet"; str "SegmentTemplate"; str "S"; str "Representation"; str "/AdaptationSet"] -> named n ts = [].
Proof. intros F I. apply named_none. eapply Forall_impl; [|exact F]. intros t Q E. apply Q. rewrite E. exact I. Qed.
Lemma videos_named st l : forall c, Forall (fun t => tag_name t = str "Representation") (video_tags st c l).
Proof. induction l as [|r l IH]; intros c; [constructor|]. cbn [video_tags]. constructor; [reflexivity|apply IH]. Qed.
Lemma reps_named st s : Forall (fun t => tag_name t = str "Representation") (strm_reps st s).
Proof. unfold strm_reps. destruct (n_audio s); [|apply videos_named]. apply Forall_map. apply Forall_forall. intros r _. reflexivity. Qed.
Lemma line_named n es : n <> str "S" -> named n (map (fun e => mkTag (str "S") (selt_attrs e)) es) = [].
Proof. intros N. apply named_none. apply Forall_map. apply Forall_forall. intros e _ E. apply N. symmetry. exact E. Qed.
Lemma set_reps st g nme au cd w h cps es reps : Forall quiet cps -> Forall (fun t => tag_name t = str "Representation") reps -> named (str "Representation") (set_tags st g nme au cd w h cps es reps) = reps.
Proof.
  intros Q F. unfold set_tags. rewrite !named_app. rewrite (quiet_none _ cps Q) by (right; right; right; left; reflexivity). rewrite line_named by (vm_compute; discriminate). rewrite (named_all _ _ F).
  change (named (str "Representation") [mkTag (str "/AdaptationSet") []]) with (@nil tag). rewrite app_nil_r. reflexivity.
Qed.
Lemma set_sets st g nme au cd w h cps es reps : Forall quiet cps -> Forall (fun t => tag_name t = str "Representation") reps -> named (str "AdaptationSet") (set_tags st g nme au cd w h cps es reps) = [set_tag st g au cd w h].
Proof.
  intros Q F. unfold set_tags. rewrite !named_app. rewrite (quiet_none _ cps Q) by (left; reflexivity). rewrite line_named by (vm_compute; discriminate).
  rewrite (named_none _ reps) by (eapply Forall_impl; [|exact F]; intros t E; cbv beta in E; rewrite E; vm_compute; discriminate). reflexivity.
Qed.
Fixpoint rep_tags (k : Z) (p : pres) : list tag := match p with [] => [] | s :: r => strm_reps (k + 1) s ++ rep_tags (k + 1) r end.
Fixpoint set_list (k : nums) (p : pres) : list tag :=
  match p with [] => [] | s :: r => (let '(st, g, _, _) := k in let '(_, _, w, h) := after k s in set_tag (st + 1) g (n_audio s) (strm_codecs s) w h) :: set_list (after k s) r end.
Lemma all_reps cpvt cpat p : forall k ess, Forall quiet cpvt -> Forall quiet cpat -> Forall2 line_of p ess -> named (str "Representation") (all_tags cpvt cpat k p ess) = rep_tags (let '(st, _, _, _) := k in st) p.
Proof.
  induction p as [|s p IH]; intros k ess V A L; inversion L as [|? es ? ess' L1 L2]; subst; [reflexivity|]. cbn [all_tags rep_tags]. rewrite named_app, IH by assumption. destruct k as [[[st g] w] h]. cbn [strm_tags after].
  rewrite set_reps; [reflexivity|destruct (n_audio s); assumption|apply reps_named].
Qed.
Lemma all_sets cpvt cpat p : forall k ess, Forall quiet cpvt -> Forall quiet cpat -> Forall2 line_of p ess -> named (str "AdaptationSet") (all_tags cpvt cpat k p ess) = set_list k p.
Proof.
  induction p as [|s p IH]; intros k ess V A L; inversion L as [|? es ? ess' L1 L2]; subst; [reflexivity|]. cbn [all_tags set_list]. rewrite named_app, IH by assumption. destruct k as [[[st g] w] h]. cbn [strm_tags after].
  rewrite set_sets; [reflexivity|destruct (n_audio s); assumption|apply reps_named].
Qed.
Lemma manifest_tags cpv cpa p : Forall harmless cpv -> Forall harmless cpa -> p <> [] -> Permutation (map n_id p) (zupto 0 (length p)) -> Forall strm_ok p ->
  exists off text, manifest cpv cpa p = Some text /\ tags_named (str "Representation") text = rep_tags 0 (map (moved off) p) /\ tags_named (str "AdaptationSet") text = set_list (0, 1, 0, 0) (map (moved off) p).
Proof.
  intros Cv Ca NE H F. destruct (manifest_is cpv cpa p Cv Ca NE H F) as (off & text & cpvt & cpat & ess & a & E & M & V & A & R & L & T & O). exists off, text. split; [exact M|].
  assert (TN : forall n, tags_named n text = named n (snd (scan text))) by (intros n; reflexivity). rewrite !TN, (emits_scan _ _ T). cbn [snd].
  rewrite !named_app, all_reps, all_sets by assumption. split.
  - change (named (str "Representation") [mkTag (str "/Period") []; mkTag (str "/MPD") []]) with (@nil tag). rewrite app_nil_r. reflexivity.
  - change (named (str "AdaptationSet") [mkTag (str "/Period") []; mkTag (str "/MPD") []]) with (@nil tag). rewrite app_nil_r. reflexivity.
Qed.
Lemma rep_tags_moved off p : forall k, rep_tags k (map (moved off) p) = rep_tags k p.
Proof. induction p as [|s p IH]; intros k; [reflexivity|]. cbn [map rep_tags]. rewrite IH. reflexivity. Qed.
Lemma set_list_moved off p : forall k, set_list k (map (moved off) p) = set_list k p.
Proof. induction p as [|s p IH]; intros k; [reflexivity|]. cbn [map set_list]. rewrite IH. reflexivity. Qed.

(** ** attributes of the representations *)
Definition seen (t : tag) := (attr (str "bandwidth") t, attr (str "width") t, attr (str "height") t).
Definition meant (s : strm) (r : rep) := (Some (dec (r_rate r)), if n_audio s then None else Some (dec_signed (r_width r)), if n_audio s then None else Some (dec_signed (r_height r))).
Lemma rate_text r : 0 <= r_rate r < 2 ^ 31 -> dec_signed (int32 (r_rate r)) = dec (r_rate r).
Proof. intros H. rewrite int32_ok by exact H. unfold dec_signed. destruct (Z.ltb_spec (r_rate r) 0); [lia|reflexivity]. Qed.
Lemma seen_video st c r : 0 <= r_rate r < 2 ^ 31 -> seen (video_tag st c r) = (Some (dec (r_rate r)), Some (dec_signed (r_width r)), Some (dec_signed (r_height r))).
Proof. intros H. unfold seen, video_tag. rewrite (rate_text r H). destruct (negb (first_codec c) && negb (eqs c (codec_name (r_private r)))); reflexivity. Qed.
Lemma seen_videos st l : forall c, Forall (fun r => 0 <= r_rate r < 2 ^ 31) l -> map seen (video_tags st c l) = map (fun r => (Some (dec (r_rate r)), Some (dec_signed (r_width r)), Some (dec_signed (r_height r)))) l.
Proof. induction l as [|r l IH]; intros c F; [reflexivity|]. cbn [video_tags map]. rewrite (seen_video _ _ _ (Forall_inv F)), (IH _ (Forall_inv_tail F)). reflexivity. Qed.
Lemma seen_strm st s : Forall (fun r => 0 <= r_rate r < 2 ^ 31) (n_reps s) -> map seen (strm_reps st s) = map (meant s) (n_reps s).
Proof.
  intros F. unfold strm_reps, meant. destruct (n_audio s); [|apply seen_videos; exact F]. rewrite map_map. apply map_ext_in. intros r I. rewrite Forall_forall in F. unfold seen, audio_tag. rewrite (rate_text r (F r I)). reflexivity.
Qed.
Lemma seen_all p : forall k, Forall (fun s => Forall (fun r => 0 <= r_rate r < 2 ^ 31) (n_reps s)) p -> map seen (rep_tags k p) = flat_map (fun s => map (meant s) (n_reps s)) p.
Proof. induction p as [|s p IH]; intros k F; [reflexivity|]. cbn [rep_tags flat_map]. rewrite map_app, (seen_strm _ _ (Forall_inv F)), (IH _ (Forall_inv_tail F)). reflexivity. Qed.

(** ** their ids *)
Definition id_of (t : tag) := attr (str "id") t.
Lemma id_video st c r : id_of (video_tag st c r) = Some (dec st ++ str "_" ++ dec_signed (int32 (r_rate r))).
Proof. reflexivity. Qed.
Lemma id_videos st l : forall c, Forall (fun r => 0 <= r_rate r < 2 ^ 31) l -> map id_of (video_tags st c l) = map (fun r => Some (dec st ++ str "_" ++ dec (r_rate r))) l.
Proof. induction l as [|r l IH]; intros c F; [reflexivity|]. cbn [video_tags map]. rewrite id_video, (rate_text _ (Forall_inv F)), (IH _ (Forall_inv_tail F)). reflexivity. Qed.
Lemma digits_split a b x y : (forall c, In c a -> is_digit c) -> (forall c, In c b -> is_digit c) -> a ++ 95 :: x = b ++ 95 :: y -> a = b /\ x = y.
Proof.
  revert b. induction a as [|c a IH]; intros [|d b] A B E.
  - split; [reflexivity|]. cbn [app] in E. congruence.
  - exfalso. cbn [app] in E. assert (Q : d = 95) by congruence. specialize (B d (or_introl eq_refl)). rewrite Q in B. unfold is_digit in B. lia.
  - exfalso. cbn [app] in E. assert (Q : c = 95) by congruence. specialize (A c (or_introl eq_refl)). rewrite Q in A. unfold is_digit in A. lia.
  - cbn [app] in E. assert (Q : c = d) by congruence. subst d. assert (Q : a ++ 95 :: x = b ++ 95 :: y) by congruence. destruct (IH b (fun z Z1 => A z (or_intror Z1)) (fun z Z1 => B z (or_intror Z1)) Q) as (-> & ->). split; reflexivity.
Qed.
(** the ids of a stream are its number, alone or followed by an underscore *)
Definition id_in (st : Z) (o : option (list Z)) : Prop := o = Some (dec st) \/ exists x, o = Some (dec st ++ 95 :: x).
Lemma digits_of n : 0 <= n -> forall c, In c (dec n) -> is_digit c.
Proof. intros H. apply Forall_forall. apply dec_digits. exact H. Qed.
Lemma id_in_inj a b o : 0 <= a -> 0 <= b -> id_in a o -> id_in b o -> a = b.
Proof.
  assert (N : forall n m x, 0 <= n -> dec n <> dec m ++ 95 :: x).
  { intros n m x Hn E. assert (I : In 95 (dec n)) by (rewrite E; apply in_or_app; right; left; reflexivity). apply (digits_of n Hn) in I. unfold is_digit in I. lia. }
  intros Ha Hb [->|(x & ->)] [E|(y & E)].
  - assert (Q : dec a = dec b) by congruence. apply dec_inj in Q; assumption.
  - exfalso. assert (Q : dec a = dec b ++ 95 :: y) by congruence. exact (N _ _ _ Ha Q).
  - exfalso. assert (Q : dec b = dec a ++ 95 :: x) by congruence. exact (N _ _ _ Hb Q).
  - assert (Q : dec a ++ 95 :: x = dec b ++ 95 :: y) by congruence. apply digits_split in Q; [|apply digits_of; assumption|apply digits_of; assumption]. destruct Q as (Q & _). apply dec_inj in Q; assumption.
Qed.
Lemma ids_in st s : Forall (fun r => 0 <= r_rate r < 2 ^ 31) (n_reps s) -> Forall (id_in st) (map id_of (strm_reps st s)).
Proof.
  intros F. unfold strm_reps. destruct (n_audio s).
  - rewrite map_map. apply Forall_map. apply Forall_forall. intros r _. left. reflexivity.
  - rewrite (id_videos _ _ _ F). apply Forall_map. apply Forall_forall. intros r _. right. eexists. reflexivity.
Qed.
Lemma ids_nodup_strm st s : rates_ok (n_reps s) -> (n_audio s = true -> (length (n_reps s) <= 1)%nat) -> NoDup (map id_of (strm_reps st s)).
Proof.
  intros (N & F) A. unfold strm_reps. destruct (n_audio s).
  - specialize (A eq_refl). destruct (n_reps s) as [|r [|r' l]]; cbn [map length] in *; [constructor|constructor; [intros []|constructor]|lia].
  - rewrite (id_videos _ _ _ F). clear A. induction (n_reps s) as [|r l IH]; [constructor|]. cbn [map] in *. inversion N as [|? ? NI N']; subst. constructor; [|apply IH; [exact N'|exact (Forall_inv_tail F)]].
    intros X. apply in_map_iff in X. destruct X as (r' & E & I). apply NI. assert (Q : dec st ++ str "_" ++ dec (r_rate r') = dec st ++ str "_" ++ dec (r_rate r)) by congruence. apply app_inv_head in Q. apply app_inv_head in Q. rewrite Forall_forall in F. apply dec_inj in Q; [|apply (F r' (or_intror I))|apply (F r (or_introl eq_refl))]. rewrite <- Q. apply in_map. exact I.
Qed.
Lemma ids_later p : forall k o, 0 <= k -> Forall (fun s => rates_ok (n_reps s)) p -> In o (map id_of (rep_tags k p)) -> exists j, k < j /\ id_in j o.
Proof.
  induction p as [|s p IH]; intros k o K F I; [destruct I|]. cbn [rep_tags] in I. rewrite map_app in I. apply in_app_or in I. destruct I as [I|I].
  - exists (k + 1). split; [lia|]. pose proof (ids_in (k + 1) s (proj2 (Forall_inv F))) as Q. rewrite Forall_forall in Q. apply Q. exact I.
  - destruct (IH (k + 1) o ltac:(lia) (Forall_inv_tail F) I) as (j & J & X). exists j. split; [lia|exact X].
Qed.
Lemma nodup_join {A} (a b : list A) : NoDup a -> NoDup b -> (forall x, In x a -> ~ In x b) -> NoDup (a ++ b).
Proof. intros Na Nb D. induction Na as [|x a NI Na IH]; [exact Nb|]. cbn [app]. constructor; [intros X; apply in_app_or in X; destruct X as [X|X]; [contradiction|exact (D x (or_introl eq_refl) X)]|apply IH; intros y Y; apply D; right; exact Y]. Qed.
Lemma ids_nodup p : forall k, 0 <= k -> Forall (fun s => rates_ok (n_reps s)) p -> Forall (fun s => n_audio s = true -> (length (n_reps s) <= 1)%nat) p -> NoDup (map id_of (rep_tags k p)).
Proof.
  induction p as [|s p IH]; intros k K F A; [constructor|]. cbn [rep_tags]. rewrite map_app. apply nodup_join; [apply ids_nodup_strm; [exact (Forall_inv F)|exact (Forall_inv A)]|apply IH; [lia|exact (Forall_inv_tail F)|exact (Forall_inv_tail A)]|].
  intros o I J. pose proof (ids_in (k + 1) s (proj2 (Forall_inv F))) as Q. rewrite Forall_forall in Q. specialize (Q o I). destruct (ids_later p (k + 1) o ltac:(lia) (Forall_inv_tail F) J) as (j & Hj & X). assert (E : k + 1 = j) by (apply (id_in_inj _ _ o); [lia|lia|exact Q|exact X]). lia.
Qed.

(** ** the size of an adaptation set *)
Lemma wider_ge l : forall w, w <= fold_left wider l w /\ Forall (fun x => x <= fold_left wider l w) l.
Proof. induction l as [|x l IH]; intros w; [split; [cbn; lia|constructor]|]. cbn [fold_left]. destruct (IH (wider w x)) as (H1 & H2). assert (W : w <= wider w x /\ x <= wider w x) by (unfold wider; destruct (Z.ltb_spec w x); lia). split; [lia|constructor; [lia|exact H2]]. Qed.
Lemma wider_in l : forall w, fold_left wider l w = w \/ In (fold_left wider l w) l.
Proof. induction l as [|x l IH]; intros w; [left; reflexivity|]. cbn [fold_left]. destruct (IH (wider w x)) as [H|H]; [|right; right; exact H]. rewrite H. assert (W : wider w x = if w <? x then x else w) by reflexivity. rewrite W. destruct (Z.ltb_spec w x); [right; left; reflexivity|left; reflexivity]. Qed.
Lemma wider_max l : l <> [] -> Forall (fun x => 0 <= x) l -> In (fold_left wider l 0) l /\ Forall (fun x => x <= fold_left wider l 0) l.
Proof.
  intros NE F. split; [|apply wider_ge]. destruct l as [|x l]; [contradiction|]. cbn [fold_left]. assert (W : wider 0 x = if 0 <? x then x else 0) by reflexivity. rewrite W. pose proof (Forall_inv F) as X. cbv beta in X. destruct (Z.ltb_spec 0 x); [destruct (wider_in l x) as [->|H1]; [left; reflexivity|right; exact H1]|].
  assert (x = 0) by lia. subst x. destruct (wider_in l 0) as [->|H1]; [left; reflexivity|right; exact H1].
Qed.
Lemma set_video st g au cd w h : attr (str "contentType") (set_tag st g au cd w h) = Some (str "video") -> au = false /\ attr (str "maxWidth") (set_tag st g au cd w h) = Some (dec_signed w) /\ attr (str "maxHeight") (set_tag st g au cd w h) = Some (dec_signed h).
Proof. destruct au; intros E; [vm_compute in E; discriminate E|]. split; [reflexivity|]. split; reflexivity. Qed.
Lemma sets_audio p : forall k t, Forall (fun s => n_audio s = true) p -> In t (set_list k p) -> attr (str "contentType") t = Some (str "video") -> False.
Proof.
  induction p as [|s p IH]; intros k t F I E; [exact I|]. cbn [set_list] in I. destruct I as [<-|I]; [|exact (IH _ t (Forall_inv_tail F) I E)].
  destruct k as [[[st g] w] h]. cbn [after] in E. apply set_video in E. destruct E as (E & _). pose proof (Forall_inv F) as Q. cbv beta in Q. congruence.
Qed.
Lemma one_size p s : forall st g t, filter (fun x => negb (n_audio x)) p = [s] -> In t (set_list (st, g, 0, 0) p) -> attr (str "contentType") t = Some (str "video") ->
  attr (str "maxWidth") t = Some (dec_signed (fold_left wider (map r_width (n_reps s)) 0)) /\ attr (str "maxHeight") t = Some (dec_signed (fold_left wider (map r_height (n_reps s)) 0)).
Proof.
  induction p as [|x p IH]; intros st g t P I E; [discriminate P|]. cbn [filter] in P. cbn [set_list] in I. cbn [after] in I. destruct (n_audio x) eqn:A; cbn [negb] in P.
  - destruct I as [<-|I]; [apply set_video in E; destruct E; discriminate|]. exact (IH _ _ t P I E).
  - assert (Q : x = s) by congruence. subst x. assert (Q : filter (fun x => negb (n_audio x)) p = []) by congruence. destruct I as [<-|I]; [apply set_video in E; apply E|]. exfalso. refine (sets_audio p _ t _ I E).
    apply Forall_forall. intros y Y. destruct (n_audio y) eqn:Ey; [reflexivity|]. exfalso. assert (Z0 : In y []) by (rewrite <- Q; apply filter_In; split; [exact Y|rewrite Ey; reflexivity]). exact Z0.
Qed.
