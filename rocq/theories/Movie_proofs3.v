(** Proofs about Movie_model: reading the boxes of a track. *)
From Coq Require Import ZifyNat.
From Verif Require Import Util RangeMap_model SampleTab_model SampleTab_proofs TimeTab_model Double_model Box_model Box_proofs Frag_model Frag_proofs Frag_proofs2 Level_model Level_proofs Movie_model Movie_proofs Movie_proofs2.
From Verif Require Bits_spec Bitstream_model Sps_model Esds_model.
Local Open Scope Z_scope.
Local Ltac Zify.zify_post_hook ::= Z.div_mod_to_equations.
Opaque be.

(** ** Bytes at a place *)
Definition at_ (f : list Z) (p : Z) (bs : list Z) : Prop := exists pre post, f = pre ++ bs ++ post /\ zlen pre = p.
Lemma at_l : forall f p a b, at_ f p (a ++ b) -> at_ f p a. Proof. intros f p a b (pre & post & E & L). exists pre, (b ++ post). rewrite E, <- app_assoc. split; [reflexivity|exact L]. Qed.
Lemma at_r : forall f p a b, at_ f p (a ++ b) -> at_ f (p + zlen a) b. Proof. intros f p a b (pre & post & E & L). exists (pre ++ a), post. rewrite E, <- !app_assoc. split; [reflexivity|]. rewrite zlen_app'. lia. Qed.
Lemma at_read : forall {A} (m : rdr A) bs x f p, Reads m bs x -> at_ f p bs -> m f p = Some (x, p + zlen bs).
Proof. intros A m bs x f p R (pre & post & E & L). rewrite E, <- L. apply R. Qed.
Lemma at_le : forall f p bs, at_ f p bs -> 0 <= p /\ p + zlen bs <= zlen f. Proof. intros f p bs (pre & post & E & L). rewrite E, !zlen_app'. pose proof (zlen_nonneg pre). pose proof (zlen_nonneg post). lia. Qed.
Definition hdr (t n : Z) : list Z := be32 n ++ be32 t.
Lemma hdr_zlen : forall t n, zlen (hdr t n) = 8. Proof. intros. unfold hdr. rewrite zlen_app', !be32_zlen. reflexivity. Qed.
Lemma hdr_at : forall f p t n, plain t -> 8 <= n < 2 ^ 32 -> at_ f p (hdr t n) -> do_box f p = Some (mkR (p + 8) p n t).
Proof.
  intros f p t n [Ht Nu] Hn (pre & post & -> & <-). unfold hdr. unfold do_box, parse_box. rewrite <- !app_assoc. unfold be32 at 1. rewrite num_at_app; [|reflexivity|change (256 ^ Z.of_nat 4) with (2 ^ 32); lia].
  replace (pre ++ be32 n ++ be32 t ++ post) with ((pre ++ be32 n) ++ be 4 t ++ post) by (rewrite <- app_assoc; reflexivity). rewrite num_at_app; [|rewrite zlen_app, be32_zlen; reflexivity|exact Ht].
  destruct (Z.eqb_spec n 1); [lia|]. destruct (Z.eqb_spec t uuid); [contradiction|]. reflexivity.
Qed.
Lemma leaf_hdr : forall t b, layout (Leaf t b) = hdr t (8 + zlen b) ++ b. Proof. intros. rewrite layout_leaf. unfold hdr. rewrite <- app_assoc. reflexivity. Qed.
Lemma node_hdr : forall t k, layout (Node t k) = hdr t (8 + zlen (all_layout k)) ++ all_layout k. Proof. intros. rewrite layout_node. unfold hdr. rewrite <- app_assoc. reflexivity. Qed.
Lemma reads_skip : forall n bs, length bs = n -> Reads (rskip n) bs tt. Proof. intros n bs L. unfold rskip. rewrite <- (app_nil_r bs). eapply reads_bind; [apply reads_bytes; exact L|apply reads_ret]. Qed.
Ltac skp := apply reads_skip; unfold words; cbn [map concat]; rewrite ?app_length, ?be_length, ?be32_length; reflexivity.
Ltac flat := unfold full, matrix, words; cbn [map concat]; rewrite ?app_nil_r, <- ?app_assoc.
Ltac zl := unfold full, matrix, words; cbn [map concat]; rewrite ?zlen_app', ?be32_zlen, ?be_zlen, ?hdr_zlen, ?app_nil_r.

(** ** Chains of boxes *)
Definition Seg {T} (box : list Z -> rd -> T -> option (T * Z)) (seg : list Z) (s s' : T) : Prop := forall f p, at_ f p seg -> exists b, do_box f p = Some b /\ box f b s = Some (s', p + zlen seg).
Inductive Chain {T} (box : list Z -> rd -> T -> option (T * Z)) : list (list Z) -> T -> T -> Prop :=
| chain_nil : forall s, Chain box [] s s
| chain_cons : forall seg segs s s1 s2, 0 < zlen seg -> Seg box seg s s1 -> Chain box segs s1 s2 -> Chain box (seg :: segs) s s2.
Lemma chain_app : forall {T} (box : list Z -> rd -> T -> option (T * Z)) a b s s1 s2, Chain box a s s1 -> Chain box b s1 s2 -> Chain box (a ++ b) s s2.
Proof. intros T box a b s s1 s2 H. induction H; intros; [assumption|]. cbn [app]. econstructor; eauto. Qed.
Lemma chain_len : forall {T} (box : list Z -> rd -> T -> option (T * Z)) a s s1, Chain box a s s1 -> Z.of_nat (length a) <= zlen (concat a).
Proof. intros T box a s s1 H. induction H; [reflexivity|]. cbn [length concat]. rewrite zlen_app'. lia. Qed.
Lemma chain_track : forall segs t t', Chain track_box segs t t' -> segs <> [] -> forall f p fuel, at_ f p (concat segs) -> (length segs <= fuel)%nat -> next (do_box f p) (fun b => track_boxes fuel f (p + zlen (concat segs)) b t) = Some (t', p + zlen (concat segs)).
Proof.
  intros segs t t' H. induction H as [|seg segs s s1 s2 P Sg C IH]; intros N f p fuel A L; [contradiction|]. clear N. cbn [concat length] in *. destruct fuel as [|fuel]; [lia|].
  destruct (Sg f p (at_l _ _ _ _ A)) as (b & E1 & E2). rewrite E1. unfold next at 1. cbn [track_boxes]. rewrite E2. unfold next at 1. pose proof (at_r _ _ _ _ A) as A2. rewrite zlen_app'.
  destruct segs as [|seg2 segs].
  - inversion C; subst. cbn [concat]. change (zlen []) with 0. destruct (Z.ltb_spec (p + zlen seg) (p + (zlen seg + 0))); [lia|]. do 2 f_equal. lia.
  - assert (0 < zlen (concat (seg2 :: segs))). { inversion C; subst. cbn [concat]. rewrite zlen_app'. pose proof (zlen_nonneg (concat segs)). lia. }
    rewrite (proj2 (Z.ltb_lt _ _)) by lia. rewrite !Z.add_assoc. apply IH; [discriminate|exact A2|lia].
Qed.
Lemma chain_movie : forall segs m m', Chain movie_box segs m m' -> segs <> [] -> forall f p fuel, at_ f p (concat segs) -> p + zlen (concat segs) = zlen f -> (length segs <= fuel)%nat -> next (do_box f p) (fun b => movie_boxes fuel f b m) = Some m'.
Proof.
  intros segs t t' H. induction H as [|seg segs s s1 s2 P Sg C IH]; intros N f p fuel A Z L; [contradiction|]. clear N. cbn [concat length] in *. destruct fuel as [|fuel]; [lia|].
  destruct (Sg f p (at_l _ _ _ _ A)) as (b & E1 & E2). rewrite E1. unfold next at 1. cbn [movie_boxes]. rewrite E2. unfold next at 1. pose proof (at_r _ _ _ _ A) as A2. rewrite zlen_app' in Z.
  destruct segs as [|seg2 segs].
  - inversion C; subst. cbn [concat] in *. change (zlen []) with 0 in *. destruct (Z.ltb_spec (p + zlen seg) (zlen f)); [lia|]. reflexivity.
  - assert (0 < zlen (concat (seg2 :: segs))). { inversion C; subst. cbn [concat]. rewrite zlen_app'. pose proof (zlen_nonneg (concat segs)). lia. }
    rewrite (proj2 (Z.ltb_lt _ _)) by lia. apply IH; [discriminate|exact A2|lia|lia].
Qed.

(** ** Headers *)
Ltac num0 := apply reads_num; split; [discriminate|reflexivity].
Ltac num32 := apply reads_num32; apply u32_word.
Lemma rnum_mod : forall n z, Reads (rnum n) (be n (z mod 256 ^ Z.of_nat n)) (z mod 256 ^ Z.of_nat n). Proof. intros. apply reads_num. apply Z.mod_pos_bound. apply Z.pow_pos_nonneg; lia. Qed.
Lemma read_mvhd : forall now ts d n, Reads get_mvhd (mvhd_body now ts d n) (u32 ts, u32 d).
Proof.
  intros. eapply (reads_eq _ (be 1 0 ++ be 3 0 ++ ((be32 (u32 now) ++ be32 (u32 now)) ++ be32 (u32 ts) ++ be32 (u32 d) ++ []) ++ (be32 65536 ++ be 2 256 ++ be 2 0 ++ words [0; 0] ++ matrix ++ words [0; 0; 0; 0; 0; 0; u32 n]) ++ [])); [|unfold mvhd_body; flat; reflexivity].
  unfold get_mvhd. rb 0; [num0|]. rb tt; [skp|]. change (0 =? 1) with false. cbv iota. rb (u32 ts, u32 d); [rb tt; [skp|]; rb (u32 ts); [num32|]; rb (u32 d); [num32|]; apply reads_ret|]. rb tt; [apply reads_skip; flat; rewrite !app_length, !be_length; reflexivity|]. apply reads_ret.
Qed.
Lemma read_tkhd : forall now id d v w h, Reads get_tkhd (tkhd_body now id d v w h) (u32 id, w mod 2 ^ 16, h mod 2 ^ 16).
Proof.
  intros. eapply (reads_eq _ (be 1 0 ++ be 3 1 ++ ((be32 (u32 now) ++ be32 (u32 now)) ++ be32 (u32 id) ++ (be32 0 ++ be32 (u32 d)) ++ []) ++ (be32 0 ++ be32 0 ++ be 2 0 ++ be 2 0 ++ be 2 v ++ be 2 0 ++ matrix) ++ be 2 (w mod 2 ^ 16) ++ be 2 0 ++ be 2 (h mod 2 ^ 16) ++ be 2 0 ++ [])); [|unfold tkhd_body; flat; reflexivity].
  unfold get_tkhd. rb 0; [num0|]. rb tt; [skp|]. change (0 =? 1) with false. cbv iota. rb (u32 id); [rb tt; [skp|]; rb (u32 id); [num32|]; rb tt; [skp|]; apply reads_ret|]. rb tt; [apply reads_skip; flat; rewrite !app_length, !be_length; reflexivity|].
  rb (w mod 2 ^ 16); [apply (rnum_mod 2)|]. rb tt; [skp|]. rb (h mod 2 ^ 16); [apply (rnum_mod 2)|]. rb tt; [skp|]. apply reads_ret.
Qed.
(** three letters of five bits *)
Lemma letters_back : forall a b c, lower a -> lower b -> lower c -> letters (letter a * 1024 + letter b * 32 + letter c) = (a, b, c).
Proof. intros a b c. unfold lower, letters, letter. intros A B C. rewrite !Z.mod_small with (b := 32) (a := _ - 96) by lia. f_equal; [f_equal|]; lia. Qed.
Lemma read_mdhd : forall now ts d a b c, lower a -> lower b -> lower c -> Reads get_mdhd (mdhd_body now ts d (a, b, c)) (u32 ts, u32 d, (a, b, c)).
Proof.
  intros now ts d a b c A B C. set (n := letter a * 1024 + letter b * 32 + letter c). assert (Hn : 0 <= n < 256 ^ Z.of_nat 2) by (unfold n, letter; change (256 ^ Z.of_nat 2) with 65536; lia).
  eapply (reads_eq _ (be 1 0 ++ be 3 0 ++ ((be32 (u32 now) ++ be32 (u32 now)) ++ be32 (u32 ts) ++ be32 (u32 d) ++ []) ++ be 2 n ++ be 2 0 ++ [])); [|unfold mdhd_body; flat; reflexivity].
  unfold get_mdhd. rb 0; [num0|]. rb tt; [skp|]. change (0 =? 1) with false. cbv iota. rb (u32 ts, u32 d); [rb tt; [skp|]; rb (u32 ts); [num32|]; rb (u32 d); [num32|]; apply reads_ret|]. rb n; [apply reads_num; exact Hn|]. rb tt; [skp|]. rewrite <- (letters_back a b c A B C). apply reads_ret.
Qed.
Lemma read_hdlr : forall h, 0 <= h < 2 ^ 32 -> Reads (get_hdlr (8 + zlen (hdlr_body h))) (hdlr_body h) h.
Proof.
  intros h Hh. replace (8 + zlen (hdlr_body h)) with 57 by (unfold hdlr_body; zl; reflexivity). set (name := [70; 79; 85; 78; 68; 65; 84; 73; 79; 78; 32; 77; 69; 68; 73; 65; 32; 72; 65; 78; 68; 76; 69; 82; 0]).
  eapply (reads_eq _ ((be 1 0 ++ be 3 0 ++ be32 0) ++ be32 h ++ (be32 0 ++ be32 0 ++ be32 0) ++ name ++ [])); [|unfold hdlr_body; flat; reflexivity].
  unfold get_hdlr. rb tt; [skp|]. rb h; [apply reads_num32; exact Hh|]. rb tt; [skp|]. change ((32 <=? 57) && (57 - 32 <=? 1023)) with true. cbv iota. rb tt; [apply reads_skip; reflexivity|]. apply reads_ret.
Qed.
Lemma read_visual : forall w h name, length name = 31%nat -> Reads get_visual (visual_entry w h name) (w mod 2 ^ 16, h mod 2 ^ 16).
Proof.
  intros w h name L. eapply (reads_eq _ ((be 6 0 ++ be 2 1 ++ be 2 0 ++ be 2 0 ++ words [0; 0; 0]) ++ be 2 (w mod 2 ^ 16) ++ be 2 (h mod 2 ^ 16) ++ (words [72; 72; 0] ++ be 2 1) ++ be 1 0 ++ name ++ (be 2 0 ++ be 2 65535) ++ [])); [|unfold visual_entry; flat; reflexivity].
  unfold get_visual. rb tt; [skp|]. rb (w mod 2 ^ 16); [apply (rnum_mod 2)|]. rb (h mod 2 ^ 16); [apply (rnum_mod 2)|]. rb tt; [skp|]. rb 0; [num0|]. change (0 <=? 31) with true. cbv iota. rb tt; [apply reads_skip; exact L|]. rb tt; [skp|]. apply reads_ret.
Qed.
Lemma read_audio : forall r c, Reads get_audio (audio_entry r c) (r mod 2 ^ 16, c mod 2 ^ 16).
Proof.
  intros r c. eapply (reads_eq _ ((be 6 0 ++ be 2 1 ++ words [0; 0]) ++ be 2 (c mod 2 ^ 16) ++ (be 2 16 ++ be 2 0 ++ be 2 0) ++ be32 (u32 (r * 2 ^ 16)) ++ [])); [|unfold audio_entry; flat; reflexivity].
  unfold get_audio. rb tt; [skp|]. rb (c mod 2 ^ 16); [apply (rnum_mod 2)|]. rb tt; [skp|]. rb (u32 (r * 2 ^ 16)); [num32|].
  replace (r mod 2 ^ 16) with (u32 (r * 2 ^ 16) / 2 ^ 16); [apply reads_ret|]. unfold u32. change (2 ^ 32) with (2 ^ 16 * 2 ^ 16). rewrite Z.mul_mod_distr_r by lia. rewrite Z.div_mul by lia. reflexivity.
Qed.
(** ** The boxes of a track *)
Section Track.
Variables (h ts d : Z) (lang : Z * Z * Z) (id width height : Z) (es : list entry) (tb : pstate) (tr : TimeTab_model.track) (off mv : Z).
Notation T := (mkRt h ts d lang id width height es tb tr off mv).
Ltac leaf := let A := fresh "A" in intros f p A; rewrite leaf_hdr in A; rewrite leaf_zlen.
Lemma leaf_body : forall f p t b, at_ f p (hdr t (8 + zlen b) ++ b) -> at_ f (p + 8) b. Proof. intros f p t b A. apply at_r in A. rewrite hdr_zlen in A. exact A. Qed.
Lemma seg_open : forall ty n, ty = TRAK \/ ty = MDIA \/ ty = EDTS -> 8 <= n < 2 ^ 32 -> Seg track_box (hdr ty n) T T.
Proof.
  intros ty n H Hn f p A. exists (mkR (p + 8) p n ty). split; [refine (hdr_at _ _ _ _ _ Hn A); destruct H as [-> | [-> | ->]]; splain|]. rewrite hdr_zlen. destruct H as [-> | [-> | ->]]; reflexivity.
Qed.
Lemma seg_tkhd : forall now i dur v w hh, Seg track_box (layout (Leaf TKHD (tkhd_body now i dur v w hh))) T (mkRt h ts d lang (u32 i) (w mod 2 ^ 16) (hh mod 2 ^ 16) es tb tr off mv).
Proof.
  intros now i dur v w hh. leaf. set (b := tkhd_body now i dur v w hh) in *. assert (Z : zlen b = 84) by (unfold b, tkhd_body; zl; reflexivity). eexists. split; [refine (hdr_at _ _ _ _ _ _ (at_l _ _ _ _ A)); [splain|lia]|].
  transitivity (next (get_tkhd f (p + 8)) (fun r => let '((i, x, y), p) := r in Some (mkRt h ts d lang i x y es tb tr off mv, p))); [reflexivity|]. rewrite (at_read _ _ _ _ _ (read_tkhd now i dur v w hh) (leaf_body _ _ _ _ A)). unfold next. do 2 f_equal. fold b. lia.
Qed.
Lemma seg_mdhd : forall now s dur a b c, lower a -> lower b -> lower c -> Seg track_box (layout (Leaf MDHD (mdhd_body now s dur (a, b, c)))) T (mkRt h (u32 s) (u32 dur) (a, b, c) id width height es tb tr off mv).
Proof.
  intros now s dur a b c La Lb Lc. leaf. assert (Z : zlen (mdhd_body now s dur (a, b, c)) = 24) by (unfold mdhd_body; zl; reflexivity). eexists. split; [refine (hdr_at _ _ _ _ _ _ (at_l _ _ _ _ A)); [splain|lia]|].
  transitivity (next (get_mdhd f (p + 8)) (fun r => let '((s, n), l, p) := r in Some (mkRt h s n l id width height es tb tr off mv, p))); [reflexivity|]. rewrite (at_read _ _ _ _ _ (read_mdhd now s dur a b c La Lb Lc) (leaf_body _ _ _ _ A)). unfold next. do 2 f_equal. lia.
Qed.
Lemma seg_hdlr : forall hh, 0 <= hh < 2 ^ 32 -> Seg track_box (layout (Leaf HDLR (hdlr_body hh))) T (mkRt hh ts d lang id width height es tb tr off mv).
Proof.
  intros hh H. leaf. assert (Z : zlen (hdlr_body hh) = 49) by (unfold hdlr_body; zl; reflexivity). eexists. split; [refine (hdr_at _ _ _ _ _ _ (at_l _ _ _ _ A)); [splain|lia]|].
  transitivity (next (get_hdlr (8 + zlen (hdlr_body hh)) f (p + 8)) (fun r => Some (mkRt (fst r) ts d lang id width height es tb tr off mv, snd r))); [reflexivity|]. rewrite (at_read _ _ _ _ _ (read_hdlr hh H) (leaf_body _ _ _ _ A)). unfold next. cbn [fst snd]. do 2 f_equal. lia.
Qed.
Lemma seg_elst : forall scale s body, write_edts scale s = Some body -> Seg track_box (layout (Leaf ELST body)) T (mkRt h ts d lang id width height es tb tr (u32 (scale (l_offset s))) mv).
Proof.
  intros scale s body W. leaf. assert (R : Reads get_elst body [(u32 (scale (l_offset s)), -1); (u32 (scale (stream_duration s)), 0)]).
  { unfold write_edts in W. destruct (l_offset s =? 0); [discriminate W|]. injection W as <-. exact (elst_reads [(scale (l_offset s), -1); (scale (stream_duration s), 0)] eq_refl). }
  assert (Z : zlen body = 32). { unfold write_edts in W. destruct (l_offset s =? 0); [discriminate W|]. injection W as <-. unfold elst_body, elst_entry. cbn [map concat]. zl. reflexivity. }
  eexists. split; [refine (hdr_at _ _ _ _ _ _ (at_l _ _ _ _ A)); [splain|lia]|]. pose proof (leaf_body _ _ _ _ A) as B.
  transitivity (next (get_elst f (p + 8)) (fun r => next (parse_elst f (p + 8)) (fun o => Some (mkRt h ts d lang id width height es tb tr o mv, snd r)))); [reflexivity|].
  unfold parse_elst. rewrite (at_read _ _ _ _ _ R B). unfold next. cbn [fst snd]. change (-1 =? -1) with true. cbv iota. do 2 f_equal. lia.
Qed.
Lemma seg_stts : forall ws times t, parse_stts ws = Some (times, t, []) -> Forall word ws -> 8 + zlen (words ws) < 2 ^ 32 ->
  Seg track_box (layout (Leaf box_stts (words ws))) T (mkRt h ts d lang id width height es tb (TimeTab_model.mkT times (t_offsets tr) (t_has_ctts tr) (t_order tr) t (t_keys tr)) off mv).
Proof.
  intros ws times t P F B. leaf. pose proof (zlen_nonneg (words ws)). eexists. split; [refine (hdr_at _ _ _ _ _ _ (at_l _ _ _ _ A)); [splain|lia]|].
  transitivity (next (rwords parse_stts f (p + 8)) (fun r => let '((times, table), p) := r in Some (mkRt h ts d lang id width height es tb (TimeTab_model.mkT times (t_offsets tr) (t_has_ctts tr) (t_order tr) table (t_keys tr)) off mv, p))); [reflexivity|].
  rewrite (at_read _ _ _ _ _ (reads_words parse_stts ws _ steady_stts P F) (leaf_body _ _ _ _ A)). unfold next. do 2 f_equal. lia.
Qed.
Lemma seg_ctts : forall ws o ord, parse_ctts (t_times tr) ws = Some (o, ord, []) -> Forall word ws -> 8 + zlen (words ws) < 2 ^ 32 ->
  Seg track_box (layout (Leaf box_ctts (words ws))) T (mkRt h ts d lang id width height es tb (TimeTab_model.mkT (t_times tr) o true ord (t_table tr) (t_keys tr)) off mv).
Proof.
  intros ws o ord P F B. leaf. pose proof (zlen_nonneg (words ws)). eexists. split; [refine (hdr_at _ _ _ _ _ _ (at_l _ _ _ _ A)); [splain|lia]|].
  transitivity (next (rwords (parse_ctts (t_times tr)) f (p + 8)) (fun r => let '((offsets, order), p) := r in Some (mkRt h ts d lang id width height es tb (TimeTab_model.mkT (t_times tr) offsets true order (t_table tr) (t_keys tr)) off mv, p))); [reflexivity|].
  rewrite (at_read _ _ _ _ _ (reads_words (parse_ctts (t_times tr)) ws _ (steady_ctts _) P F) (leaf_body _ _ _ _ A)). unfold next. do 2 f_equal. lia.
Qed.
Lemma seg_stss : forall ws k, parse_stss ws = Some (k, []) -> Forall word ws -> 8 + zlen (words ws) < 2 ^ 32 ->
  Seg track_box (layout (Leaf box_stss (words ws))) T (mkRt h ts d lang id width height es tb (TimeTab_model.mkT (t_times tr) (t_offsets tr) (t_has_ctts tr) (t_order tr) (t_table tr) (Some k)) off mv).
Proof.
  intros ws k P F B. leaf. pose proof (zlen_nonneg (words ws)). eexists. split; [refine (hdr_at _ _ _ _ _ _ (at_l _ _ _ _ A)); [splain|lia]|].
  transitivity (next (rwords parse_stss f (p + 8)) (fun r => Some (mkRt h ts d lang id width height es tb (TimeTab_model.mkT (t_times tr) (t_offsets tr) (t_has_ctts tr) (t_order tr) (t_table tr) (Some (fst r))) off mv, snd r))); [reflexivity|].
  rewrite (at_read _ _ _ _ _ (reads_words parse_stss ws _ steady_stss P F) (leaf_body _ _ _ _ A)). unfold next. cbn [fst snd]. do 2 f_equal. lia.
Qed.
Lemma seg_stco : forall ws l, parse_stco ws = Some (l, []) -> Forall word ws -> 8 + zlen (words ws) < 2 ^ 32 ->
  Seg track_box (layout (Leaf box_stco (words ws))) T (mkRt h ts d lang id width height es (mkP (p_stsc tb) (p_size tb) (p_count tb) (p_sizes tb) l) tr off mv).
Proof.
  intros ws l P F B. leaf. pose proof (zlen_nonneg (words ws)). eexists. split; [refine (hdr_at _ _ _ _ _ _ (at_l _ _ _ _ A)); [splain|lia]|].
  transitivity (next (rwords parse_stco f (p + 8)) (fun r => Some (mkRt h ts d lang id width height es (mkP (p_stsc tb) (p_size tb) (p_count tb) (p_sizes tb) (fst r)) tr off mv, snd r))); [reflexivity|].
  rewrite (at_read _ _ _ _ _ (reads_words parse_stco ws _ steady_stco P F) (leaf_body _ _ _ _ A)). unfold next. cbn [fst snd]. do 2 f_equal. lia.
Qed.
Lemma seg_stsc : forall ws l, parse_stsc ws = Some (l, []) -> Forall word ws -> 8 + zlen (words ws) < 2 ^ 32 ->
  Seg track_box (layout (Leaf box_stsc (words ws))) T (mkRt h ts d lang id width height es (mkP l (p_size tb) (p_count tb) (p_sizes tb) (p_chunks tb)) tr off mv).
Proof.
  intros ws l P F B. leaf. pose proof (zlen_nonneg (words ws)). eexists. split; [refine (hdr_at _ _ _ _ _ _ (at_l _ _ _ _ A)); [splain|lia]|].
  transitivity (next (rwords parse_stsc f (p + 8)) (fun r => Some (mkRt h ts d lang id width height es (mkP (fst r) (p_size tb) (p_count tb) (p_sizes tb) (p_chunks tb)) tr off mv, snd r))); [reflexivity|].
  rewrite (at_read _ _ _ _ _ (reads_words parse_stsc ws _ steady_stsc P F) (leaf_body _ _ _ _ A)). unfold next. cbn [fst snd]. do 2 f_equal. lia.
Qed.
Lemma seg_stsz : forall ws z n l, parse_stsz ws = Some (z, n, l, []) -> Forall word ws -> 8 + zlen (words ws) < 2 ^ 32 ->
  Seg track_box (layout (Leaf box_stsz (words ws))) T (mkRt h ts d lang id width height es (mkP (p_stsc tb) z n l (p_chunks tb)) tr off mv).
Proof.
  intros ws z n l P F B. leaf. pose proof (zlen_nonneg (words ws)). eexists. split; [refine (hdr_at _ _ _ _ _ _ (at_l _ _ _ _ A)); [splain|lia]|].
  transitivity (next (rwords parse_stsz f (p + 8)) (fun r => let '((size, n, sizes), p) := r in Some (mkRt h ts d lang id width height es (mkP (p_stsc tb) size n sizes (p_chunks tb)) tr off mv, p))); [reflexivity|].
  rewrite (at_read _ _ _ _ _ (reads_words parse_stsz ws _ steady_stsz P F) (leaf_body _ _ _ _ A)). unfold next. do 2 f_equal. lia.
Qed.
End Track.

(** ** The media information box *)
Definition seen_entry (c : codec) : entry :=
  match c with
  | Video w h _ b => VideoEntry (w mod 2 ^ 16) (h mod 2 ^ 16) b (option_map fst (taken (Sps_model.get_avcc (Bits_spec.bytes_bits b))))
  | Audio r c b => AudioEntry (r mod 2 ^ 16) (c mod 2 ^ 16) b (match b with [] => None | _ => taken (Esds_model.get_audio b) end)
  end.
Definition name_ok (c : codec) : Prop :=
  match c with
  | Video _ _ name b => length name = 31%nat /\ exists a, Sps_model.get_avcc (Bits_spec.bytes_bits b) = Bitstream_model.Ok a
  | Audio _ _ b => b = [] \/ exists a, Esds_model.get_audio b = Bitstream_model.Ok a
  end.
Lemma entry_read : forall c f p, name_ok c -> zlen (layout (entry_item c)) < 2 ^ 32 -> at_ f p (layout (entry_item c)) -> parse_entries 1 (visual c) f p = Some ([seen_entry c], p + zlen (layout (entry_item c))).
Proof.
  intros c f p N L A. cbn [parse_entries]. destruct c as [w h name body|r ch body]; unfold entry_item in *; cbn [visual seen_entry name_ok] in *.
  - destruct N as (N & a & Na). rewrite Na. cbn [taken option_map]. rewrite node_zlen in *. rewrite node_hdr in A. set (k := all_layout _) in *. assert (Ek : k = visual_entry w h name ++ layout (Leaf AVCC body)) by (unfold k; rewrite !all_layout_cons; change (all_layout []) with (@nil Z); rewrite app_nil_r, node_hdr, all_layout_cons; change (all_layout []) with (@nil Z); rewrite app_nil_r, leaf_hdr; reflexivity).
    pose proof (zlen_nonneg k). rewrite (hdr_at f p AVC1 (8 + zlen k)) by (first [lia|splain|exact (at_l _ _ _ _ A)]). unfold next at 1. unfold parse_entry. cbn [r_pos r_type r_size r_box]. pose proof (at_r _ _ _ _ A) as B. rewrite hdr_zlen in B. rewrite Ek in B.
    assert (Zv : zlen (visual_entry w h name) = 78) by (unfold visual_entry; zl; unfold zlen; rewrite N; reflexivity).
    rewrite (at_read _ _ _ _ _ (read_visual w h name N) (at_l _ _ _ _ B)). unfold next at 2. unfold box_end. cbn [r_box r_size]. pose proof (at_r _ _ _ _ B) as C. rewrite Zv in C |- *.
    assert (Zk : zlen k = 78 + (8 + zlen body)) by (rewrite Ek, zlen_app', leaf_zlen, Zv; reflexivity). pose proof (zlen_nonneg body).
    pose proof (at_le _ _ _ C) as Lf. rewrite leaf_zlen in Lf. destruct (length f) as [|fu] eqn:Ef; [unfold zlen in Lf; lia|].
    cbn [visual_boxes]. rewrite (proj2 (Z.ltb_lt _ _)) by lia. rewrite leaf_hdr in C. rewrite (hdr_at f _ AVCC (8 + zlen body)) by (first [lia|splain|exact (at_l _ _ _ _ C)]). unfold next at 3. cbn [r_type r_size r_pos]. change (AVCC =? AVCC) with true. cbv iota.
    pose proof (at_r _ _ _ _ C) as D. rewrite hdr_zlen in D. replace (Z.to_nat (8 + zlen body - 8)) with (length body) by (unfold zlen; lia). rewrite (at_read _ _ _ _ _ (reads_bytes (length body) body eq_refl) D). unfold next at 3. cbn [fst snd]. rewrite Na. cbn [taken]. unfold next at 3.
    rewrite (proj2 (Z.ltb_ge _ _)) by lia. unfold next. cbn [fst snd]. do 2 f_equal. lia.
  - rewrite node_zlen in *. rewrite node_hdr in A. set (k := all_layout _) in *. assert (Ek : k = audio_entry r ch ++ body) by (unfold k; rewrite !all_layout_cons; change (all_layout []) with (@nil Z); rewrite app_nil_r; reflexivity).
    pose proof (zlen_nonneg k). rewrite (hdr_at f p MP4A (8 + zlen k)) by (first [lia|splain|exact (at_l _ _ _ _ A)]). unfold next at 1. unfold parse_entry. cbn [r_pos r_type r_size r_box]. pose proof (at_r _ _ _ _ A) as B. rewrite hdr_zlen in B. rewrite Ek in B.
    assert (Za : zlen (audio_entry r ch) = 28) by (unfold audio_entry; zl; reflexivity).
    rewrite (at_read _ _ _ _ _ (read_audio r ch) (at_l _ _ _ _ B)). unfold next at 2. unfold box_end. cbn [r_box r_size]. pose proof (at_r _ _ _ _ B) as C. rewrite Za in C |- *.
    assert (Zk : zlen k = 28 + zlen body) by (rewrite Ek, zlen_app', Za; reflexivity). pose proof (zlen_nonneg body).
    destruct (Z.ltb_spec (p + 8 + 28) (p + (8 + zlen k))) as [Q|Q].
    + replace (Z.to_nat (p + (8 + zlen k) - (p + 8 + 28))) with (length body) by (unfold zlen in *; lia). rewrite (at_read _ _ _ _ _ (reads_bytes (length body) body eq_refl) C). change ((MP4A =? MP4A) || (MP4A =? ENCA)) with true. cbv iota.
      destruct body as [|b0 body]; [change (zlen []) with 0 in *; lia|]. destruct N as [N|(a & Na)]; [discriminate|]. unfold next. cbn [fst snd]. rewrite Na. cbn [taken]. cbn [fst snd]. do 2 f_equal. lia.
    + assert (body = []) as -> by (destruct body; [reflexivity|unfold zlen in *; cbn [length] in *; lia]). unfold next. cbn [fst snd]. do 2 f_equal. change (zlen []) with 0 in *. lia.
Qed.
Definition media_seg (t : wtrack) (n m : Z) : list Z := hdr MINF n ++ layout (mhd_item t) ++ layout dinf_item ++ hdr STBL m ++ layout (stsd_item (k_codec t)).
Lemma seg_minf : forall t n m h ts d lang id width height es tb tr off mv, h = (if visual (k_codec t) then VIDE else SOUN) -> name_ok (k_codec t) -> zlen (media_seg t n m) <= n < 2 ^ 32 -> 8 <= m < 2 ^ 32 ->
  Seg track_box (media_seg t n m) (mkRt h ts d lang id width height es tb tr off mv) (mkRt h ts d lang id width height [seen_entry (k_codec t)] tb tr off mv).
Proof.
  intros t n m h ts d lang id width height es tb tr off mv Hh N Ln Lm f p A. set (c := k_codec t) in *. unfold media_seg in *. fold c in A, Ln |- *.
  rewrite !zlen_app', !hdr_zlen in Ln |- *. set (zm := zlen (layout (mhd_item t))) in *. set (zs := zlen (layout (stsd_item c))) in *.
  assert (Zd : zlen (layout dinf_item) = 36). { unfold dinf_item. rewrite node_zlen, all_layout_cons. change (all_layout []) with (@nil Z). rewrite app_nil_r, node_zlen, !all_layout_cons. change (all_layout []) with (@nil Z). rewrite app_nil_r, zlen_app', leaf_zlen. cbn [layout]. zl. reflexivity. } rewrite Zd in *.
  assert (0 <= zm /\ 0 <= zs) as (Pm & Ps) by (split; apply zlen_nonneg). eexists. split; [refine (hdr_at _ _ _ _ _ _ (at_l _ _ _ _ A)); [splain|lia]|]. set (B := mkR (p + 8) p n MINF). pose proof (at_r _ _ _ _ A) as A1. rewrite hdr_zlen in A1.
  assert (G : parse_media (visual c) f B = Some ([seen_entry c], p + (8 + (zm + (36 + (8 + zs)))))).
  { unfold parse_media. cbn [r_pos B]. set (loop := media_boxes (S (length f)) (visual c) f (box_end B)).
    set (q := p + 8 + zm). pose proof (at_r _ _ _ _ A1) as A2. fold zm in A2. fold q in A2.
    assert (G1 : next (do_box f q) loop = Some ([seen_entry c], p + (8 + (zm + (36 + (8 + zs)))))).
    { pose proof (at_le _ _ _ A1) as Lf. rewrite !zlen_app', hdr_zlen in Lf. fold zm in Lf. fold zs in Lf. rewrite Zd in Lf.
      assert (Zs : zs = 8 + (8 + zlen (layout (entry_item c)))). { unfold zs, stsd_item. rewrite node_zlen, !all_layout_cons. change (all_layout []) with (@nil Z). rewrite app_nil_r, zlen_app'. cbn [layout]. zl. lia. } pose proof (zlen_nonneg (layout (entry_item c))) as Pe.
      assert (Fu : exists k, S (length f) = S (S (S (S (S k))))) by (exists (length f - 4)%nat; unfold zlen in Lf; lia). destruct Fu as (k & Fu). unfold loop. rewrite Fu. set (e := box_end B). assert (He : e = p + n) by reflexivity.
      assert (M : forall fu b, r_type b = DINF \/ r_type b = STBL -> r_pos b < e -> media_boxes (S fu) (visual c) f e b = next (do_box f (r_pos b)) (media_boxes fu (visual c) f e)).
      { intros fu b [T|T] Q; cbn [media_boxes]; rewrite T; (transitivity (if e <=? r_pos b then None else next (do_box f (r_pos b)) (media_boxes fu (visual c) f e)); [reflexivity|]); (destruct (Z.leb_spec e (r_pos b)); [lia|reflexivity]). }
      pose proof (at_l _ _ _ _ A2) as A3. pose proof (at_r _ _ _ _ A2) as A4. rewrite Zd in A4. unfold dinf_item in A3. rewrite node_hdr in A3. assert (S1 : zlen (all_layout [Node DREF [Raw (full 0 0 ++ be32 1); Leaf URL (full 0 1)]]) = 28) by (unfold dinf_item in Zd; rewrite node_zlen in Zd; lia). rewrite S1 in A3.
      rewrite (hdr_at f q DINF (8 + 28)) by (first [lia|splain|exact (at_l _ _ _ _ A3)]). unfold next at 1. rewrite M by (cbn [r_type r_pos]; unfold q; first [left; reflexivity|lia]). cbn [r_pos].
      pose proof (at_r _ _ _ _ A3) as A5. rewrite hdr_zlen in A5. rewrite all_layout_cons in A5. change (all_layout []) with (@nil Z) in A5. rewrite app_nil_r, node_hdr in A5. assert (S2 : zlen (all_layout [Raw (full 0 0 ++ be32 1); Leaf URL (full 0 1)]) = 20) by (rewrite all_layout_cons in S1; change (all_layout []) with (@nil Z) in S1; rewrite app_nil_r, node_zlen in S1; lia). rewrite S2 in A5.
      rewrite (hdr_at f (q + 8) DREF (8 + 20)) by (first [lia|splain|exact (at_l _ _ _ _ A5)]). unfold next at 1. cbn [media_boxes r_type r_pos].
      set (b := mkR (q + 8 + 8) (q + 8) (8 + 20) DREF). transitivity (next (parse_dref f (q + 8 + 8)) (fun p => if e <=? p then None else next (do_box f p) (media_boxes (S (S (S k))) (visual c) f e))); [reflexivity|].
      pose proof (at_r _ _ _ _ A5) as A6. rewrite hdr_zlen in A6. rewrite !all_layout_cons in A6. change (all_layout []) with (@nil Z) in A6. rewrite app_nil_r in A6. cbn [layout] in A6.
      assert (D : parse_dref f (q + 8 + 8) = Some (q + 36)).
      { unfold parse_dref. rewrite (at_read _ _ _ _ _ (reads_skip 8 (full 0 0 ++ be32 1) ltac:(unfold full; rewrite !app_length, !be_length; reflexivity)) (at_l _ _ _ _ A6)). pose proof (at_r _ _ _ _ A6) as A7. assert (E8 : zlen (full 0 0 ++ be32 1) = 8) by (zl; reflexivity). rewrite E8 in A7 |- *.
        rewrite app_assoc in A7. change (be32 (8 + zlen (full 0 1)) ++ be32 URL) with (hdr URL (8 + zlen (full 0 1))) in A7. assert (E4 : zlen (full 0 1) = 4) by (zl; reflexivity). rewrite E4 in A7.
        rewrite (hdr_at f (q + 8 + 8 + 8) URL (8 + 4)) by (first [lia|splain|exact (at_l _ _ _ _ A7)]). cbn [r_pos]. pose proof (at_r _ _ _ _ A7) as A8. rewrite hdr_zlen in A8.
        rewrite (at_read _ _ _ _ _ (reads_skip 4 (full 0 1) ltac:(unfold full; rewrite !app_length, !be_length; reflexivity)) A8). f_equal. rewrite E4. lia. }
      rewrite D. unfold next at 1. destruct (Z.leb_spec e (q + 36)) as [Q|Q]; [unfold q in Q; lia|].
      rewrite (hdr_at f (q + 36) STBL m) by (first [lia|splain|exact (at_l _ _ _ _ A4)]). unfold next at 1. rewrite M by (cbn [r_type r_pos]; unfold q; first [right; reflexivity|lia]). cbn [r_pos].
      pose proof (at_r _ _ _ _ A4) as A9. rewrite hdr_zlen in A9. unfold stsd_item in A9. rewrite node_hdr in A9. set (kk := all_layout _) in A9. assert (Ek : kk = (full 0 0 ++ be32 1) ++ layout (entry_item c)) by (unfold kk; rewrite !all_layout_cons; change (all_layout []) with (@nil Z); rewrite app_nil_r; reflexivity).
      assert (Zk : zlen kk = 8 + zlen (layout (entry_item c))) by (rewrite Ek, zlen_app'; zl; reflexivity). rewrite Zk in A9.
      rewrite (hdr_at f (q + 36 + 8) STSD (8 + (8 + zlen (layout (entry_item c))))) by (first [lia|splain|exact (at_l _ _ _ _ A9)]). unfold next at 1. cbn [media_boxes r_type r_pos].
      set (b2 := mkR (q + 36 + 8 + 8) (q + 36 + 8) (8 + (8 + zlen (layout (entry_item c)))) STSD).
      transitivity (next (rbind (rskip 4) (fun _ => rnum 4) f (q + 36 + 8 + 8)) (fun r => if fst r =? 0 then (if e <=? snd r then None else next (do_box f (snd r)) (media_boxes (S k) (visual c) f e)) else parse_entries (Z.to_nat (fst r)) (visual c) f (snd r))); [reflexivity|].
      pose proof (at_r _ _ _ _ A9) as A10. rewrite hdr_zlen, Ek in A10.
      assert (R : Reads (rbind (rskip 4) (fun _ => rnum 4)) (full 0 0 ++ be32 1) 1) by (rb tt; [apply reads_skip; unfold full; rewrite !app_length, !be_length; reflexivity|apply reads_num32; lia]).
      rewrite (at_read _ _ _ _ _ R (at_l _ _ _ _ A10)). unfold next at 1. cbn [fst snd]. change (1 =? 0) with false. cbv iota. change (Z.to_nat 1) with 1%nat.
      pose proof (at_r _ _ _ _ A10) as A11. assert (E8 : zlen (full 0 0 ++ be32 1) = 8) by (zl; reflexivity). rewrite E8 in A11 |- *.
      rewrite entry_read by (first [exact N|lia|exact A11]). do 2 f_equal. unfold q. lia. }
    unfold mhd_item in A1, zm. fold c in A1, zm. destruct (visual c).
    - assert (Zm : zm = 8 + zlen vmhd_body) by (unfold zm; apply leaf_zlen). rewrite leaf_hdr in A1. assert (E12 : zlen vmhd_body = 12) by (unfold vmhd_body; zl; reflexivity). pose proof (at_l _ _ _ _ A1) as A2'. rewrite E12 in A2'. rewrite (hdr_at f (p + 8) VMHD (8 + 12)) by (first [lia|splain|exact (at_l _ _ _ _ A2')]).
      unfold next at 1. cbn [r_type r_pos]. change (VMHD =? VMHD) with true. cbv iota. pose proof (at_r _ _ _ _ A2') as A3. rewrite hdr_zlen in A3. rewrite (at_read _ _ _ _ _ (reads_skip 12 vmhd_body ltac:(unfold vmhd_body, full; rewrite !app_length, !be_length; reflexivity)) A3).
      unfold next at 1. cbn [snd]. replace (p + 8 + 8 + zlen vmhd_body) with q by (unfold q; lia). exact G1.
    - assert (Zm : zm = 8 + zlen smhd_body) by (unfold zm; apply leaf_zlen). rewrite leaf_hdr in A1. assert (E12 : zlen smhd_body = 8) by (unfold smhd_body; zl; reflexivity). pose proof (at_l _ _ _ _ A1) as A2'. rewrite E12 in A2'. rewrite (hdr_at f (p + 8) SMHD (8 + 8)) by (first [lia|splain|exact (at_l _ _ _ _ A2')]).
      unfold next at 1. cbn [r_type r_pos]. change (SMHD =? SMHD) with true. cbv iota. pose proof (at_r _ _ _ _ A2') as A3. rewrite hdr_zlen in A3. rewrite (at_read _ _ _ _ _ (reads_skip 8 smhd_body ltac:(unfold smhd_body, full; rewrite !app_length, !be_length; reflexivity)) A3).
      unfold next at 1. cbn [snd]. replace (p + 8 + 8 + zlen smhd_body) with q by (unfold q; lia). exact G1. }
  subst h. destruct (visual c).
  - transitivity (next (parse_media true f B) (fun r => Some (mkRt VIDE ts d lang id width height (fst r) tb tr off mv, snd r))); [reflexivity|]. rewrite G. reflexivity.
  - transitivity (next (parse_media false f B) (fun r => Some (mkRt SOUN ts d lang id width height (fst r) tb tr off mv, snd r))); [reflexivity|]. rewrite G. reflexivity.
Qed.
