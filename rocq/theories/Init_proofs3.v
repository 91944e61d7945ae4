(** Proofs about Init_model: the segment read back, entries. *)
From Coq Require Import ZifyNat.
From Verif Require Import Util RangeMap_model SampleTab_model SampleTab_proofs TimeTab_model Double_model Box_model Box_proofs Frag_model Frag_proofs Frag_proofs2 Level_model Level_proofs Movie_model Movie_proofs Movie_proofs2 Movie_proofs3 Movie_proofs4 Movie_proofs5 Movie_proofs7 Init_model Init_proofs.
From Verif Require Bits_spec Bitstream_model Sps_model Esds_model Esds_proofs2 Init_proofs2.
Local Open Scope Z_scope.
Local Ltac Zify.zify_post_hook ::= Z.div_mod_to_equations.
Opaque be.

(** ** Entries *)
Definition Ent (video : bool) (seg : list Z) (e : entry) : Prop := forall f p, at_ f p seg -> exists b, do_box f p = Some b /\ parse_entry video f b = Some (e, p + zlen seg).
Lemma ents : forall video segs es, Forall2 (Ent video) segs es -> forall f p, at_ f p (concat segs) -> parse_entries (length segs) video f p = Some (es, p + zlen (concat segs)).
Proof.
  intros video segs es F. induction F as [|seg e segs es E F IH]; intros f p A; cbn [concat length parse_entries]; [change (zlen []) with 0; rewrite Z.add_0_r; reflexivity|].
  cbn [concat] in A. destruct (E f p (at_l _ _ _ _ A)) as (b & E1 & E2). rewrite E1. unfold next at 1. rewrite E2. unfold next at 1. cbn [fst snd]. rewrite (IH f _ (at_r _ _ _ _ A)). unfold next. cbn [fst snd]. rewrite zlen_app'. do 2 f_equal. lia.
Qed.
Lemma plain_ent : forall c, name_ok c -> zlen (layout (entry_item c)) < 2 ^ 32 -> Ent (visual c) (layout (entry_item c)) (seen_entry c).
Proof.
  intros c N L f p A. pose proof (entry_read c f p N L A) as E. cbn [parse_entries] in E. destruct (do_box f p) as [b|]; [|discriminate E]. unfold next at 1 in E. exists b. split; [reflexivity|].
  destruct (parse_entry (visual c) f b) as [[e q]|]; [|discriminate E]. unfold next in E. cbn [fst snd] in E. injection E as -> ->. reflexivity.
Qed.
Lemma sinf_zlen : forall format kid, length kid = 16%nat -> zlen (layout (sinf_item format kid)) = 80.
Proof.
  intros format kid L. unfold sinf_item. rewrite node_zlen, !all_layout_cons. change (all_layout []) with (@nil Z). rewrite app_nil_r, !zlen_app', !leaf_zlen, node_zlen, all_layout_cons. change (all_layout []) with (@nil Z). rewrite app_nil_r, leaf_zlen. unfold tenc_body. zl. unfold zlen. rewrite L. reflexivity.
Qed.
Lemma video_protected : forall w h name body kid a, length kid = 16%nat -> length name = 31%nat -> Sps_model.get_avcc (Bits_spec.bytes_bits body) = Bitstream_model.Ok a ->
  zlen (layout (protected_item (Video w h name body) kid)) < 2 ^ 32 -> Ent true (layout (protected_item (Video w h name body) kid)) (seen_entry (Video w h name body)).
Proof.
  intros w h name body kid a Lk N Na L f p A. cbn [protected_item seen_entry] in *. rewrite node_zlen in *. rewrite node_hdr in A. set (k := all_layout _) in *. rewrite Na. cbn [taken option_map].
  assert (Ek : k = visual_entry w h name ++ layout (sinf_item AVC1 kid) ++ layout (Leaf AVCC body)) by (unfold k; rewrite !all_layout_cons; change (all_layout []) with (@nil Z); rewrite app_nil_r; reflexivity).
  pose proof (sinf_zlen AVC1 kid Lk) as Zs. pose proof (zlen_nonneg k). eexists. split; [refine (hdr_at f p ENCV (8 + zlen k) _ _ (at_l _ _ _ _ A)); [splain|lia]|].
  unfold parse_entry. cbn [r_pos r_type r_size r_box]. pose proof (at_r _ _ _ _ A) as B. rewrite hdr_zlen in B. rewrite Ek in B.
  assert (Zv : zlen (visual_entry w h name) = 78) by (unfold visual_entry; zl; unfold zlen; rewrite N; reflexivity).
  rewrite (at_read _ _ _ _ _ (read_visual w h name N) (at_l _ _ _ _ B)). unfold next at 1. unfold box_end. cbn [r_box r_size]. pose proof (at_r _ _ _ _ B) as C. rewrite Zv in C |- *.
  assert (Zk : zlen k = 78 + (80 + (8 + zlen body))) by (rewrite Ek, !zlen_app', leaf_zlen, Zv, Zs; reflexivity). pose proof (zlen_nonneg body).
  pose proof (at_le _ _ _ C) as Lf. rewrite zlen_app', leaf_zlen, Zs in Lf. destruct (length f) as [|[|fu]] eqn:Ef; [unfold zlen in Lf; lia|unfold zlen in Lf; lia|].
  cbn [visual_boxes]. rewrite (proj2 (Z.ltb_lt _ _)) by lia. pose proof (at_l _ _ _ _ C) as C1. pose proof (at_r _ _ _ _ C) as C2. rewrite Zs in C2.
  unfold sinf_item in C1. rewrite node_hdr in C1. set (kk := all_layout _) in C1. assert (Zkk : zlen kk = 72) by (unfold sinf_item in Zs; rewrite node_zlen in Zs; fold kk in Zs; lia). rewrite Zkk in C1.
  rewrite (hdr_at f _ SINF (8 + 72)) by (first [lia|splain|exact (at_l _ _ _ _ C1)]). unfold next at 2. cbn [r_type r_size r_pos].
  change (SINF =? AVCC) with false. change (SINF =? BTRT) with false. change (SINF =? PASP) with false. cbv iota.
  rewrite skip_current_ok by (cbn [r_size]; lia). cbn [r_pos r_size]. replace (p + 8 + 78 + 8 + (8 + 72 - 8)) with (p + 8 + 78 + 80) by lia.
  rewrite (proj2 (Z.ltb_lt _ _)) by lia. rewrite leaf_hdr in C2. rewrite (hdr_at f _ AVCC (8 + zlen body)) by (first [lia|splain|exact (at_l _ _ _ _ C2)]). unfold next at 2. cbn [r_type r_size r_pos]. change (AVCC =? AVCC) with true. cbv iota.
  pose proof (at_r _ _ _ _ C2) as D. rewrite hdr_zlen in D. replace (Z.to_nat (8 + zlen body - 8)) with (length body) by (unfold zlen; lia). rewrite (at_read _ _ _ _ _ (reads_bytes (length body) body eq_refl) D). unfold next at 2. cbn [fst snd]. rewrite Na. cbn [taken]. unfold next at 2.
  rewrite (proj2 (Z.ltb_ge _ _)) by lia. unfold next. cbn [fst snd]. do 2 f_equal. lia.
Qed.
Definition seen_protected (c : codec) (kid : list Z) : entry := match c with Video _ _ _ _ => seen_entry c | Audio r ch b => seen_entry (Audio r ch (b ++ layout (sinf_item MP4A kid))) end.
Lemma audio_protected : forall r ch body kid a, length kid = 16%nat -> Esds_model.get_audio (body ++ layout (sinf_item MP4A kid)) = Bitstream_model.Ok a ->
  zlen (layout (protected_item (Audio r ch body) kid)) < 2 ^ 32 -> Ent false (layout (protected_item (Audio r ch body) kid)) (seen_protected (Audio r ch body) kid).
Proof.
  intros r ch body kid a Lk Na L f p A. cbn [protected_item seen_protected seen_entry] in *. set (bd := body ++ layout (sinf_item MP4A kid)) in *. rewrite node_zlen in *. rewrite node_hdr in A. set (k := all_layout _) in *.
  assert (Ek : k = audio_entry r ch ++ bd) by (unfold k, bd; rewrite !all_layout_cons; change (all_layout []) with (@nil Z); rewrite app_nil_r; reflexivity).
  assert (Zb : 0 < zlen bd) by (unfold bd; rewrite zlen_app', sinf_zlen by exact Lk; pose proof (zlen_nonneg body); lia).
  pose proof (zlen_nonneg k). eexists. split; [refine (hdr_at f p ENCA (8 + zlen k) _ _ (at_l _ _ _ _ A)); [splain|lia]|]. unfold parse_entry. cbn [r_pos r_type r_size r_box]. pose proof (at_r _ _ _ _ A) as B. rewrite hdr_zlen in B. rewrite Ek in B.
  assert (Za : zlen (audio_entry r ch) = 28) by (unfold audio_entry; zl; reflexivity).
  rewrite (at_read _ _ _ _ _ (read_audio r ch) (at_l _ _ _ _ B)). unfold next at 1. unfold box_end. cbn [r_box r_size]. pose proof (at_r _ _ _ _ B) as C. rewrite Za in C |- *.
  assert (Zk : zlen k = 28 + zlen bd) by (rewrite Ek, zlen_app', Za; reflexivity).
  rewrite (proj2 (Z.ltb_lt _ _)) by lia. clearbody bd. replace (Z.to_nat (p + (8 + zlen k) - (p + 8 + 28))) with (length bd) by (unfold zlen in *; lia). rewrite (at_read _ _ _ _ _ (reads_bytes (length bd) bd eq_refl) C). change ((ENCA =? MP4A) || (ENCA =? ENCA)) with true. cbv iota.
  unfold next at 1. cbn [fst snd]. rewrite Na. cbn [taken]. unfold next. destruct bd as [|b0 bd]; [change (zlen []) with 0 in *; lia|]. do 2 f_equal. lia.
Qed.
(** ** The media information box *)
Definition minf_seg (c : codec) (key : option (list Z)) (n m : Z) : list Z := hdr MINF n ++ layout (mhd_of c) ++ layout dinf_item ++ hdr STBL m ++ layout (stsd_items c key).
Lemma dinf_zlen : zlen (layout dinf_item) = 36.
Proof. unfold dinf_item. rewrite node_zlen, all_layout_cons. change (all_layout []) with (@nil Z). rewrite app_nil_r, node_zlen, !all_layout_cons. change (all_layout []) with (@nil Z). rewrite app_nil_r, zlen_app', leaf_zlen. cbn [layout]. zl. reflexivity. Qed.
Lemma init_minf_seg : forall c key seen n m h ts d lang id width height es tb tr off mv, h = (if visual c then VIDE else SOUN) -> Forall2 (Ent (visual c)) (map layout (entry_items c key)) seen -> zlen (minf_seg c key n m) <= n < 2 ^ 32 -> 8 <= m < 2 ^ 32 ->
  Seg track_box (minf_seg c key n m) (mkRt h ts d lang id width height es tb tr off mv) (mkRt h ts d lang id width height seen tb tr off mv).
Proof.
  intros c key seen n m h ts d lang id width height es tb tr off mv Hh N Ln Lm f p A. unfold minf_seg in *.
  rewrite !zlen_app', !hdr_zlen in Ln |- *. set (zm := zlen (layout (mhd_of c))) in *. set (zs := zlen (layout (stsd_items c key))) in *.
  pose proof dinf_zlen as Zd. rewrite Zd in *. set (num := Z.of_nat (length (entry_items c key))). assert (Hnum : 0 < num < 3) by (unfold num, entry_items; destruct key; cbn [length]; lia).
  assert (0 <= zm /\ 0 <= zs) as (Pm & Ps) by (split; apply zlen_nonneg). eexists. split; [refine (hdr_at _ _ _ _ _ _ (at_l _ _ _ _ A)); [splain|lia]|]. set (B := mkR (p + 8) p n MINF). pose proof (at_r _ _ _ _ A) as A1. rewrite hdr_zlen in A1.
  set (eb := concat (map layout (entry_items c key))) in *.
  assert (G : parse_media (visual c) f B = Some (seen, p + (8 + (zm + (36 + (8 + zs)))))).
  { unfold parse_media. cbn [r_pos B]. set (loop := media_boxes (S (length f)) (visual c) f (box_end B)).
    set (q := p + 8 + zm). pose proof (at_r _ _ _ _ A1) as A2. fold zm in A2. fold q in A2.
    assert (G1 : next (do_box f q) loop = Some (seen, p + (8 + (zm + (36 + (8 + zs)))))).
    { pose proof (at_le _ _ _ A1) as Lf. rewrite !zlen_app', hdr_zlen in Lf. fold zm in Lf. fold zs in Lf. rewrite Zd in Lf.
      assert (Zs : zs = 8 + (8 + zlen eb)). { unfold zs, stsd_items. rewrite node_zlen, all_layout_cons, <- segs_concat. fold eb. rewrite zlen_app'. cbn [layout]. zl. lia. } pose proof (zlen_nonneg eb) as Pe.
      assert (Fu : exists k, S (length f) = S (S (S (S (S k))))) by (exists (length f - 4)%nat; unfold zlen in Lf; lia). destruct Fu as (k & Fu). unfold loop. rewrite Fu. set (e := box_end B). assert (He : e = p + n) by reflexivity.
      assert (M : forall fu b, r_type b = DINF \/ r_type b = STBL -> r_pos b < e -> media_boxes (S fu) (visual c) f e b = next (do_box f (r_pos b)) (media_boxes fu (visual c) f e)).
      { intros fu b [T|T] Q; cbn [media_boxes]; rewrite T; (transitivity (if e <=? r_pos b then None else next (do_box f (r_pos b)) (media_boxes fu (visual c) f e)); [reflexivity|]); (destruct (Z.leb_spec e (r_pos b)); [lia|reflexivity]). }
      pose proof (at_l _ _ _ _ A2) as A3. pose proof (at_r _ _ _ _ A2) as A4. rewrite Zd in A4. unfold dinf_item in A3. rewrite node_hdr in A3. assert (S1 : zlen (all_layout [Node DREF [Raw (full 0 0 ++ be32 1); Leaf URL (full 0 1)]]) = 28) by (unfold dinf_item in Zd; rewrite node_zlen in Zd; lia). rewrite S1 in A3.
      rewrite (hdr_at f q DINF (8 + 28)) by (first [lia|splain|exact (at_l _ _ _ _ A3)]). unfold next at 1. rewrite M by (cbn [r_type r_pos]; unfold q; first [left; reflexivity|lia]). cbn [r_pos].
      pose proof (at_r _ _ _ _ A3) as A5. rewrite hdr_zlen in A5. rewrite all_layout_cons in A5. change (all_layout []) with (@nil Z) in A5. rewrite app_nil_r, node_hdr in A5. assert (S2 : zlen (all_layout [Raw (full 0 0 ++ be32 1); Leaf URL (full 0 1)]) = 20) by (rewrite all_layout_cons in S1; change (all_layout []) with (@nil Z) in S1; rewrite app_nil_r, node_zlen in S1; lia). rewrite S2 in A5.
      rewrite (hdr_at f (q + 8) DREF (8 + 20)) by (first [lia|splain|exact (at_l _ _ _ _ A5)]). unfold next at 1. cbn [media_boxes r_type r_pos].
      set (b := mkR (q + 8 + 8) (q + 8) (8 + 20) DREF). transitivity (next (parse_dref f (q + 8 + 8)) (fun p => if e <=? p then None else next (do_box f p) (media_boxes (S (S (S k))) (visual c) f e))); [reflexivity|].
      pose proof (at_r _ _ _ _ A5) as A6. rewrite hdr_zlen in A6. rewrite !all_layout_cons in A6. change (all_layout []) with (@nil Z) in A6. rewrite app_nil_r in A6. cbn [layout] in A6.
      assert (D : parse_dref f (q + 8 + 8) = Some (q + 36)).
      { unfold parse_dref. rewrite (at_read _ _ _ _ _ (reads_skip 8 (full 0 0 ++ be32 1) ltac:(unfold full; rewrite !app_length, !be_length; reflexivity)) (at_l _ _ _ _ A6)). pose proof (at_r _ _ _ _ A6) as A7. assert (E8 : zlen (full 0 0 ++ be32 1) = 8) by (zl; reflexivity). rewrite E8 in A7 |- *.
        rewrite app_assoc in A7. change (be32 (8 + zlen (full 0 1)) ++ be32 URL) with (hdr URL (8 + zlen (full 0 1))) in A7. assert (E4 : zlen (full 0 1) = 4) by (zl; reflexivity). rewrite E4 in A7.
        rewrite (hdr_at f (q + 8 + 8 + 8) URL (8 + 4)) by (first [lia|splain|exact (at_l _ _ _ _ A7)]). cbn [r_pos]. pose proof (at_r _ _ _ _ A7) as A8. rewrite hdr_zlen in A8.
        rewrite (at_read _ _ _ _ _ (reads_skip 4 (full 0 1) ltac:(unfold full; rewrite !app_length, !be_length; reflexivity)) A8). f_equal. rewrite E4. lia. }
      rewrite D. unfold next at 1. destruct (Z.leb_spec e (q + 36)) as [Q|Q]; [unfold q in Q; lia|].
      rewrite (hdr_at f (q + 36) STBL m) by (first [lia|splain|exact (at_l _ _ _ _ A4)]). unfold next at 1. rewrite M by (cbn [r_type r_pos]; unfold q; first [right; reflexivity|lia]). cbn [r_pos].
      pose proof (at_r _ _ _ _ A4) as A9. rewrite hdr_zlen in A9. unfold stsd_items in A9. rewrite node_hdr in A9. set (kk := all_layout _) in A9. assert (Ek : kk = (full 0 0 ++ be32 num) ++ eb) by (unfold kk; rewrite all_layout_cons, <- segs_concat; reflexivity).
      assert (E8 : zlen (full 0 0 ++ be32 num) = 8) by (zl; reflexivity).
      assert (Zk : zlen kk = 8 + zlen eb) by (rewrite Ek, zlen_app', E8; reflexivity). rewrite Zk in A9.
      rewrite (hdr_at f (q + 36 + 8) STSD (8 + (8 + zlen eb))) by (first [lia|splain|exact (at_l _ _ _ _ A9)]). unfold next at 1. cbn [media_boxes r_type r_pos].
      set (b2 := mkR (q + 36 + 8 + 8) (q + 36 + 8) (8 + (8 + zlen eb)) STSD).
      transitivity (next (rbind (rskip 4) (fun _ => rnum 4) f (q + 36 + 8 + 8)) (fun r => if fst r =? 0 then (if e <=? snd r then None else next (do_box f (snd r)) (media_boxes (S k) (visual c) f e)) else parse_entries (Z.to_nat (fst r)) (visual c) f (snd r))); [reflexivity|].
      pose proof (at_r _ _ _ _ A9) as A10. rewrite hdr_zlen, Ek in A10.
      assert (R : Reads (rbind (rskip 4) (fun _ => rnum 4)) (full 0 0 ++ be32 num) num) by (rb tt; [apply reads_skip; unfold full; rewrite !app_length, !be_length; reflexivity|apply reads_num32; unfold word; lia]).
      rewrite (at_read _ _ _ _ _ R (at_l _ _ _ _ A10)). unfold next at 1. cbn [fst snd]. destruct (Z.eqb_spec num 0); [lia|].
      pose proof (at_r _ _ _ _ A10) as A11. rewrite E8 in A11 |- *.
      replace (Z.to_nat num) with (length (map layout (entry_items c key))) by (rewrite map_length; unfold num; lia). rewrite (ents _ _ _ N f _ A11). fold eb. do 2 f_equal. unfold q. lia. }
    unfold mhd_of in A1, zm. destruct (visual c).
    - assert (Zm : zm = 8 + zlen vmhd_body) by (unfold zm; apply leaf_zlen). rewrite leaf_hdr in A1. assert (E12 : zlen vmhd_body = 12) by (unfold vmhd_body; zl; reflexivity). pose proof (at_l _ _ _ _ A1) as A2'. rewrite E12 in A2'. rewrite (hdr_at f (p + 8) VMHD (8 + 12)) by (first [lia|splain|exact (at_l _ _ _ _ A2')]).
      unfold next at 1. cbn [r_type r_pos]. change (VMHD =? VMHD) with true. cbv iota. pose proof (at_r _ _ _ _ A2') as A3. rewrite hdr_zlen in A3. rewrite (at_read _ _ _ _ _ (reads_skip 12 vmhd_body ltac:(unfold vmhd_body, full; rewrite !app_length, !be_length; reflexivity)) A3).
      unfold next at 1. cbn [snd]. replace (p + 8 + 8 + zlen vmhd_body) with q by (unfold q; lia). exact G1.
    - assert (Zm : zm = 8 + zlen smhd_body) by (unfold zm; apply leaf_zlen). rewrite leaf_hdr in A1. assert (E12 : zlen smhd_body = 8) by (unfold smhd_body; zl; reflexivity). pose proof (at_l _ _ _ _ A1) as A2'. rewrite E12 in A2'. rewrite (hdr_at f (p + 8) SMHD (8 + 8)) by (first [lia|splain|exact (at_l _ _ _ _ A2')]).
      unfold next at 1. cbn [r_type r_pos]. change (SMHD =? SMHD) with true. cbv iota. pose proof (at_r _ _ _ _ A2') as A3. rewrite hdr_zlen in A3. rewrite (at_read _ _ _ _ _ (reads_skip 8 smhd_body ltac:(unfold smhd_body, full; rewrite !app_length, !be_length; reflexivity)) A3).
      unfold next at 1. cbn [snd]. replace (p + 8 + 8 + zlen smhd_body) with q by (unfold q; lia). exact G1. }
  subst h. destruct (visual c).
  - transitivity (next (parse_media true f B) (fun r => Some (mkRt VIDE ts d lang id width height (fst r) tb tr off mv, snd r))); [reflexivity|]. rewrite G. reflexivity.
  - transitivity (next (parse_media false f B) (fun r => Some (mkRt SOUN ts d lang id width height (fst r) tb tr off mv, snd r))); [reflexivity|]. rewrite G. reflexivity.
Qed.
