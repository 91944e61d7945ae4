(** Proofs about Movie_model: reading a whole track. *)
From Coq Require Import ZifyNat.
From Verif Require Import Util RangeMap_model SampleTab_model SampleTab_proofs TimeTab_model Double_model Box_model Box_proofs Frag_model Frag_proofs Frag_proofs2 Level_model Level_proofs Movie_model Movie_proofs Movie_proofs2 Movie_proofs3.
Local Open Scope Z_scope.
Local Ltac Zify.zify_post_hook ::= Z.div_mod_to_equations.
Opaque be.

Lemma chain1 : forall {T} (box : list Z -> rd -> T -> option (T * Z)) seg s s', 0 < zlen seg -> Seg box seg s s' -> Chain box [seg] s s'.
Proof. intros. econstructor; [assumption|eassumption|constructor]. Qed.
Lemma segs_concat : forall l, concat (map layout l) = all_layout l. Proof. reflexivity. Qed.
Lemma all1 : forall i, all_layout [i] = layout i. Proof. intros. rewrite all_layout_cons. change (all_layout []) with (@nil Z). apply app_nil_r. Qed.
Lemma leaf_pos : forall t b, 0 < zlen (layout (Leaf t b)). Proof. intros. rewrite leaf_zlen. pose proof (zlen_nonneg b). lia. Qed.
(** a table of words, as words *)
Lemma table_cases : forall ty ws, ws = [] \/ (exists b, ws = fullbox ty b) -> ws <> [] -> table_box ty ws = [Leaf ty (words (skipn 2 ws))]. Proof. intros ty ws [->|(b & ->)] N; [contradiction|reflexivity]. Qed.
Lemma stco_leaf : forall t mdat, layout (stco_item t mdat) = layout (Leaf box_stco (words (0 :: u32 (Z.of_nat (length (chunks t))) :: map (fun c => u32 (fst c + mdat)) (chunks t)))).
Proof.
  intros. unfold stco_item. rewrite layout_node, layout_leaf, !all_layout_cons. change (all_layout []) with (@nil Z). rewrite app_nil_r. cbn [layout]. rewrite !words_cons. unfold stco_words. fold (chunks t).
  assert (Z0 : full 0 0 = be32 0) by (vm_compute; reflexivity). rewrite Z0, <- !app_assoc. reflexivity.
Qed.
Lemma skip2_words : forall ws, Forall word ws -> Forall word (skipn 2 ws). Proof. intros ws F. apply Forall_skipn'. exact F. Qed.

Definition the_stsz (t : wtrack) : list Z := write_stsz (SampleTab_model.write_all (k_places t)).
Definition the_stco (t : wtrack) (mdat : Z) : list Z := 0 :: u32 (Z.of_nat (length (chunks t))) :: map (fun c => u32 (fst c + mdat)) (chunks t).
Definition width_of (c : codec) : Z := match c with Video w _ _ _ => w | Audio _ _ _ => 0 end.
Definition height_of (c : codec) : Z := match c with Video _ h _ _ => h | Audio _ _ _ => 0 end.
Definition handler_of (c : codec) : Z := if visual c then VIDE else SOUN.

Section Read.
Variables (now mvts : Z) (t : wtrack) (id mdat : Z) (mv : Z).
Variables (times : list (Z * Z)) (table : RangeMap_model.table decoding) (offs : list Z) (order : list (Z * Z)) (keys : option (RangeMap_model.table Z)).
Variables (stsc : RangeMap_model.table chunk) (z n : Z) (sizes stco : list Z).
Hypothesis Hc : has_chunks t.
Hypothesis Hn : name_ok (k_codec t).
Hypothesis Hl : let '(a, b, c) := k_lang t in lower a /\ lower b /\ lower c.
Hypothesis P1 : parse_stts (skipn 2 (the_stts t)) = Some (times, table, []).
Hypothesis P2 : if match the_ctts t with [] => false | _ => true end then parse_ctts times (skipn 2 (the_ctts t)) = Some (offs, order, []) else offs = [] /\ order = [].
Hypothesis P3 : parse_stsc (skipn 2 (stsc_of t)) = Some (stsc, []).
Hypothesis P4 : parse_stsz (skipn 2 (the_stsz t)) = Some (z, n, sizes, []).
Hypothesis P5 : parse_stco (the_stco t mdat) = Some (stco, []).
Hypothesis P6 : match the_stss t with [] => keys = None | _ => exists m, keys = Some m /\ parse_stss (skipn 2 (the_stss t)) = Some (m, []) end.
Hypothesis Hz : zlen (layout (trak_item now mvts t id mdat)) < 2 ^ 32.
Let has := match the_ctts t with [] => false | _ => true end.
Definition track_read : rtrack :=
  mkRt (handler_of (k_codec t)) (u32 (k_ts t)) (u32 (time_scale (k_ts t) (stream_duration (k_level t)))) (k_lang t) (u32 (id + 1)) (width_of (k_codec t) mod 2 ^ 16) (height_of (k_codec t) mod 2 ^ 16) [seen_entry (k_codec t)]
    (mkP stsc z n sizes stco) (TimeTab_model.mkT times offs has order table keys) (if l_offset (k_level t) =? 0 then 0 else u32 (time_scale mvts (l_offset (k_level t)))) mv.

Lemma handler_word : 0 <= handler_of (k_codec t) < 2 ^ 32. Proof. unfold handler_of. destruct (visual (k_codec t)); unfold VIDE, SOUN, BOX; lia. Qed.
Definition tables_segs : list (list Z) := map layout (table_box box_stts (the_stts t)) ++ map layout (table_box box_ctts (the_ctts t)) ++ map layout (table_box box_stsc (stsc_of t)) ++ map layout (table_box box_stsz (the_stsz t)) ++ [layout (stco_item t mdat)] ++ map layout (table_box box_stss (the_stss t)).
Definition stbl_zlen : Z := 8 + zlen (all_layout ((stsd_item (k_codec t) :: tables_before t) ++ stco_item t mdat :: table_box box_stss (the_stss t))).
Definition minf_zlen : Z := 8 + zlen (all_layout [mhd_item t; dinf_item; stbl_item t mdat]).
Definition track_segs : list (list Z) :=
  [hdr TRAK (zlen (layout (trak_item now mvts t id mdat))); layout (tkhd_item now mvts t id)]
  ++ match write_edts (time_scale mvts) (k_level t) with None => [] | Some body => [hdr EDTS (16 + zlen body); layout (Leaf ELST body)] end
  ++ [hdr MDIA (zlen (layout (mdia_item now t mdat))); layout (mdhd_item now t); layout (hdlr_item t); media_seg t minf_zlen stbl_zlen] ++ tables_segs.
Lemma tables_concat : concat tables_segs = all_layout (tables_before t ++ stco_item t mdat :: table_box box_stss (the_stss t)).
Proof. unfold tables_segs, tables_before. rewrite !concat_app, !segs_concat. cbn [concat]. rewrite !all_layout_app, all_layout_cons, <- !app_assoc. reflexivity. Qed.
Lemma segs_trak : concat track_segs = layout (trak_item now mvts t id mdat).
Proof.
  unfold track_segs. rewrite !concat_app. rewrite tables_concat. set (TB := all_layout (tables_before t ++ _)). unfold trak_item at 2. rewrite node_hdr. rewrite <- node_zlen with (t := TRAK). change (Node TRAK (tkhd_item now mvts t id :: edts_items mvts t ++ [mdia_item now t mdat])) with (trak_item now mvts t id mdat).
  cbn [concat]. rewrite !app_nil_r. rewrite all_layout_cons, all_layout_app, all_layout_cons. change (all_layout []) with (@nil Z). rewrite app_nil_r. rewrite <- !app_assoc. do 2 f_equal.
  assert (E : concat match write_edts (time_scale mvts) (k_level t) with None => [] | Some body => [hdr EDTS (16 + zlen body); layout (Leaf ELST body)] end = all_layout (edts_items mvts t)).
  { unfold edts_items. destruct (write_edts (time_scale mvts) (k_level t)) as [body|]; [|reflexivity]. cbn [concat]. rewrite app_nil_r, all1, node_hdr, all1, node_hdr, all1. change (layout (Raw body)) with body. rewrite leaf_hdr. do 2 f_equal. rewrite zlen_app', hdr_zlen. lia. }
  rewrite E. f_equal. unfold mdia_item at 2. rewrite node_hdr, <- node_zlen with (t := MDIA). fold (mdia_item now t mdat). rewrite !all_layout_cons. change (all_layout []) with (@nil Z). rewrite app_nil_r. do 3 f_equal.
  unfold minf_item. rewrite node_hdr. fold minf_zlen. unfold media_seg. rewrite !all_layout_cons. change (all_layout []) with (@nil Z). rewrite app_nil_r, <- !app_assoc. do 3 f_equal.
Qed.
Lemma track_chain : Chain track_box track_segs (rtrack0 mv) track_read.
Proof.
  assert (exists a b c, k_lang t = (a, b, c) /\ lower a /\ lower b /\ lower c) as (a & b & c & El & La & Lb & Lc) by (destruct (k_lang t) as [[a b] c]; exists a, b, c; split; [reflexivity|exact Hl]).
  assert (Hs : zlen (concat track_segs) < 2 ^ 32) by (rewrite segs_trak; exact Hz). unfold track_segs in Hs |- *. rewrite !concat_app, !zlen_app' in Hs.
  set (zt := zlen (concat tables_segs)) in *. assert (Zt : 0 <= zt) by apply zlen_nonneg. set (ze := zlen (concat match write_edts (time_scale mvts) (k_level t) with None => [] | Some body => [hdr EDTS (16 + zlen body); layout (Leaf ELST body)] end)) in *. assert (Ze : 0 <= ze) by apply zlen_nonneg.
  cbn [concat] in Hs. rewrite !zlen_app', !hdr_zlen in Hs. change (zlen []) with 0 in Hs. pose proof (zlen_nonneg (layout (tkhd_item now mvts t id))) as Q1. pose proof (zlen_nonneg (layout (mdhd_item now t))) as Q2. pose proof (zlen_nonneg (layout (hdlr_item t))) as Q3. pose proof (zlen_nonneg (media_seg t minf_zlen stbl_zlen)) as Q4.
  assert (Zm : zlen (layout (mdia_item now t mdat)) = 8 + zlen (layout (mdhd_item now t)) + zlen (layout (hdlr_item t)) + minf_zlen).
  { unfold mdia_item. rewrite node_zlen, !all_layout_cons. change (all_layout []) with (@nil Z). rewrite app_nil_r, !zlen_app'. unfold minf_item. rewrite node_zlen. fold minf_zlen. lia. }
  assert (Zs : stbl_zlen = 8 + zlen (layout (stsd_item (k_codec t))) + zt). { unfold stbl_zlen, zt. rewrite tables_concat. rewrite <- app_comm_cons, all_layout_cons, zlen_app'. lia. }
  assert (Zi : minf_zlen = 8 + zlen (layout (mhd_item t)) + zlen (layout dinf_item) + stbl_zlen). { unfold minf_zlen. rewrite !all_layout_cons. change (all_layout []) with (@nil Z). rewrite app_nil_r, !zlen_app'. unfold stbl_item. rewrite node_zlen. fold stbl_zlen. lia. }
  assert (Zg : zlen (media_seg t minf_zlen stbl_zlen) = minf_zlen - zt). { unfold media_seg. rewrite !zlen_app', !hdr_zlen. lia. }
  pose proof (zlen_nonneg (layout (stsd_item (k_codec t)))) as Q5. pose proof (zlen_nonneg (layout (mhd_item t))) as Q6. pose proof (zlen_nonneg (layout dinf_item)) as Q7.
  unfold rtrack0. eapply chain_app.
  { econstructor; [rewrite hdr_zlen; reflexivity|apply seg_open; [left; reflexivity|]|]; [split; [|exact Hz]; unfold trak_item; rewrite node_zlen; pose proof (zlen_nonneg (all_layout (tkhd_item now mvts t id :: edts_items mvts t ++ [mdia_item now t mdat]))); lia|].
    apply chain1; [unfold tkhd_item; apply leaf_pos|]. unfold tkhd_item. apply seg_tkhd. }
  fold (width_of (k_codec t)). fold (height_of (k_codec t)). eapply chain_app.
  { instantiate (1 := mkRt 0 0 0 (0, 0, 0) (u32 (id + 1)) (width_of (k_codec t) mod 2 ^ 16) (height_of (k_codec t) mod 2 ^ 16) [] p_init (TimeTab_model.mkT [] [] false [] [] None) (if l_offset (k_level t) =? 0 then 0 else u32 (time_scale mvts (l_offset (k_level t)))) mv).
    destruct (write_edts (time_scale mvts) (k_level t)) as [body|] eqn:W.
    - assert (O : (l_offset (k_level t) =? 0) = false) by (unfold write_edts in W; destruct (l_offset (k_level t) =? 0); [discriminate W|reflexivity]). rewrite O. econstructor; [rewrite hdr_zlen; reflexivity|apply seg_open; [right; right; reflexivity|]|].
      + cbn [concat] in ze. pose proof (zlen_nonneg body). assert (ze = 16 + zlen body) by (unfold ze; rewrite !zlen_app', hdr_zlen, leaf_zlen; change (zlen []) with 0; lia). lia.
      + apply chain1; [apply leaf_pos|]. apply seg_elst. exact W.
    - assert (O : (l_offset (k_level t) =? 0) = true) by (unfold write_edts in W; destruct (l_offset (k_level t) =? 0); [reflexivity|discriminate W]). rewrite O. constructor. }
  eapply chain_app.
  { econstructor; [rewrite hdr_zlen; reflexivity|apply seg_open; [right; left; reflexivity|lia]|]. unfold mdhd_item, hdlr_item in *. fold (handler_of (k_codec t)) in *. rewrite El in *.
    econstructor; [apply leaf_pos|apply (seg_mdhd _ _ _ _ _ _ _ _ _ _ _ _ now (k_ts t) _ a b c La Lb Lc)|]. econstructor; [apply leaf_pos|apply seg_hdlr; exact handler_word|]. apply chain1; [lia|]. apply seg_minf; [reflexivity|exact Hn|lia|lia]. }
  assert (St : zt = zlen (all_layout (table_box box_stts (the_stts t))) + zlen (all_layout (table_box box_ctts (the_ctts t))) + zlen (all_layout (table_box box_stsc (stsc_of t))) + zlen (all_layout (table_box box_stsz (the_stsz t))) + zlen (layout (stco_item t mdat)) + zlen (all_layout (table_box box_stss (the_stss t)))).
  { unfold zt, tables_segs. rewrite !concat_app, !segs_concat, !zlen_app'. cbn [concat]. rewrite app_nil_r. lia. }
  pose proof (zlen_nonneg (all_layout (table_box box_stts (the_stts t)))) as B1. pose proof (zlen_nonneg (all_layout (table_box box_ctts (the_ctts t)))) as B2. pose proof (zlen_nonneg (all_layout (table_box box_stsc (stsc_of t)))) as B3. pose proof (zlen_nonneg (all_layout (table_box box_stsz (the_stsz t)))) as B4. pose proof (zlen_nonneg (layout (stco_item t mdat))) as B5. pose proof (zlen_nonneg (all_layout (table_box box_stss (the_stss t)))) as B6.
  assert (Lt : zt < 2 ^ 32) by lia.
  assert (One : forall i, zlen (all_layout [i]) = zlen (layout i)) by (intros i; rewrite all_layout_cons; change (all_layout []) with (@nil Z); rewrite app_nil_r; reflexivity).
  clear Zm Zs Zi Zg Hs Q1 Q2 Q3 Q4 Q5 Q6 Q7. clearbody zt. unfold tables_segs.
  destruct (stts_box t) as (b1 & T1). rewrite (table_cases box_stts (the_stts t)) in * by (first [right; exists b1; exact T1|rewrite T1; discriminate]). rewrite One, leaf_zlen in *.
  destruct (stsc_box t Hc) as (Ec & b3 & T3). rewrite (table_cases box_stsc (stsc_of t)) in * by (first [right; exists b3; exact T3|rewrite T3; discriminate]). rewrite One, leaf_zlen in *.
  destruct (stsz_box (SampleTab_model.write_all (k_places t))) as (b4 & T4). fold (the_stsz t) in T4. rewrite (table_cases box_stsz (the_stsz t)) in * by (first [right; exists b4; exact T4|rewrite T4; discriminate]). rewrite One, leaf_zlen in *.
  rewrite stco_leaf in *. fold (the_stco t mdat) in *. rewrite leaf_zlen in *. cbn [map].
  eapply chain_app; [apply chain1; [apply leaf_pos|]; apply (seg_stts _ _ _ _ _ _ _ _ _ _ _ _ _ times table P1); [apply skip2_words; unfold the_stts; apply stts_words|lia]|]. cbn [t_offsets t_has_ctts t_order t_keys].
  eapply chain_app.
  { instantiate (1 := mkRt (handler_of (k_codec t)) (u32 (k_ts t)) (u32 (time_scale (k_ts t) (stream_duration (k_level t)))) (a, b, c) (u32 (id + 1)) (width_of (k_codec t) mod 2 ^ 16) (height_of (k_codec t) mod 2 ^ 16) [seen_entry (k_codec t)]
      p_init (TimeTab_model.mkT times offs has order table None) (if l_offset (k_level t) =? 0 then 0 else u32 (time_scale mvts (l_offset (k_level t)))) mv).
    fold has in P2. destruct (ctts_box t) as [Tc|(b2 & Tc)].
    - assert (Eh : has = false) by (unfold has; rewrite Tc; reflexivity). rewrite Eh in *. destruct P2 as [-> ->]. rewrite Tc. constructor.
    - assert (Eh : has = true) by (unfold has; rewrite Tc; reflexivity). rewrite Eh in *. rewrite (table_cases box_ctts (the_ctts t)) in * by (first [right; exists b2; exact Tc|rewrite Tc; discriminate]). rewrite One, leaf_zlen in *.
      apply chain1; [apply leaf_pos|]. apply (seg_ctts _ _ _ _ _ _ _ _ _ (TimeTab_model.mkT times [] false [] table None)); [exact P2|apply skip2_words; unfold the_ctts; apply ctts_words|lia]. }
  eapply chain_app; [apply chain1; [apply leaf_pos|]; apply (seg_stsc _ _ _ _ _ _ _ _ _ _ _ _ _ stsc P3); [apply skip2_words; exact (proj1 (stsc_words _ _ _ Ec))|lia]|]. cbn [p_init p_size p_count p_sizes p_chunks].
  eapply chain_app; [apply chain1; [apply leaf_pos|]; apply (seg_stsz _ _ _ _ _ _ _ _ _ _ _ _ _ z n sizes P4); [apply skip2_words; unfold the_stsz; apply stsz_words|lia]|]. cbn [p_stsc p_size p_count p_sizes p_chunks].
  eapply chain_app; [apply chain1; [apply leaf_pos|]; apply (seg_stco _ _ _ _ _ _ _ _ _ _ _ _ _ stco P5); [unfold the_stco; constructor; [unfold word; lia|]; constructor; [apply u32_word|]; apply Forall_map, Forall_forall; intros; apply u32_word|lia]|]. cbn [p_stsc p_size p_count p_sizes p_chunks].
  unfold track_read. rewrite El. destruct (stss_box t) as [Ts|(b6 & Ts)].
  - rewrite Ts in P6 |- *. subst keys. constructor.
  - assert (exists m, keys = Some m /\ parse_stss (skipn 2 (the_stss t)) = Some (m, [])) as (m & -> & P6') by (rewrite Ts in P6 |- *; exact P6). rewrite (table_cases box_stss (the_stss t)) in * by (first [right; exists b6; exact Ts|rewrite Ts; discriminate]). rewrite One, leaf_zlen in *.
    apply chain1; [apply leaf_pos|]. apply (seg_stss _ _ _ _ _ _ _ _ _ (TimeTab_model.mkT times offs has order table None)); [exact P6'|apply skip2_words; unfold the_stss; apply stss_words|lia].
Qed.
End Read.
