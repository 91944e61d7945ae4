(** Proofs about Init_model: the segment read back. *)
From Coq Require Import ZifyNat String.
From Coq Require Import List. Import ListNotations.
From Verif Require Import Util Str_model RangeMap_model SampleTab_model SampleTab_proofs TimeTab_model Double_model Box_model Box_proofs Frag_model Frag_proofs Frag_proofs2 Level_model Level_proofs Movie_model Movie_proofs Movie_proofs2 Movie_proofs3 Movie_proofs4 Movie_proofs5 Movie_proofs7 Init_model Init_proofs Init_proofs2 Init_proofs3.
From Verif Require Bits_spec Bitstream_model Sps_model Esds_model Esds_proofs2.
Local Open Scope Z_scope.
Local Ltac Zify.zify_post_hook ::= Z.div_mod_to_equations.
Opaque be.

Section Init.
Variables (now : Z) (c : codec) (ts id duration : Z) (key : option (list Z)) (l : list (list Z)) (seen : list entry).
Hypothesis Hs : Forall2 (Ent (visual c)) (map layout (entry_items c key)) seen.
Let P := pssh_boxes l.
Let psegs := map (fun b => layout (Leaf (four "pssh") b)) l.
Let trk := init_trak now c ts (id - 1) key.
Let mdia := init_mdia now c ts key.
Let minf := init_minf c key.
Let stbl := init_stbl_item c key.
Let tables : list (list Z) := map layout empty_tables.
Definition init_segs : list (list Z) :=
  [hdr TRAK (zlen (layout trk)); layout (Leaf TKHD (tkhd_body now (id - 1 + 1) 0 (vol c) (wid c) (hei c))); hdr MDIA (zlen (layout mdia)); layout (Leaf MDHD (mdhd_body now ts 0 und)); layout (Leaf HDLR (hdlr_body (if visual c then VIDE else SOUN)));
   minf_seg c key (zlen (layout minf)) (zlen (layout stbl))] ++ tables.
Lemma init_segs_concat : concat init_segs = layout trk.
Proof.
  unfold init_segs. rewrite concat_app. unfold tables. rewrite segs_concat. cbn [concat]. rewrite app_nil_r. unfold trk at 2, init_trak. rewrite node_hdr. rewrite <- node_zlen with (t := TRAK). fold (init_trak now c ts (id - 1) key). fold trk.
  rewrite !all_layout_cons. change (all_layout []) with (@nil Z). rewrite app_nil_r. rewrite <- ?app_assoc. do 2 f_equal.
  fold mdia. unfold mdia at 2, init_mdia. rewrite node_hdr, <- node_zlen with (t := MDIA). fold (init_mdia now c ts key). fold mdia. rewrite !all_layout_cons. change (all_layout []) with (@nil Z). rewrite app_nil_r. rewrite <- ?app_assoc. do 3 f_equal.
  fold minf. unfold minf at 2, init_minf. rewrite node_hdr, <- node_zlen with (t := MINF). fold (init_minf c key). fold minf. unfold minf_seg. rewrite !all_layout_cons. change (all_layout []) with (@nil Z). rewrite app_nil_r, <- ?app_assoc. do 3 f_equal.
  fold stbl. unfold stbl at 2, init_stbl_item. rewrite node_hdr, <- node_zlen with (t := STBL). fold (init_stbl_item c key). fold stbl. rewrite all_layout_cons, <- ?app_assoc. reflexivity.
Qed.
Definition init_track : rtrack :=
  mkRt (if visual c then VIDE else SOUN) (u32 ts) 0 und (u32 id) (wid c mod 2 ^ 16) (hei c mod 2 ^ 16) seen (mkP (p_stsc p_init) 0 0 [] []) (TimeTab_model.mkT [] [] false [] [] None) 0 (u32 ts).
Lemma init_track_empty : p_chunks p_init = [] /\ p_stsc p_init = []. Proof. split; reflexivity. Qed.
Lemma init_chain : zlen (layout trk) < 2 ^ 32 -> Chain track_box init_segs (rtrack0 (u32 ts)) init_track.
Proof.
  intros L. pose proof (zlen_nonneg (concat tables)) as Q0.
  assert (Z1 : zlen (layout trk) = 8 + zlen (layout (Leaf TKHD (tkhd_body now (id - 1 + 1) 0 (vol c) (wid c) (hei c)))) + zlen (layout mdia)) by (unfold trk, init_trak; rewrite node_zlen, !all_layout_cons, !zlen_app'; change (zlen (all_layout [])) with 0; fold mdia; lia).
  assert (Z2 : zlen (layout mdia) = 8 + zlen (layout (Leaf MDHD (mdhd_body now ts 0 und))) + zlen (layout (Leaf HDLR (hdlr_body (if visual c then VIDE else SOUN)))) + zlen (layout minf)) by (unfold mdia, init_mdia; rewrite node_zlen, !all_layout_cons, !zlen_app'; change (zlen (all_layout [])) with 0; fold minf; lia).
  assert (Z3 : zlen (layout minf) = 8 + zlen (layout (mhd_of c)) + zlen (layout dinf_item) + zlen (layout stbl)) by (unfold minf, init_minf; rewrite node_zlen, !all_layout_cons, !zlen_app'; change (zlen (all_layout [])) with 0; fold stbl; lia).
  assert (Z4 : zlen (layout stbl) = 8 + zlen (layout (stsd_items c key)) + zlen (concat tables)) by (unfold stbl, init_stbl_item, tables; rewrite node_zlen, all_layout_cons, zlen_app', segs_concat; lia).
  pose proof (zlen_nonneg (layout (Leaf TKHD (tkhd_body now (id - 1 + 1) 0 (vol c) (wid c) (hei c))))). pose proof (zlen_nonneg (layout (Leaf MDHD (mdhd_body now ts 0 und)))). pose proof (zlen_nonneg (layout (Leaf HDLR (hdlr_body (if visual c then VIDE else SOUN))))). pose proof (zlen_nonneg (layout (mhd_of c))). pose proof (zlen_nonneg (layout dinf_item)). pose proof (zlen_nonneg (layout (stsd_items c key))).
  assert (Zm : zlen (minf_seg c key (zlen (layout minf)) (zlen (layout stbl))) = zlen (layout minf) - zlen (concat tables)) by (unfold minf_seg; rewrite !zlen_app', !hdr_zlen; lia).
  unfold init_segs, rtrack0. eapply chain_app.
  - econstructor; [rewrite hdr_zlen; reflexivity|apply seg_open; [left; reflexivity|lia]|].
    econstructor; [apply leaf_pos|apply seg_tkhd|]. econstructor; [rewrite hdr_zlen; reflexivity|apply seg_open; [right; left; reflexivity|lia]|].
    econstructor; [apply leaf_pos|apply (seg_mdhd _ _ _ _ _ _ _ _ _ _ _ _ now ts 0 117 110 100); unfold lower; lia|].
    econstructor; [apply leaf_pos|apply seg_hdlr; destruct (visual c); split; reflexivity || discriminate|].
    apply chain1; [|apply init_minf_seg; [reflexivity|exact Hs|lia|lia]]. unfold minf_seg. rewrite zlen_app', hdr_zlen. pose proof (zlen_nonneg (layout (mhd_of c) ++ layout dinf_item ++ hdr STBL (zlen (layout stbl)) ++ layout (stsd_items c key))). lia.
  - unfold tables, empty_tables, map. replace (id - 1 + 1) with id by lia.
    assert (W2 : Forall word [0; 0]) by (repeat (apply Forall_cons; [unfold word; lia|]); apply Forall_nil). assert (W3 : Forall word [0; 0; 0]) by (repeat (apply Forall_cons; [unfold word; lia|]); apply Forall_nil).
    econstructor; [apply leaf_pos|apply (seg_stts _ _ _ _ _ _ _ _ _ _ _ _ [0; 0] [] []); [reflexivity|exact W2|reflexivity]|].
    econstructor; [apply leaf_pos|apply (seg_stsc _ _ _ _ _ _ _ _ _ _ _ _ [0; 0] []); [reflexivity|exact W2|reflexivity]|].
    econstructor; [apply leaf_pos|apply (seg_stsz _ _ _ _ _ _ _ _ _ _ _ _ [0; 0; 0] 0 0 []); [reflexivity|exact W3|reflexivity]|].
    econstructor; [apply leaf_pos|apply (seg_stco _ _ _ _ _ _ _ _ _ _ _ _ [0; 0] []); [reflexivity|exact W2|reflexivity]|].
    constructor.
Qed.
Lemma seg_skip : forall t n b m, plain t -> ~ In t [FTYP; STYP; MVHD; MDAT; FREE; MOOV; TRAK] -> n = 8 + zlen b -> n < 2 ^ 32 -> Seg movie_box (hdr t n ++ b) m m.
Proof.
  intros t n b [a e s d tr] Pt N -> L f p A. pose proof (zlen_nonneg b). eexists. split; [refine (hdr_at _ _ _ _ Pt _ (at_l _ _ _ _ A)); lia|]. unfold movie_box. cbn [r_type].
  assert (X : forall y, In y [FTYP; STYP; MVHD; MDAT; FREE; MOOV; TRAK] -> (t =? y) = false) by (intros y Y; apply Z.eqb_neq; intros ->; contradiction).
  rewrite !X by (cbn [In]; tauto). cbn [orb]. rewrite skip_current_ok by (cbn [r_size]; lia). cbn [r_pos r_size]. rewrite zlen_app', hdr_zlen. do 2 f_equal. lia.
Qed.
Lemma seg_init_ftyp : forall m, Seg movie_box (layout (Leaf FTYP init_ftyp)) m m.
Proof.
  intros [a e s d tr] f p A. rewrite leaf_zlen. rewrite leaf_hdr in A. assert (Z : zlen init_ftyp = 28) by (vm_compute; reflexivity). rewrite Z in A |- *. eexists. split; [refine (hdr_at _ _ _ _ _ _ (at_l _ _ _ _ A)); [splain|lia]|].
  transitivity (next (rskip 28 f (p + 8)) (fun r => Some (mkMv a e s d tr, snd r))); [reflexivity|]. apply at_r in A. rewrite hdr_zlen in A. rewrite (at_read _ _ _ _ _ (reads_skip 28 init_ftyp ltac:(vm_compute; reflexivity)) A). unfold next. cbn [snd]. rewrite Z. do 2 f_equal. lia.
Qed.
Lemma read_mvhd1 : forall nx, Reads get_mvhd (mvhd1_body now ts 0 nx) (u32 ts, 0).
Proof.
  intros. eapply (reads_eq _ (be 1 1 ++ be 3 0 ++ (words [u32 (now / 2 ^ 32); u32 now; u32 (now / 2 ^ 32); u32 now] ++ be32 (u32 ts) ++ be 8 0 ++ []) ++ (be32 65536 ++ be 2 256 ++ be 2 0 ++ words [0; 0] ++ matrix ++ words [0; 0; 0; 0; 0; 0; u32 nx]) ++ [])).
  2: { unfold mvhd1_body. change (be 8 0) with (words [u32 (0 / 2 ^ 32); u32 0]). flat. reflexivity. }
  unfold get_mvhd. rb 1; [num0|]. rb tt; [skp|]. change (1 =? 1) with true. cbv iota. rb (u32 ts, 0); [rb tt; [apply reads_skip; flat; rewrite !app_length, ?be_length, ?be32_length; reflexivity|]; rb (u32 ts); [num32|]; rb 0; [num0|]; apply reads_ret|]. rb tt; [apply reads_skip; flat; rewrite !app_length, ?be_length, ?be32_length; reflexivity|]. apply reads_ret.
Qed.
Lemma seg_mvhd1 : forall nx a e s d tr, Seg movie_box (layout (Leaf MVHD (mvhd1_body now ts 0 nx))) (mkMv a e s d tr) (mkMv a e (u32 ts) 0 tr).
Proof.
  intros nx a e s d tr f p A. rewrite leaf_hdr in A. rewrite leaf_zlen. assert (Z : zlen (mvhd1_body now ts 0 nx) = 112) by (unfold mvhd1_body; zl; reflexivity). eexists. split; [refine (hdr_at _ _ _ _ _ _ (at_l _ _ _ _ A)); [splain|lia]|].
  transitivity (next (get_mvhd f (p + 8)) (fun r => let '((s, d), p) := r in Some (mkMv a e s d tr, p))); [reflexivity|]. apply at_r in A. rewrite hdr_zlen in A. rewrite (at_read _ _ _ _ _ (read_mvhd1 nx) A). unfold next. do 2 f_equal. lia.
Qed.
Lemma init_trak_seg : zlen (layout trk) < 2 ^ 32 -> forall a e d tr, Seg movie_box (layout trk) (mkMv a e (u32 ts) d tr) (mkMv a e (u32 ts) d (tr ++ [init_track])).
Proof.
  intros L a e d tr f p A. pose proof (init_chain L) as C. rewrite <- init_segs_concat in A. pose proof (hdr_at f p TRAK (zlen (layout trk)) ltac:(splain)) as D.
  assert (L8 : 8 <= zlen (layout trk)) by (unfold trk, init_trak; rewrite node_zlen; match goal with |- _ <= 8 + zlen ?x => pose proof (zlen_nonneg x); lia end).
  assert (D' : do_box f p = Some (mkR (p + 8) p (zlen (layout trk)) TRAK)) by (apply D; [lia|]; unfold init_segs in A; cbn [app List.concat] in A; exact (at_l _ _ _ _ A)).
  eexists. split; [exact D'|].
  transitivity (next (track_boxes (S (List.length f)) f (p + zlen (layout trk)) (mkR (p + 8) p (zlen (layout trk)) TRAK) (rtrack0 (u32 ts))) (fun r => Some (mkMv a e (u32 ts) d (tr ++ [fst r]), snd r))); [reflexivity|].
  pose proof (chain_track init_segs _ _ C ltac:(discriminate) f p (S (List.length f)) A) as T. rewrite D' in T. unfold next in T at 1. rewrite init_segs_concat in *. rewrite T; [reflexivity|]. pose proof (chain_len _ _ _ _ C) as Lc. rewrite init_segs_concat in Lc. pose proof (at_le _ _ _ A). unfold zlen in *. lia.
Qed.
Lemma mvex_seg : forall m, Seg movie_box (layout (mvex_item id duration)) m m.
Proof.
  intros m. unfold mvex_item. rewrite node_hdr. apply seg_skip; [splain|vm_compute; intuition discriminate|reflexivity|]. rewrite !all_layout_cons. change (all_layout []) with (@nil Z). rewrite !zlen_app', !leaf_zlen. zl. reflexivity.
Qed.
Lemma pssh_concat : List.concat psegs = P.
Proof. unfold psegs, P, pssh_boxes. clear. induction l as [|b bs IH]; [reflexivity|]. cbn [map List.concat]. rewrite IH. reflexivity. Qed.
Lemma psegs_chain : forall m, zlen P < 2 ^ 32 -> Chain movie_box psegs m m.
Proof.
  intros m. unfold psegs, P, pssh_boxes. clear. induction l as [|b bs IH]; intros L; [constructor|]. cbn [map List.concat] in *. rewrite zlen_app' in L. pose proof (zlen_nonneg (List.concat (map (fun b0 : list Z => be 4 (8 + zlen b0) ++ str "pssh"%string ++ b0) bs))). rewrite !zlen_app', be_zlen in L. pose proof (zlen_nonneg b).
  change (zlen (str "pssh"%string)) with 4 in L. econstructor; [apply leaf_pos| |apply IH; lia]. rewrite leaf_hdr. apply seg_skip; [splain|vm_compute; intuition discriminate|reflexivity|lia].
Qed.
Lemma init_back : let f := all_layout (init_items now c ts id duration key P) in zlen f < 2 ^ 32 -> read_movie f = Some (mkMv 0 0 (u32 ts) 0 [init_track]).
Proof.
  intros f L. unfold init_items in f. set (kids := [Leaf MVHD (mvhd1_body now ts 0 (id + 1)); init_trak now c ts (id - 1) key; mvex_item id duration; Raw P]) in *. fold trk in kids.
  set (segs := layout (Leaf FTYP init_ftyp) :: hdr MOOV (8 + zlen (all_layout kids)) :: layout (Leaf MVHD (mvhd1_body now ts 0 (id + 1))) :: layout trk :: layout (mvex_item id duration) :: psegs).
  assert (Ef : f = List.concat segs). { unfold f, segs. rewrite !all_layout_cons. change (all_layout []) with (@nil Z). rewrite app_nil_r, node_hdr. cbn [List.concat]. rewrite pssh_concat. unfold kids at 2. rewrite !all_layout_cons. change (all_layout []) with (@nil Z). rewrite app_nil_r, <- ?app_assoc. reflexivity. }
  assert (Lk : zlen (all_layout kids) = zlen (layout (Leaf MVHD (mvhd1_body now ts 0 (id + 1)))) + zlen (layout trk) + zlen (layout (mvex_item id duration)) + zlen P) by (unfold kids; rewrite !all_layout_cons, !zlen_app'; change (zlen (all_layout [])) with 0; change (layout (Raw P)) with P; lia).
  assert (Lf : zlen f = zlen (layout (Leaf FTYP init_ftyp)) + 8 + zlen (all_layout kids)) by (unfold f; rewrite !all_layout_cons, !zlen_app'; change (zlen (all_layout [])) with 0; rewrite node_zlen; lia).
  pose proof (zlen_nonneg (layout (Leaf FTYP init_ftyp))). pose proof (zlen_nonneg (layout (Leaf MVHD (mvhd1_body now ts 0 (id + 1))))). pose proof (zlen_nonneg (layout trk)). pose proof (zlen_nonneg (layout (mvex_item id duration))). pose proof (zlen_nonneg P).
  assert (C : Chain movie_box segs movie0 (mkMv 0 0 (u32 ts) 0 [init_track])).
  { unfold segs, movie0. econstructor; [apply leaf_pos|apply seg_init_ftyp|]. econstructor; [rewrite hdr_zlen; reflexivity|apply seg_moov; lia|]. econstructor; [apply leaf_pos|apply seg_mvhd1|].
    econstructor; [unfold trk, init_trak; rewrite node_zlen; match goal with |- 0 < 8 + zlen ?x => pose proof (zlen_nonneg x); lia end|apply (init_trak_seg ltac:(lia) 0 0 0 [])|].
    econstructor; [unfold mvex_item; rewrite node_zlen; match goal with |- 0 < 8 + zlen ?x => pose proof (zlen_nonneg x); lia end|apply mvex_seg|]. apply psegs_chain. lia. }
  clearbody f. assert (A : at_ f 0 (List.concat segs)) by (exists [], []; split; [rewrite app_nil_r; exact Ef|reflexivity]).
  pose proof (chain_len _ _ _ _ C) as Lc. rewrite <- Ef in Lc.
  pose proof (chain_movie segs _ _ C ltac:(discriminate) f 0 (S (List.length f)) A) as G. rewrite <- Ef in G. specialize (G ltac:(reflexivity) ltac:(unfold zlen in *; lia)).
  assert (D : do_box f 0 = Some (mkR (0 + 8) 0 36 FTYP)). { apply hdr_at; [splain|lia|]. unfold segs in A. cbn [List.concat] in A. apply at_l in A. rewrite leaf_hdr in A. assert (Z : zlen init_ftyp = 28) by (vm_compute; reflexivity). rewrite Z in A. exact (at_l _ _ _ _ A). }
  unfold read_movie. rewrite D in *. exact G.
Qed.
End Init.
