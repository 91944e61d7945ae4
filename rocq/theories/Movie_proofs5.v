(** Proofs about Movie_model: reading a whole movie. *)
From Coq Require Import ZifyNat.
From Verif Require Import Util RangeMap_model SampleTab_model SampleTab_proofs TimeTab_model Double_model Box_model Box_proofs Frag_model Frag_proofs Frag_proofs2 Level_model Level_proofs Movie_model Movie_proofs Movie_proofs2 Movie_proofs3 Movie_proofs4.
Local Open Scope Z_scope.
Local Ltac Zify.zify_post_hook ::= Z.div_mod_to_equations.
Opaque be.

Lemma chain_pre : forall segs m m', Chain movie_box segs m m' -> forall f p k, at_ f p (concat segs) -> p + zlen (concat segs) < zlen f ->
  next (do_box f p) (fun b => movie_boxes (length segs + k) f b m) = next (do_box f (p + zlen (concat segs))) (fun b => movie_boxes k f b m').
Proof.
  intros segs m m' H. induction H as [s|seg segs s s1 s2 P Sg C IH]; intros f p k A L; [cbn [concat length Nat.add]; change (zlen []) with 0; rewrite Z.add_0_r; reflexivity|].
  cbn [concat length Nat.add] in *. destruct (Sg f p (at_l _ _ _ _ A)) as (b & E1 & E2). rewrite E1. unfold next at 1. cbn [movie_boxes]. rewrite E2. unfold next at 1. pose proof (at_r _ _ _ _ A) as A2. rewrite zlen_app' in *. pose proof (zlen_nonneg (concat segs)).
  rewrite (proj2 (Z.ltb_lt _ _)) by lia. rewrite Z.add_assoc. apply IH; [exact A2|lia].
Qed.
Definition track_ok (now mvts mv id mdat : Z) (t : wtrack) (r : rtrack) : Prop := exists segs, Chain track_box segs (rtrack0 mv) r /\ concat segs = layout (trak_item now mvts t id mdat) /\ segs <> [].
Fixpoint all_ok (now mvts mv id mdat : Z) (l : list wtrack) (rs : list rtrack) : Prop :=
  match l, rs with [], [] => True | t :: l, r :: rs => track_ok now mvts mv id mdat t r /\ all_ok now mvts mv (id + 1) mdat l rs | _, _ => False end.
Lemma trak_seg : forall now mvts mv id mdat t r a e d l, track_ok now mvts mv id mdat t r -> zlen (layout (trak_item now mvts t id mdat)) < 2 ^ 32 -> Seg movie_box (layout (trak_item now mvts t id mdat)) (mkMv a e mv d l) (mkMv a e mv d (l ++ [r])).
Proof.
  intros now mvts mv id mdat t r a e d l (segs & C & E & N) L f p A. set (bs := layout (trak_item now mvts t id mdat)) in *.
  assert (Eb : bs = hdr TRAK (zlen bs) ++ all_layout (tkhd_item now mvts t id :: edts_items mvts t ++ [mdia_item now t mdat])) by (unfold bs at 1, trak_item; rewrite node_hdr, <- node_zlen with (t := TRAK); reflexivity).
  assert (L8 : 8 <= zlen bs) by (rewrite Eb, zlen_app', hdr_zlen; pose proof (zlen_nonneg (all_layout (tkhd_item now mvts t id :: edts_items mvts t ++ [mdia_item now t mdat]))); lia).
  pose proof A as A'. rewrite Eb in A'. pose proof (hdr_at f p TRAK (zlen bs) ltac:(splain) ltac:(lia) (at_l _ _ _ _ A')) as D. eexists. split; [exact D|].
  transitivity (next (track_boxes (S (length f)) f (p + zlen bs) (mkR (p + 8) p (zlen bs) TRAK) (rtrack0 mv)) (fun r => Some (mkMv a e mv d (l ++ [fst r]), snd r))); [reflexivity|].
  rewrite <- E in *. pose proof (chain_track segs _ _ C N f p (S (length f)) A) as T. rewrite D in T. unfold next in T at 1. rewrite T; [reflexivity|]. pose proof (chain_len _ _ _ _ C). pose proof (at_le _ _ _ A). unfold zlen in *. lia.
Qed.
Lemma traks_seg : forall now mvts mv mdat tr id rs a e d l, all_ok now mvts mv id mdat tr rs -> zlen (all_layout (traks now mvts tr id mdat)) < 2 ^ 32 -> Chain movie_box (map layout (traks now mvts tr id mdat)) (mkMv a e mv d l) (mkMv a e mv d (l ++ rs)).
Proof.
  intros now mvts mv mdat. induction tr as [|t tr IH]; intros id [|r rs] a e d l H L; try contradiction; [rewrite app_nil_r; constructor|]. cbn [traks map all_ok] in *. destruct H as [H1 H2]. rewrite all_layout_cons, zlen_app' in L. pose proof (zlen_nonneg (layout (trak_item now mvts t id mdat))). pose proof (zlen_nonneg (all_layout (traks now mvts tr (id + 1) mdat))).
  econstructor; [unfold trak_item; rewrite node_zlen; pose proof (zlen_nonneg (all_layout (tkhd_item now mvts t id :: edts_items mvts t ++ [mdia_item now t mdat]))); lia|apply trak_seg; [exact H1|lia]|]. replace (l ++ r :: rs) with ((l ++ [r]) ++ rs) by (rewrite <- app_assoc; reflexivity). apply IH; [exact H2|lia].
Qed.
Lemma ftyp_zlen : zlen (layout (Leaf FTYP ftyp_body)) = 32. Proof. vm_compute. reflexivity. Qed.
Lemma seg_ftyp : forall m, Seg movie_box (layout (Leaf FTYP ftyp_body)) m m.
Proof.
  intros [a e ts d l] f p A. rewrite ftyp_zlen. rewrite leaf_hdr in A. assert (Z : zlen ftyp_body = 24) by (vm_compute; reflexivity). rewrite Z in A. eexists. split; [refine (hdr_at _ _ _ _ _ _ (at_l _ _ _ _ A)); [splain|lia]|].
  transitivity (next (rskip 24 f (p + 8)) (fun r => Some (mkMv a e ts d l, snd r))); [reflexivity|]. apply at_r in A. rewrite hdr_zlen in A. rewrite (at_read _ _ _ _ _ (reads_skip 24 ftyp_body ltac:(vm_compute; reflexivity)) A). unfold next. cbn [snd]. rewrite Z. do 2 f_equal. lia.
Qed.
Lemma seg_moov : forall n m, 8 <= n < 2 ^ 32 -> Seg movie_box (hdr MOOV n) m m.
Proof. intros n [a e ts d l] H f p A. eexists. split; [refine (hdr_at _ _ _ _ _ _ A); [splain|lia]|]. rewrite hdr_zlen. reflexivity. Qed.
Lemma seg_mvhd : forall now s dur nx a e ts d l, Seg movie_box (layout (Leaf MVHD (mvhd_body now s dur nx))) (mkMv a e ts d l) (mkMv a e (u32 s) (u32 dur) l).
Proof.
  intros now s dur nx a e ts d l f p A. rewrite leaf_hdr in A. rewrite leaf_zlen. assert (Z : zlen (mvhd_body now s dur nx) = 100) by (unfold mvhd_body; zl; reflexivity). eexists. split; [refine (hdr_at _ _ _ _ _ _ (at_l _ _ _ _ A)); [splain|lia]|].
  transitivity (next (get_mvhd f (p + 8)) (fun r => let '((ts, d), p) := r in Some (mkMv a e ts d l, p))); [reflexivity|]. apply at_r in A. rewrite hdr_zlen in A. rewrite (at_read _ _ _ _ _ (read_mvhd now s dur nx) A). unfold next. do 2 f_equal. lia.
Qed.
Lemma movie_back : forall now l mdat body rs, let f := all_layout (movie_items now l mdat) ++ be32 (zlen body + 8) ++ be32 MDAT ++ body in
  zlen f < 2 ^ 32 -> all_ok now mvts mvts 0 mdat l rs ->
  read_movie f = Some (mkMv (zlen f - 8 - zlen body) (zlen f) mvts (u32 (time_scale mvts (min_duration l))) rs).
Proof.
  intros now l mdat body rs f L H. unfold movie_items in f. set (d := u32 (time_scale mvts (min_duration l))).
  set (kids := mvhd_item now l :: traks now mvts l 0 mdat). set (n := 8 + zlen (all_layout kids)).
  set (segs := layout (Leaf FTYP ftyp_body) :: hdr MOOV n :: layout (mvhd_item now l) :: map layout (traks now mvts l 0 mdat)).
  assert (Ef : f = concat segs ++ hdr MDAT (8 + zlen body) ++ body).
  { unfold f, segs. rewrite !all_layout_cons. change (all_layout []) with (@nil Z). rewrite app_nil_r. unfold moov_item. rewrite node_hdr. fold kids. fold n. cbn [concat]. rewrite segs_concat. unfold kids. rewrite all_layout_cons. unfold hdr. rewrite <- !app_assoc. rewrite (Z.add_comm (zlen body) 8). reflexivity. }
  clearbody f. assert (Lf : zlen f = zlen (concat segs) + 8 + zlen body) by (rewrite Ef, !zlen_app', hdr_zlen; lia). pose proof (zlen_nonneg body) as Pb.
  assert (Ls : zlen (concat segs) = 32 + 8 + zlen (all_layout kids)). { unfold segs. cbn [concat]. rewrite segs_concat. unfold kids. rewrite all_layout_cons. rewrite !zlen_app', hdr_zlen, ftyp_zlen. lia. } pose proof (zlen_nonneg (all_layout kids)) as Pk.
  assert (Lt : zlen (all_layout kids) = zlen (layout (mvhd_item now l)) + zlen (all_layout (traks now mvts l 0 mdat))) by (unfold kids; rewrite all_layout_cons, zlen_app'; reflexivity). pose proof (zlen_nonneg (layout (mvhd_item now l))).
  assert (C : Chain movie_box segs movie0 (mkMv 0 0 mvts d rs)).
  { unfold segs, movie0. econstructor; [rewrite ftyp_zlen; reflexivity|apply seg_ftyp|]. econstructor; [rewrite hdr_zlen; reflexivity|apply seg_moov; unfold n; lia|]. econstructor; [unfold mvhd_item; apply leaf_pos|unfold mvhd_item; apply seg_mvhd|]. fold d. change (u32 mvts) with mvts. apply (traks_seg now mvts mvts mdat l 0 rs 0 0 d []); [exact H|lia]. }
  assert (A : at_ f 0 (concat segs)) by (exists [], (hdr MDAT (8 + zlen body) ++ body); split; [exact Ef|reflexivity]).
  assert (A2 : at_ f (zlen (concat segs)) (hdr MDAT (8 + zlen body))) by (exists (concat segs), body; split; [exact Ef|reflexivity]).
  pose proof (chain_len _ _ _ _ C) as Lc. assert (Fu : exists k, S (length f) = (length segs + S k)%nat) by (exists (length f - length segs)%nat; unfold zlen in *; lia). destruct Fu as (k & Fu).
  pose proof (chain_pre segs _ _ C f 0 (S k) A ltac:(lia)) as G. rewrite Z.add_0_l in G. rewrite (hdr_at f (zlen (concat segs)) MDAT (8 + zlen body)) in G by (first [lia|splain|exact A2]). unfold next at 2 in G.
  assert (R : movie_boxes (S k) f (mkR (zlen (concat segs) + 8) (zlen (concat segs)) (8 + zlen body) MDAT) (mkMv 0 0 mvts d rs) = Some (mkMv (zlen f - 8 - zlen body) (zlen f) mvts d rs)).
  { transitivity (if zlen (concat segs) + (8 + zlen body) <? zlen f then next (do_box f (zlen (concat segs) + (8 + zlen body))) (fun b => movie_boxes k f b (mkMv (zlen (concat segs)) (zlen (concat segs) + (8 + zlen body)) mvts d rs)) else Some (mkMv (zlen (concat segs)) (zlen (concat segs) + (8 + zlen body)) mvts d rs)); [reflexivity|].
    destruct (Z.ltb_spec (zlen (concat segs) + (8 + zlen body)) (zlen f)); [lia|]. do 2 f_equal; lia. }
  rewrite R in G. unfold read_movie. rewrite Fu. rewrite <- G. assert (Z : zlen ftyp_body = 24) by (vm_compute; reflexivity).
  assert (D : do_box f 0 = Some (mkR (0 + 8) 0 32 FTYP)). { apply hdr_at; [splain|lia|]. unfold segs in A. cbn [concat] in A. apply at_l in A. rewrite leaf_hdr, Z in A. exact (at_l _ _ _ _ A). }
  rewrite D. reflexivity.
Qed.
