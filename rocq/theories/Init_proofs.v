(** Proofs about Init_model: the bytes written. *)
From Coq Require Import ZifyNat String.
From Verif Require Import Util Str_model SampleTab_model SampleTab_proofs TimeTab_model Double_model Double_proofs Box_model Box_proofs Frag_model Frag_proofs Frag_proofs2 Movie_model Movie_proofs Movie_proofs2 Init_model.
Local Open Scope Z_scope.
Local Ltac Zify.zify_post_hook ::= Z.div_mod_to_equations.
Opaque be.

Lemma boxed : forall t F b ps, close_box (put b (open_box t (fin F ps))) = Some (fin (F ++ layoutu (Leaf t b)) ps).
Proof. intros. rewrite open_u, put_fin, close_u. reflexivity. Qed.
Lemma close_n : forall t F G ps ks, G = (F ++ be32 4294967295 ++ be32 t) ++ all_u ks -> close_box (fin G ((t, zlen F) :: ps)) = Some (fin (F ++ layoutu (Node t ks)) ps).
Proof. intros t F G ps ks ->. apply close_k. Qed.
Ltac flatu := rewrite ?all_u_cons, ?all_u_nil, ?app_nil_r, <- ?app_assoc; reflexivity.

Definition sinf_item (format : Z) (kid : list Z) : item :=
  Node SINF [Leaf FRMA (be32 format); Leaf SCHM (full 0 0 ++ be32 CENC ++ be32 65536); Node SCHI [Leaf TENC (tenc_body kid)]].
Lemma sinf_u : forall format kid F ps, write_sinf format kid (fin F ps) = Some (fin (F ++ layoutu (sinf_item format kid)) ps).
Proof.
  intros. unfold write_sinf. rewrite open_u, boxed. unfold next at 1. rewrite boxed. unfold next at 1. rewrite open_u, boxed. unfold next at 1.
  rewrite (close_n SCHI _ _ _ [Leaf TENC (tenc_body kid)]) by flatu. unfold next. unfold sinf_item. apply close_n. flatu.
Qed.
Definition fields (c : codec) : list Z := match c with Video w h n _ => visual_entry w h n | Audio r ch _ => audio_entry r ch end.
Definition protected_item (c : codec) (kid : list Z) : item :=
  match c with
  | Video w h n b => Node ENCV [Raw (visual_entry w h n); sinf_item AVC1 kid; Leaf AVCC b]
  | Audio r ch b => Node ENCA [Raw (audio_entry r ch); Raw b; sinf_item MP4A kid]
  end.
Lemma protected_u : forall c kid F ps, write_protected c kid (fin F ps) = Some (fin (F ++ layoutu (protected_item c kid)) ps).
Proof.
  intros [w h n b|r ch b] kid F ps; unfold write_protected, protected_item.
  - rewrite open_u, put_raw, sinf_u. unfold next at 1. rewrite boxed. unfold next. apply close_n. flatu.
  - rewrite open_u, !put_raw, sinf_u. unfold next. apply close_n. flatu.
Qed.
Definition entry_items (c : codec) (key : option (list Z)) : list item := match key with None => [entry_item c] | Some kid => [protected_item c kid; entry_item c] end.
Definition stsd_items (c : codec) (key : option (list Z)) : item := Node STSD (Raw (full 0 0 ++ be32 (Z.of_nat (List.length (entry_items c key)))) :: entry_items c key).
Lemma init_stsd_u : forall c key F ps, init_stsd c key (fin F ps) = Some (fin (F ++ layoutu (stsd_items c key)) ps).
Proof.
  intros c [kid|] F ps; unfold init_stsd, stsd_items, entry_items; cbn [List.length Z.of_nat Pos.of_succ_nat Pos.succ].
  - rewrite open_u, put_raw, protected_u. unfold next at 1. rewrite entry_u. unfold next. apply close_n. flatu.
  - rewrite open_u, put_raw, entry_u. unfold next. apply close_n. flatu.
Qed.
Definition empty_tables : list item := [Leaf box_stts (words [0; 0]); Leaf box_stsc (words [0; 0]); Leaf box_stsz (words [0; 0; 0]); Leaf box_stco (words [0; 0])].
Definition init_stbl_item (c : codec) (key : option (list Z)) : item := Node STBL (stsd_items c key :: empty_tables).
Lemma init_stbl_u : forall c ts key F ps, init_stbl c ts key (fin F ps) = Some (fin (F ++ layoutu (init_stbl_item c key)) ps).
Proof.
  intros. unfold init_stbl. cbv zeta. rewrite open_u, init_stsd_u. unfold next at 1.
  change (write_stts (time_scale ts) (get_hnano ts) true []) with (fullbox box_stts [0]). change (write_ctts (time_scale ts) false 0 []) with (@nil Z). change (write_stsc true []) with (Some (fullbox box_stsc [0])). change (write_stss []) with (@nil Z). change (write_stsz (SampleTab_model.write_all [])) with (fullbox box_stsz [0; 0]).
  unfold next at 1. change (words []) with (@nil Z). rewrite (table_u box_stts (fullbox box_stts [0])) by (right; eexists; reflexivity). rewrite (table_u box_stsc (fullbox box_stsc [0])) by (right; eexists; reflexivity). rewrite (table_u box_stsz (fullbox box_stsz [0; 0])) by (right; eexists; reflexivity).
  rewrite !put_fin, boxed. unfold next. rewrite put_fin. apply close_n. unfold empty_tables. cbn [table_box fullbox skipn].
  change (full 0 0 ++ be32 0) with (words [0; 0]). flatu.
Qed.
Definition vol (c : codec) : Z := if visual c then 0 else 256.
Definition wid (c : codec) : Z := match c with Video w _ _ _ => w | Audio _ _ _ => 0 end.
Definition hei (c : codec) : Z := match c with Video _ h _ _ => h | Audio _ _ _ => 0 end.
Definition mhd_of (c : codec) : item := if visual c then Leaf VMHD vmhd_body else Leaf SMHD smhd_body.
Definition init_minf (c : codec) (key : option (list Z)) : item := Node MINF [mhd_of c; dinf_item; init_stbl_item c key].
Definition init_mdia (now : Z) (c : codec) (ts : Z) (key : option (list Z)) : item :=
  Node MDIA [Leaf MDHD (mdhd_body now ts 0 und); Leaf HDLR (hdlr_body (if visual c then VIDE else SOUN)); init_minf c key].
Definition init_trak (now : Z) (c : codec) (ts id : Z) (key : option (list Z)) : item :=
  Node TRAK [Leaf TKHD (tkhd_body now (id + 1) 0 (vol c) (wid c) (hei c)); init_mdia now c ts key].
Lemma time_scale_0 : forall ts, time_scale ts 0 = 0.
Proof.
  intros ts. unfold time_scale. replace (ddiv (dbl 0) (dbl 10000000)) with (BinarySingleNaN.B754_zero false : double) by (vm_compute; reflexivity). destruct (dbl ts); reflexivity.
Qed.
Lemma init_stream_u : forall now c ts id key F ps, init_stream now c ts id key (fin F ps) = Some (fin (F ++ layoutu (init_trak now c ts id key)) ps).
Proof.
  intros now c ts id key F ps. unfold init_stream. cbv zeta. rewrite time_scale_0. change (0 + 0) with 0. rewrite open_u. set (F1 := F ++ be32 4294967295 ++ be32 TRAK).
  transitivity (
    let w := child_box TKHD (tkhd_body now (id + 1) 0 (vol c) (wid c) (hei c)) (fin F1 ((TRAK, zlen F) :: ps)) in
    let w := open_box MDIA w in
    let w := child_box MDHD (mdhd_body now ts 0 und) w in
    let w := child_box HDLR (hdlr_body (if visual c then VIDE else SOUN)) w in
    let w := open_box MINF w in
    let w := if visual c then child_box VMHD vmhd_body w else child_box SMHD smhd_body w in
    let w := child_box URL (full 0 1) (put (full 0 0 ++ be32 1) (open_box DREF (open_box DINF w))) in
    next (close_box w) (fun w => next (close_box w) (fun w =>
    next (init_stbl c ts key w) (fun w =>
    next (close_box w) (fun w => next (close_box w) close_box))))); [destruct c; reflexivity|]. cbv zeta.
  rewrite child_u, open_u. set (F3 := _ ++ be32 4294967295 ++ be32 MDIA). rewrite !child_u, open_u. set (F5 := _ ++ be32 4294967295 ++ be32 MINF).
  assert (X : forall q, (if visual c then child_box VMHD vmhd_body (fin F5 q) else child_box SMHD smhd_body (fin F5 q)) = fin (F5 ++ layoutu (mhd_of c)) q) by (intros q; unfold mhd_of; destruct (visual c); rewrite child_u; reflexivity).
  rewrite X. clear X. rewrite !open_u, put_raw, child_u. rewrite (close_n DREF _ _ _ [Raw (full 0 0 ++ be32 1); Leaf URL (full 0 1)]) by flatu. unfold next at 1.
  rewrite (close_n DINF _ _ _ [Node DREF [Raw (full 0 0 ++ be32 1); Leaf URL (full 0 1)]]) by flatu. unfold next at 1. fold dinf_item. rewrite init_stbl_u. unfold next at 1.
  unfold F5. rewrite (close_n MINF _ _ _ [mhd_of c; dinf_item; init_stbl_item c key]) by flatu. fold (init_minf c key). unfold next at 1.
  unfold F3. rewrite (close_n MDIA _ _ _ [Leaf MDHD (mdhd_body now ts 0 und); Leaf HDLR (hdlr_body (if visual c then VIDE else SOUN)); init_minf c key]) by flatu. fold (init_mdia now c ts key). unfold next.
  unfold F1, init_trak. apply close_n. flatu.
Qed.
Definition mvex_item (id duration : Z) : item := Node MVEX [Leaf MEHD (full 0 0 ++ be32 (u32 duration)); Leaf TREX (full 0 0 ++ words [u32 id; 1; 0; 0; 0])].
Definition bytes_of (p : option (list Z)) : list Z := match p with Some b => b | None => [] end.
Definition init_items (now : Z) (c : codec) (ts id duration : Z) (key : option (list Z)) (pssh : list Z) : list item :=
  [Leaf FTYP init_ftyp; Node MOOV [Leaf MVHD (mvhd1_body now ts 0 (id + 1)); init_trak now c ts (id - 1) key; mvex_item id duration; Raw pssh]].
Lemma init_u : forall now c ts id duration key pssh, init now c ts id duration key pssh = Some (all_u (init_items now c ts id duration key (bytes_of pssh))).
Proof.
  intros. unfold init. cbv zeta. rewrite time_scale_0. replace (id - 1 + 1 + 1) with (id + 1) by lia. change (mkW [] 0 []) with (fin [] []). rewrite child_u, open_u, child_u, init_stream_u. unfold next at 1.
  rewrite open_u, !child_u. rewrite (close_n MVEX _ _ _ [Leaf MEHD (full 0 0 ++ be32 (u32 duration)); Leaf TREX (full 0 0 ++ words [u32 id; 1; 0; 0; 0])]) by flatu. fold (mvex_item id duration). unfold next at 1.
  assert (X : forall G q, (match pssh with Some b => put b (fin G q) | None => fin G q end) = fin (G ++ layoutu (Raw (bytes_of pssh))) q) by (intros; destruct pssh; cbn [bytes_of]; [apply put_raw|cbn [layoutu]; rewrite app_nil_r; reflexivity]).
  rewrite X. rewrite (close_n MOOV _ _ _ [Leaf MVHD (mvhd1_body now ts 0 (id + 1)); init_trak now c ts (id - 1) key; mvex_item id duration; Raw (bytes_of pssh)]) by flatu. unfold next. cbn [w_file fin]. f_equal. unfold init_items. rewrite !all_u_cons, all_u_nil, app_nil_r. reflexivity.
Qed.
