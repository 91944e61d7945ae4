(** Proofs about Movie_model: the bytes the writer leaves. *)
From Coq Require Import ZifyNat.
From Verif Require Import Util RangeMap_model SampleTab_model SampleTab_proofs TimeTab_model Double_model Box_model Box_proofs Frag_model Frag_proofs Frag_proofs2 Level_model Movie_model Movie_proofs.
Local Open Scope Z_scope.
Local Ltac Zify.zify_post_hook ::= Z.div_mod_to_equations.
Opaque be.

(** ** Boxes with sizes of 32 bits, whatever they hold *)
Fixpoint layoutu (i : item) : list Z :=
  match i with
  | Raw bs => bs
  | Leaf t body => be32 (u32 (8 + zlen body)) ++ be32 t ++ body
  | Node t kids => let inside := concat (map layoutu kids) in be32 (u32 (8 + zlen inside)) ++ be32 t ++ inside
  end.
Definition all_u (l : list item) : list Z := concat (map layoutu l).
Lemma all_u_app : forall a b, all_u (a ++ b) = all_u a ++ all_u b. Proof. intros. unfold all_u. rewrite map_app, concat_app. reflexivity. Qed.
Lemma all_u_cons : forall i l, all_u (i :: l) = layoutu i ++ all_u l. Proof. reflexivity. Qed.
Lemma all_u_nil : all_u [] = []. Proof. reflexivity. Qed.
Lemma nodeu : forall t kids, layoutu (Node t kids) = be32 (u32 (8 + zlen (all_u kids))) ++ be32 t ++ all_u kids. Proof. reflexivity. Qed.
Lemma leafu : forall t b, layoutu (Leaf t b) = be32 (u32 (8 + zlen b)) ++ be32 t ++ b. Proof. reflexivity. Qed.
Lemma nodeu_zlen : forall t kids, zlen (layoutu (Node t kids)) = 8 + zlen (all_u kids). Proof. intros. rewrite nodeu, !zlen_app', !be32_zlen. lia. Qed.
Lemma leafu_zlen : forall t b, zlen (layoutu (Leaf t b)) = 8 + zlen b. Proof. intros. rewrite leafu, !zlen_app', !be32_zlen. lia. Qed.
Lemma layoutu_small : forall i, zlen (layoutu i) < 2 ^ 32 -> layoutu i = layout i.
Proof.
  induction i as [bs|t body|t kids IH] using item_ind2; intros H; [reflexivity| |].
  - rewrite leafu_zlen in H. rewrite leafu, layout_leaf. rewrite u32_id; [reflexivity|]. pose proof (zlen_nonneg body). lia.
  - rewrite nodeu_zlen in H. assert (E : all_u kids = all_layout kids).
    { clear t. induction IH as [|k kids P IHk IHl]; [reflexivity|]. rewrite all_u_cons, zlen_app' in H. rewrite all_u_cons, all_layout_cons. pose proof (zlen_nonneg (layoutu k)). pose proof (zlen_nonneg (all_u kids)). rewrite P by lia. f_equal. apply IHl. lia. }
    rewrite nodeu, layout_node, <- E. rewrite u32_id; [reflexivity|]. pose proof (zlen_nonneg (all_u kids)). lia.
Qed.
Lemma all_u_small : forall l, zlen (all_u l) < 2 ^ 32 -> all_u l = all_layout l.
Proof. induction l as [|k l IH]; intros H; [reflexivity|]. rewrite all_u_cons, zlen_app' in H. pose proof (zlen_nonneg (layoutu k)). pose proof (zlen_nonneg (all_u l)). rewrite all_u_cons, all_layout_cons, layoutu_small, IH by lia. reflexivity. Qed.

(** ** Calls *)
Lemma child_u : forall t b F ps, child_box t b (fin F ps) = fin (F ++ layoutu (Leaf t b)) ps. Proof. intros. rewrite child_fin. reflexivity. Qed.
Lemma open_u : forall t F ps, open_box t (fin F ps) = fin (F ++ be32 4294967295 ++ be32 t) ((t, zlen F) :: ps). Proof. exact open_fin. Qed.
Lemma close_u : forall t F b ps, close_box (fin ((F ++ be32 4294967295 ++ be32 t) ++ b) ((t, zlen F) :: ps)) = Some (fin (F ++ be32 (u32 (8 + zlen b)) ++ be32 t ++ b) ps).
Proof.
  intros. rewrite <- !app_assoc. rewrite (close_fin t F (be32 4294967295) (be32 t ++ b) ps) by apply be32_length. rewrite zlen_app', be32_zlen. replace (4 + (4 + zlen b)) with (8 + zlen b) by lia. reflexivity.
Qed.
(** one more box at the end of those written *)
Lemma push : forall F ks k, (F ++ all_u ks) ++ layoutu k = F ++ all_u (ks ++ [k]).
Proof. intros. rewrite all_u_app, all_u_cons, all_u_nil, app_nil_r, app_assoc. reflexivity. Qed.
Lemma close_k : forall t F ks ps, close_box (fin ((F ++ be32 4294967295 ++ be32 t) ++ all_u ks) ((t, zlen F) :: ps)) = Some (fin (F ++ layoutu (Node t ks)) ps).
Proof. intros. rewrite close_u. reflexivity. Qed.
Lemma start : forall (F : list Z) ps, fin F ps = fin (F ++ all_u []) ps. Proof. intros. rewrite all_u_nil, app_nil_r. reflexivity. Qed.
Lemma put_raw : forall bs F ps, put bs (fin F ps) = fin (F ++ layoutu (Raw bs)) ps. Proof. intros. rewrite put_fin. reflexivity. Qed.

(** ** The boxes of a movie *)
(** a table of words as a box *)
Definition table_box (ty : Z) (ws : list Z) : list item := match ws with [] => [] | _ => [Leaf ty (words (skipn 2 ws))] end.
Lemma table_u : forall ty ws, ws = [] \/ (exists b, ws = fullbox ty b) -> words ws = all_u (table_box ty ws).
Proof.
  intros ty ws [->|(b & ->)]; [reflexivity|]. unfold table_box, fullbox. cbn [skipn]. rewrite all_u_cons, all_u_nil, app_nil_r, leafu. rewrite !words_cons, !zlen_app', be32_zlen, words_zlen. do 3 f_equal. lia.
Qed.
Definition entry_item (c : codec) : item :=
  match c with Video width height name body => Node AVC1 [Raw (visual_entry width height name); Node AVCC [Raw body]] | Audio rate channels body => Node MP4A [Raw (audio_entry rate channels); Raw body] end.
Definition stsd_item (c : codec) : item := Node STSD [Raw (full 0 0 ++ be32 1); entry_item c].
Definition chunks (t : wtrack) : list (Z * Z) := w_chunks (SampleTab_model.write_all (k_places t)).
Definition stsc_of (t : wtrack) : list Z := match write_stsc false (map snd (chunks t)) with Some s => s | None => [] end.
Definition stco_item (t : wtrack) (mdat : Z) : item := Node box_stco [Raw (full 0 0 ++ be32 (u32 (Z.of_nat (length (chunks t))))); Raw (stco_words t mdat)].
Definition the_stts (t : wtrack) : list Z := write_stts (time_scale (k_ts t)) (get_hnano (k_ts t)) false (map snd (l_samples (k_level t))).
Definition the_ctts (t : wtrack) : list Z := write_ctts (time_scale (k_ts t)) (has_composition (l_samples (k_level t))) (l_ctts (k_level t)) (l_samples (k_level t)).
Definition the_stss (t : wtrack) : list Z := write_stss (if visual (k_codec t) then iframes 0 (k_keys t) else []).
Definition tables_before (t : wtrack) : list item := table_box box_stts (the_stts t) ++ table_box box_ctts (the_ctts t) ++ table_box box_stsc (stsc_of t) ++ table_box box_stsz (write_stsz (SampleTab_model.write_all (k_places t))).
Definition stbl_item (t : wtrack) (mdat : Z) : item := Node STBL ((stsd_item (k_codec t) :: tables_before t) ++ stco_item t mdat :: table_box box_stss (the_stss t)).
Definition dinf_item : item := Node DINF [Node DREF [Raw (full 0 0 ++ be32 1); Leaf URL (full 0 1)]].
Definition mhd_item (t : wtrack) : item := if visual (k_codec t) then Leaf VMHD vmhd_body else Leaf SMHD smhd_body.
Definition minf_item (t : wtrack) (mdat : Z) : item := Node MINF [mhd_item t; dinf_item; stbl_item t mdat].
Section Clock.
Variables now mvts : Z.
Definition mdhd_item (t : wtrack) : item := Leaf MDHD (mdhd_body now (k_ts t) (time_scale (k_ts t) (stream_duration (k_level t))) (k_lang t)).
Definition hdlr_item (t : wtrack) : item := Leaf HDLR (hdlr_body (if visual (k_codec t) then VIDE else SOUN)).
Definition mdia_item (t : wtrack) (mdat : Z) : item := Node MDIA [mdhd_item t; hdlr_item t; minf_item t mdat].
Definition tkhd_item (t : wtrack) (id : Z) : item :=
  Leaf TKHD (tkhd_body now (id + 1) (u64 (time_scale mvts (stream_duration (k_level t)) + time_scale mvts (l_offset (k_level t)))) (if visual (k_codec t) then 0 else 256)
    (match k_codec t with Video w _ _ _ => w | Audio _ _ _ => 0 end) (match k_codec t with Video _ h _ _ => h | Audio _ _ _ => 0 end)).
Definition edts_items (t : wtrack) : list item := match write_edts (time_scale mvts) (k_level t) with None => [] | Some body => [Node EDTS [Node ELST [Raw body]]] end.
Definition trak_item (t : wtrack) (id mdat : Z) : item := Node TRAK (tkhd_item t id :: edts_items t ++ [mdia_item t mdat]).
(** where the chunk offsets start in it *)
Definition stco_place (t : wtrack) (id : Z) : Z :=
  8 + (zlen (layoutu (tkhd_item t id)) + (zlen (all_u (edts_items t)) + (8 + (zlen (layoutu (mdhd_item t)) + (zlen (layoutu (hdlr_item t)) + (8 + (zlen (layoutu (mhd_item t)) + (zlen (layoutu dinf_item) + (8 + (zlen (all_u (stsd_item (k_codec t) :: tables_before t)) + 16)))))))))).
End Clock.

Lemma entry_u : forall c F ps, write_entry c (fin F ps) = Some (fin (F ++ layoutu (entry_item c)) ps).
Proof.
  intros [w h n b|r c b] F ps; unfold write_entry, entry_item.
  - rewrite open_u, put_raw, open_u. set (F1 := F ++ be32 4294967295 ++ be32 AVC1). rewrite put_fin, close_u. unfold next. cbv beta iota. unfold F1. rewrite <- (app_assoc (F ++ _)). rewrite close_u. rewrite nodeu. rewrite !all_u_cons, all_u_nil, nodeu, all_u_cons, all_u_nil, !app_nil_r. reflexivity.
  - rewrite open_u, !put_raw. rewrite <- (app_assoc (F ++ _)). rewrite close_u. rewrite nodeu, !all_u_cons, all_u_nil, !app_nil_r. reflexivity.
Qed.
Lemma stsd_u : forall c F ps, write_stsd c (fin F ps) = Some (fin (F ++ layoutu (stsd_item c)) ps).
Proof. intros. unfold write_stsd. rewrite open_u, put_raw, entry_u. unfold next. cbv beta iota. rewrite (start (F ++ be32 _ ++ be32 _)) || idtac. rewrite <- (app_assoc (F ++ _)). rewrite close_u. unfold stsd_item. rewrite nodeu, !all_u_cons, all_u_nil, !app_nil_r. reflexivity. Qed.
Lemma stco_u : forall t F ps, Movie_model.write_stco t (fin F ps) = Some (fin (F ++ layoutu (stco_item t 0)) ps, zlen F + 16).
Proof.
  intros. unfold Movie_model.write_stco. rewrite open_u, put_raw. cbv zeta. fold (chunks t). change (w_pos (fin ?f ?p)) with (zlen f). rewrite put_raw. rewrite <- (app_assoc (F ++ _)). rewrite close_u. unfold next. cbv beta iota. unfold stco_item. rewrite nodeu, !all_u_cons, all_u_nil, !app_nil_r.
  do 2 f_equal. cbn [layoutu]. unfold full. rewrite !zlen_app', !be32_zlen, !be_zlen. lia.
Qed.
Lemma stts_box : forall t, exists b, the_stts t = fullbox box_stts b.
Proof. intros. unfold the_stts, write_stts. destruct (stts_loop _ _ 0 _ 0 0 0) as [[[ws n] d] c]. destruct ((0 <? _)%nat || _); eexists; reflexivity. Qed.
Lemma ctts_box : forall t, the_ctts t = [] \/ exists b, the_ctts t = fullbox box_ctts b.
Proof. intros. unfold the_ctts, write_ctts. destruct (_ && _); [left; reflexivity|]. destruct (ctts_loop _ _ 0 _ 0 0) as [[[ws n] d] c]. right. eexists; reflexivity. Qed.
Lemma stss_box : forall t, the_stss t = [] \/ exists b, the_stss t = fullbox box_stss b.
Proof. intros. unfold the_stss, write_stss. destruct (if visual _ then _ else _); [left; reflexivity|right; eexists; reflexivity]. Qed.
Lemma stsz_box : forall w, exists b, write_stsz w = fullbox box_stsz b. Proof. intros. eexists; reflexivity. Qed.
Definition has_chunks (t : wtrack) : Prop := write_stsc false (map snd (chunks t)) <> None.
Lemma stsc_box : forall t, has_chunks t -> write_stsc false (map snd (chunks t)) = Some (stsc_of t) /\ exists b, stsc_of t = fullbox box_stsc b.
Proof. intros t H. unfold has_chunks, stsc_of in *. destruct (write_stsc false (map snd (chunks t))) as [s|] eqn:E; [|contradiction]. split; [reflexivity|]. exact (proj2 (stsc_words _ _ _ E)). Qed.
Lemma stbl_u : forall t F ps, has_chunks t -> write_stbl t (fin F ps) = Some (fin (F ++ layoutu (stbl_item t 0)) ps, zlen F + (8 + (zlen (all_u (stsd_item (k_codec t) :: tables_before t)) + 16))).
Proof.
  intros t F ps H. destruct (stsc_box t H) as (E & Es). unfold write_stbl. cbv zeta. fold (chunks t). fold (the_stts t). fold (the_ctts t). fold (the_stss t). rewrite open_u, stsd_u. unfold next at 1. cbv beta iota. rewrite E. unfold next at 1. cbv beta iota.
  rewrite !put_fin. rewrite stco_u. unfold next at 1. cbv beta iota. rewrite put_fin.
  set (G := F ++ be32 4294967295 ++ be32 STBL).
  assert (X : (((((G ++ layoutu (stsd_item (k_codec t))) ++ words (the_stts t)) ++ words (the_ctts t)) ++ words (stsc_of t)) ++ words (write_stsz (SampleTab_model.write_all (k_places t)))) = G ++ all_u (stsd_item (k_codec t) :: tables_before t)).
  { unfold tables_before. rewrite all_u_cons, !all_u_app. rewrite <- !app_assoc. rewrite <- !table_u; [reflexivity| | | |]; [right; apply stsz_box|right; exact Es|apply ctts_box|right; apply stts_box]. }
  rewrite X. rewrite (table_u box_stss (the_stss t) (stss_box t)). rewrite <- !app_assoc. unfold G at 1. rewrite close_u. unfold next. f_equal. f_equal.
  - f_equal. f_equal. unfold stbl_item. rewrite nodeu. rewrite all_u_app, (all_u_cons (stco_item t 0)). reflexivity.
  - rewrite zlen_app'. unfold G. rewrite !zlen_app', !be32_zlen. lia.
Qed.
Lemma edts_u : forall mvts t F ps, edts mvts t (fin F ps) = Some (fin (F ++ all_u (edts_items mvts t)) ps).
Proof.
  intros. unfold edts, edts_items. destruct (write_edts (time_scale mvts) (k_level t)) as [body|]; [|rewrite all_u_nil, app_nil_r; reflexivity].
  rewrite !open_u. set (F1 := F ++ be32 4294967295 ++ be32 EDTS). rewrite put_fin, close_u. unfold next. cbv beta iota. unfold F1. rewrite close_u. rewrite all_u_cons, all_u_nil, !nodeu, !all_u_cons, !all_u_nil, !nodeu, !all_u_cons, !all_u_nil, !app_nil_r. reflexivity.
Qed.
Lemma stream_u : forall now mvts t id F ps, has_chunks t -> write_stream now mvts t id (fin F ps) = Some (fin (F ++ layoutu (trak_item now mvts t id 0)) ps, zlen F + stco_place now mvts t id).
Proof.
  intros now mvts t id F ps H. unfold write_stream. cbv zeta. rewrite open_u. set (F1 := F ++ be32 4294967295 ++ be32 TRAK).
  transitivity (next (edts mvts t (child_box TKHD (tkhd_body now (id + 1) (u64 (time_scale mvts (stream_duration (k_level t)) + time_scale mvts (l_offset (k_level t)))) (if visual (k_codec t) then 0 else 256)
    (match k_codec t with Video w _ _ _ => w | Audio _ _ _ => 0 end) (match k_codec t with Video _ h _ _ => h | Audio _ _ _ => 0 end)) (fin F1 ((TRAK, zlen F) :: ps)))) (fun w =>
      let w := open_box MDIA w in
      let w := child_box MDHD (mdhd_body now (k_ts t) (time_scale (k_ts t) (stream_duration (k_level t))) (k_lang t)) w in
      let w := child_box HDLR (hdlr_body (if visual (k_codec t) then VIDE else SOUN)) w in
      let w := open_box MINF w in
      let w := if visual (k_codec t) then child_box VMHD vmhd_body w else child_box SMHD smhd_body w in
      let w := child_box URL (full 0 1) (put (full 0 0 ++ be32 1) (open_box DREF (open_box DINF w))) in
      next (close_box w) (fun w => next (close_box w) (fun w =>
      next (write_stbl t w) (fun r => let '(w, position) := r in
      next (close_box w) (fun w => next (close_box w) (fun w => next (close_box w) (fun w => Some (w, position)))))))));
    [destruct (k_codec t); reflexivity|].
  rewrite child_u. fold (tkhd_item now mvts t id). rewrite edts_u. unfold next at 1. cbv beta iota zeta.
  set (F2 := (F1 ++ layoutu (tkhd_item now mvts t id)) ++ all_u (edts_items mvts t)). rewrite open_u. set (F3 := F2 ++ be32 4294967295 ++ be32 MDIA). rewrite child_u. fold (mdhd_item now t). rewrite child_u. fold (hdlr_item t).
  set (F4 := (F3 ++ layoutu (mdhd_item now t)) ++ layoutu (hdlr_item t)). rewrite open_u. set (F5 := F4 ++ be32 4294967295 ++ be32 MINF).
  assert (X : forall q, (if visual (k_codec t) then child_box VMHD vmhd_body (fin F5 q) else child_box SMHD smhd_body (fin F5 q)) = fin (F5 ++ layoutu (mhd_item t)) q) by (intros q; unfold mhd_item; destruct (visual (k_codec t)); rewrite child_u; reflexivity).
  rewrite X. clear X. set (F6 := F5 ++ layoutu (mhd_item t)). rewrite open_u. set (F7 := F6 ++ be32 4294967295 ++ be32 DINF). rewrite open_u, put_raw, child_u.
  rewrite <- (app_assoc (F7 ++ _)). rewrite close_u. unfold next at 1. cbv beta iota. unfold F7 at 1. rewrite close_u. unfold next at 1. cbv beta iota.
  set (F8 := F6 ++ _). assert (E8 : F8 = F6 ++ layoutu dinf_item). { unfold F8, dinf_item. rewrite nodeu, all_u_cons, all_u_nil, nodeu, !all_u_cons, all_u_nil, !app_nil_r. reflexivity. }
  rewrite (stbl_u t F8 _ H). unfold next at 1. cbv beta iota. rewrite E8. unfold F6. rewrite <- !(app_assoc F5). unfold F5 at 1. rewrite close_u. unfold next at 1. cbv beta iota. unfold F4 at 1. rewrite <- !(app_assoc F3). unfold F3 at 1. rewrite close_u. unfold next at 1. cbv beta iota. unfold F2 at 1. rewrite <- !(app_assoc F1). unfold F1 at 1. rewrite close_u. unfold next. f_equal. f_equal.
  - f_equal. f_equal. unfold trak_item. rewrite nodeu, all_u_cons, all_u_app, all_u_cons, all_u_nil, app_nil_r. unfold mdia_item. rewrite nodeu, !all_u_cons, all_u_nil, app_nil_r. unfold minf_item. rewrite nodeu, !all_u_cons, all_u_nil, app_nil_r. rewrite <- !app_assoc. reflexivity.
  - unfold F5, F4, F3, F2, F1. rewrite !zlen_app', !be32_zlen. unfold stco_place. lia.
Qed.
Fixpoint traks (now mvts : Z) (l : list wtrack) (id mdat : Z) : list item := match l with [] => [] | t :: l => trak_item now mvts t id mdat :: traks now mvts l (id + 1) mdat end.
Fixpoint places (now mvts : Z) (F : Z) (l : list wtrack) (id : Z) : list Z := match l with [] => [] | t :: l => F + stco_place now mvts t id :: places now mvts (F + zlen (layoutu (trak_item now mvts t id 0))) l (id + 1) end.
Lemma streams_u : forall now mvts l id F ps, Forall has_chunks l -> write_streams now mvts l id (fin F ps) = Some (fin (F ++ all_u (traks now mvts l id 0)) ps, places now mvts (zlen F) l id).
Proof.
  intros now mvts. induction l as [|t l IH]; intros id F ps H; [cbn [write_streams traks places]; rewrite all_u_nil, app_nil_r; reflexivity|]. cbn [write_streams traks places]. rewrite stream_u by exact (Forall_inv H). unfold next at 1. cbn [fst snd]. rewrite IH by exact (Forall_inv_tail H). unfold next. cbn [fst snd].
  rewrite all_u_cons, app_assoc, zlen_app'. reflexivity.
Qed.
Definition mvhd_item (now : Z) (l : list wtrack) : item := Leaf MVHD (mvhd_body now Movie_model.mvts (time_scale Movie_model.mvts (min_duration l)) (Z.of_nat (length l) + 1)).
Definition moov_item (now : Z) (l : list wtrack) (mdat : Z) : item := Node MOOV (mvhd_item now l :: traks now Movie_model.mvts l 0 mdat).
Lemma moov_u : forall now l F ps, Forall has_chunks l -> write_moov now l (fin F ps) = Some (fin (F ++ layoutu (moov_item now l 0)) ps, places now Movie_model.mvts (zlen F + 8 + zlen (layoutu (mvhd_item now l))) l 0).
Proof.
  intros now l F ps H. unfold write_moov. rewrite open_u, child_u. fold (mvhd_item now l). rewrite (streams_u now Movie_model.mvts l 0 _ _ H). unfold next at 1. cbn [fst snd]. rewrite <- (app_assoc (F ++ _)). rewrite close_u. unfold next. unfold moov_item. rewrite nodeu, all_u_cons. do 2 f_equal. f_equal. rewrite !zlen_app', !be32_zlen. lia.
Qed.
(** ** Moving the chunk offsets *)
Definition hole (x g : Z -> list Z) (off : Z) : Prop := exists a b, zlen a = off /\ forall m, g m = a ++ x m ++ b.
Lemma hole_node : forall x n t ks off, (forall m, zlen (x m) = n) -> hole x (fun m => all_u (ks m)) off -> hole x (fun m => layoutu (Node t (ks m))) (8 + off).
Proof.
  intros x n t ks off Hx (a & b & L & E). exists (be32 (u32 (8 + (zlen a + n + zlen b))) ++ be32 t ++ a), b. split; [rewrite !zlen_app', !be32_zlen; lia|]. intros m. rewrite nodeu, E. rewrite !zlen_app', Hx. rewrite <- !app_assoc. do 3 f_equal. lia.
Qed.
Lemma hole_after : forall x k ks off, hole x (fun m => all_u (ks m)) off -> hole x (fun m => all_u (k :: ks m)) (zlen (layoutu k) + off).
Proof. intros x k ks off (a & b & L & E). exists (layoutu k ++ a), b. split; [rewrite zlen_app'; lia|]. intros m. rewrite all_u_cons, E, app_assoc. reflexivity. Qed.
Lemma hole_afters : forall x k ks off, hole x (fun m => all_u (ks m)) off -> hole x (fun m => all_u (k ++ ks m)) (zlen (all_u k) + off).
Proof. intros x k ks off (a & b & L & E). exists (all_u k ++ a), b. split; [rewrite zlen_app'; lia|]. intros m. rewrite all_u_app, E, app_assoc. reflexivity. Qed.
Lemma hole_before : forall x k ks off, hole x (fun m => layoutu (k m)) off -> hole x (fun m => all_u (k m :: ks)) off.
Proof. intros x k ks off (a & b & L & E). exists a, (b ++ all_u ks). split; [exact L|]. intros m. rewrite all_u_cons, E, <- !app_assoc. reflexivity. Qed.
Lemma stco_words_zlen : forall t m, zlen (stco_words t m) = 4 * Z.of_nat (length (chunks t)). Proof. intros. unfold stco_words. rewrite words_zlen, map_length. reflexivity. Qed.
Lemma trak_hole : forall now mvts t id, hole (stco_words t) (fun m => layoutu (trak_item now mvts t id m)) (stco_place now mvts t id).
Proof.
  intros now mvts t id. unfold stco_place. set (n := 4 * Z.of_nat (length (chunks t))). pose proof (stco_words_zlen t) as Hn. fold n in Hn.
  apply (hole_node _ n TRAK (fun m => tkhd_item now mvts t id :: edts_items mvts t ++ [mdia_item now t m])); [exact Hn|]. apply (hole_after _ _ (fun m => edts_items mvts t ++ [mdia_item now t m])). apply (hole_afters _ _ (fun m => [mdia_item now t m])). apply (hole_before _ (fun m => mdia_item now t m)).
  apply (hole_node _ n MDIA (fun m => [mdhd_item now t; hdlr_item t; minf_item t m])); [exact Hn|]. apply (hole_after _ _ (fun m => [hdlr_item t; minf_item t m])). apply (hole_after _ _ (fun m => [minf_item t m])). apply (hole_before _ (fun m => minf_item t m)).
  apply (hole_node _ n MINF (fun m => [mhd_item t; dinf_item; stbl_item t m])); [exact Hn|]. apply (hole_after _ _ (fun m => [dinf_item; stbl_item t m])). apply (hole_after _ _ (fun m => [stbl_item t m])). apply (hole_before _ (fun m => stbl_item t m)).
  apply (hole_node _ n STBL (fun m => (stsd_item (k_codec t) :: tables_before t) ++ stco_item t m :: table_box box_stss (the_stss t))); [exact Hn|]. apply (hole_afters _ _ (fun m => stco_item t m :: table_box box_stss (the_stss t))). apply (hole_before _ (fun m => stco_item t m)).
  change 16 with (8 + (8 + 0)). apply (hole_node _ n box_stco (fun m => [Raw (full 0 0 ++ be32 (u32 (Z.of_nat (length (chunks t))))); Raw (stco_words t m)])); [exact Hn|].
  exists (full 0 0 ++ be32 (u32 (Z.of_nat (length (chunks t))))), []. split; [unfold full; rewrite !zlen_app', !be32_zlen, !be_zlen; reflexivity|]. intros m. rewrite !all_u_cons, all_u_nil, !app_nil_r. reflexivity.
Qed.
Lemma trak_zlen : forall now mvts t id m m', zlen (layoutu (trak_item now mvts t id m)) = zlen (layoutu (trak_item now mvts t id m')).
Proof. intros. destruct (trak_hole now mvts t id) as (a & b & _ & E). rewrite !E, !zlen_app', !stco_words_zlen. reflexivity. Qed.
Lemma traks_zlen : forall now mvts l id m m', zlen (all_u (traks now mvts l id m)) = zlen (all_u (traks now mvts l id m')).
Proof. intros now mvts. induction l as [|t l IH]; intros id m m'; [reflexivity|]. cbn [traks]. rewrite !all_u_cons, !zlen_app'. rewrite (IH (id + 1) m m'), (trak_zlen now mvts t id m m'). reflexivity. Qed.
Lemma rebase_u : forall now mvts mdat l id F R p ps, exists q, rebase mdat l (places now mvts (zlen F) l id) (mkW (F ++ all_u (traks now mvts l id 0) ++ R) p ps) = mkW (F ++ all_u (traks now mvts l id mdat) ++ R) q ps.
Proof.
  intros now mvts mdat. induction l as [|t l IH]; intros id F R p ps; [exists p; reflexivity|]. cbn [places traks rebase].
  destruct (trak_hole now mvts t id) as (a & b & L & E). rewrite !all_u_cons. unfold seek. cbn [w_file w_parents].
  replace (F ++ (layoutu (trak_item now mvts t id 0) ++ all_u (traks now mvts l (id + 1) 0)) ++ R) with ((F ++ a) ++ stco_words t 0 ++ (b ++ all_u (traks now mvts l (id + 1) 0) ++ R)) by (rewrite E, <- !app_assoc; reflexivity).
  replace (zlen F + stco_place now mvts t id) with (zlen (F ++ a)) by (rewrite zlen_app'; lia).
  rewrite patch by (pose proof (stco_words_zlen t 0); pose proof (stco_words_zlen t mdat); unfold zlen in *; lia).
  set (q := zlen (F ++ a) + zlen (stco_words t mdat)). destruct (IH (id + 1) (F ++ layoutu (trak_item now mvts t id mdat)) R q ps) as (q' & E'). exists q'.
  replace ((F ++ a) ++ stco_words t mdat ++ b ++ all_u (traks now mvts l (id + 1) 0) ++ R) with ((F ++ layoutu (trak_item now mvts t id mdat)) ++ all_u (traks now mvts l (id + 1) 0) ++ R) by (rewrite E, <- !app_assoc; reflexivity).
  replace (zlen F + zlen (layoutu (trak_item now mvts t id 0))) with (zlen (F ++ layoutu (trak_item now mvts t id mdat))) by (rewrite zlen_app', (trak_zlen now mvts t id mdat 0); reflexivity).
  rewrite E'. f_equal. rewrite <- !app_assoc. reflexivity.
Qed.
(** ** The file *)
Definition movie_items (now : Z) (l : list wtrack) (mdat : Z) : list item := [Leaf FTYP ftyp_body; moov_item now l mdat].
Definition headers (now : Z) (l : list wtrack) : Z := zlen (all_u (movie_items now l 0)) + 8.
Definition levelled (ctts : bool) (l : list wtrack) : option (list wtrack) := match level_start_time (negb ctts) (map k_level l) with Some levels => Some (map (fun x => with_level (fst x) (snd x)) (combine l levels)) | None => None end.
Lemma moov_zlen : forall now l m m', zlen (layoutu (moov_item now l m)) = zlen (layoutu (moov_item now l m')).
Proof. intros. unfold moov_item. rewrite !nodeu_zlen, !all_u_cons, !zlen_app', (traks_zlen now Movie_model.mvts l 0 m m'). reflexivity. Qed.
Lemma finish_u : forall now ctts l body l', levelled ctts l = Some l' -> Forall has_chunks l' ->
  finish now ctts l body = Some (all_u (movie_items now l' (headers now l')) ++ be32 (u32 (zlen body + 8)) ++ be32 MDAT ++ body).
Proof.
  intros now ctts l body l' E H. unfold finish. unfold levelled in E. destruct (level_start_time (negb ctts) (map k_level l)) as [levels|]; [|discriminate]. injection E as E. unfold next at 1. rewrite E. change (mkW [] 0 []) with (fin [] []).
  rewrite child_u. rewrite app_nil_l. rewrite (moov_u now l' _ _ H). unfold next at 1. cbv beta iota. rewrite !put_fin. cbn [fin w_file]. f_equal.
  set (A := layoutu (Leaf FTYP ftyp_body)). set (B := be32 (u32 (zlen body + 8)) ++ be32 MDAT).
  assert (Z1 : zlen (((A ++ layoutu (moov_item now l' 0)) ++ be32 (u32 (zlen body + 8))) ++ be32 MDAT) = headers now l'). { unfold headers, movie_items. rewrite !all_u_cons, all_u_nil, app_nil_r. fold A. rewrite !zlen_app', !be32_zlen. lia. }
  rewrite Z1. set (hd := headers now l').
  assert (G : ((A ++ layoutu (moov_item now l' 0)) ++ be32 (u32 (zlen body + 8))) ++ be32 MDAT = (A ++ be32 (u32 (8 + zlen (all_u (mvhd_item now l' :: traks now Movie_model.mvts l' 0 0)))) ++ be32 MOOV ++ layoutu (mvhd_item now l')) ++ all_u (traks now Movie_model.mvts l' 0 0) ++ B).
  { unfold moov_item. rewrite nodeu. rewrite (all_u_cons (mvhd_item now l')) at 2. unfold B. rewrite <- !app_assoc. reflexivity. }
  unfold fin. rewrite G. set (P := A ++ _). replace (zlen A + 8 + zlen (layoutu (mvhd_item now l'))) with (zlen P) by (unfold P; rewrite !zlen_app', !be32_zlen; lia).
  destruct (rebase_u now Movie_model.mvts hd l' 0 P B (zlen (P ++ all_u (traks now Movie_model.mvts l' 0 0) ++ B)) []) as (q & ->). cbn [w_file].
  unfold movie_items. rewrite !all_u_cons, all_u_nil, app_nil_r. fold A. unfold moov_item. rewrite nodeu, (all_u_cons (mvhd_item now l')). unfold P, B. rewrite !all_u_cons, !zlen_app', (traks_zlen now Movie_model.mvts l' 0 hd 0). rewrite <- !app_assoc. reflexivity.
Qed.
