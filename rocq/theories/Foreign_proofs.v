(** Proofs about Foreign_model. *)
From Coq Require Import ZifyNat.
From Verif Require Import Util SampleTab_model SampleTab_proofs Box_model Box_proofs HlsCrypt_model Cenc_model Frag_model Frag_proofs Frag_proofs2 Frag_proofs4 Defrag_model Defrag_proofs Foreign_model.
Local Open Scope Z_scope.
Local Ltac Zify.zify_post_hook ::= Z.div_mod_to_equations.
Opaque be.

(** ** fields *)
Definition flag6 (a b c d e f : bool) (i j k l m n : Z) : Z := bit a i + bit b j + bit c k + bit d l + bit e m + bit f n.
Lemma high_bits : forall a e i, 0 <= a < 65536 -> 0 <= i < 16 -> Z.testbit (a + 65536 * e) i = Z.testbit a i.
Proof.
  intros a e i Ha Hi. rewrite <- (Z.mod_pow2_bits_low (a + 65536 * e) 16 i) by lia. change (2 ^ 16) with 65536. replace ((a + 65536 * e) mod 65536) with a by lia. reflexivity.
Qed.
Lemma reads_opt : forall n o d, (match o with Some v => 0 <= v < 256 ^ Z.of_nat n | None => True end) -> Reads (rif (there o) (rnum n) d) (opt n o) (match o with Some v => v | None => d end).
Proof. intros n [v|] d H; cbn [there opt rif]; [apply reads_num; exact H|apply reads_ret]. Qed.
Lemma reads_if : forall b n v d, 0 <= v < 256 ^ Z.of_nat n -> Reads (rif b (rnum n) d) (if b then be n v else []) (if b then v else d).
Proof. intros [] n v d H; [apply reads_num; exact H|apply reads_ret]. Qed.
Lemma reads_if_any : forall (b : bool) n v d, exists x, Reads (rif b (rnum n) d) (if b then be n v else []) x.
Proof. intros [] n v d; eexists; [apply reads_any; apply be_length|apply reads_ret]. Qed.
Definition tfhd_flags (h : header) : Z := bit (h_base h) 0 + bit (there (h_desc h)) 1 + bit (there (h_dur h)) 3 + bit (there (h_size h)) 4 + bit (there (h_flags h)) 5 + 65536 * h_more h.
Definition tfhd_content (x : foreign) (position : Z) : list Z :=
  let h := o_head x in
  be 1 0 ++ be 3 (tfhd_flags h) ++ be 4 (o_track x) ++ (if h_base h then be 8 position else []) ++ opt 4 (h_desc h) ++ opt 4 (h_dur h) ++ opt 4 (h_size h) ++ opt 4 (h_flags h).
Lemma tfhd_low : forall h, 0 <= bit (h_base h) 0 + bit (there (h_desc h)) 1 + bit (there (h_dur h)) 3 + bit (there (h_size h)) 4 + bit (there (h_flags h)) 5 < 65536.
Proof. intros h. unfold bit. destruct (h_base h), (there (h_desc h)), (there (h_dur h)), (there (h_size h)), (there (h_flags h)); vm_compute; split; congruence. Qed.
Lemma tfhd_bits : forall h, let f := tfhd_flags h in Z.testbit f 0 = h_base h /\ Z.testbit f 1 = there (h_desc h) /\ Z.testbit f 3 = there (h_dur h) /\ Z.testbit f 4 = there (h_size h) /\ Z.testbit f 5 = there (h_flags h).
Proof.
  intros h f. unfold f, tfhd_flags. pose proof (tfhd_low h) as L. rewrite !high_bits by (exact L || lia). clear. unfold bit. destruct (h_base h), (there (h_desc h)), (there (h_dur h)), (there (h_size h)), (there (h_flags h)); vm_compute; repeat split; reflexivity.
Qed.
Lemma reads_tfhd : forall x position d0, let h := o_head x in word (h_desc h) -> word (h_dur h) -> word (h_size h) -> word (h_flags h) -> 0 <= h_more h < 256 ->
  Reads (get_tfhd d0) (tfhd_content x position) (match h_dur h with Some v => v | None => fst d0 end, match h_size h with Some v => v | None => snd d0 end).
Proof.
  intros x position d0 h W1 W2 W3 W4 M. unfold get_tfhd, tfhd_content. fold h. destruct (tfhd_bits h) as (B0 & B1 & B3 & B4 & B5). pose proof (tfhd_low h) as L.
  eapply reads_bind; [apply (reads_num 1 0); cbn; lia|]. eapply reads_bind; [apply (reads_num 3 (tfhd_flags h)); change (256 ^ Z.of_nat 3) with 16777216; unfold tfhd_flags; lia|]. eapply reads_bind; [apply reads_any; apply be_length|]. rewrite B0, B1, B3, B4, B5.
  destruct (reads_if_any (h_base h) 8 position 0) as (v & R). eapply reads_bind; [exact R|]. eapply reads_bind; [apply (reads_opt 4); exact W1|]. eapply reads_bind; [apply (reads_opt 4); exact W2|]. eapply reads_bind; [apply (reads_opt 4); exact W3|]. rewrite <- (app_nil_r (opt 4 (h_flags h))). eapply reads_bind; [apply (reads_opt 4); exact W4|]. apply reads_ret.
Qed.
Definition tfdt_content (x : foreign) : list Z := be 1 (o_tfdt x) ++ be 3 0 ++ be (if o_tfdt x =? 1 then 8 else 4) (o_base x).
Lemma reads_tfdt : forall x, (o_tfdt x = 0 /\ 0 <= o_base x < 2 ^ 32 \/ o_tfdt x = 1 /\ 0 <= o_base x < 2 ^ 63) -> Reads get_tfdt (tfdt_content x) (o_base x).
Proof.
  intros x H. unfold get_tfdt, tfdt_content. eapply reads_bind; [apply (reads_num 1 (o_tfdt x)); cbn; lia|]. eapply reads_bind; [apply (reads_num 3 0); cbn; lia|]. destruct H as [[-> H]|[-> H]].
  - change (0 =? 1) with false. cbv iota. apply reads_num. exact H.
  - change (1 =? 1) with true. cbv iota. apply reads_num. change (256 ^ Z.of_nat 8) with (2 ^ 64). lia.
Qed.
Definition trun_flags' (u : run) : Z := bit (u_offset u) 0 + bit (there (u_first u)) 2 + bit (u_dur u) 8 + bit (u_size u) 9 + bit (u_flags u) 10 + bit (u_cts u) 11 + 65536 * u_more u.
Definition trun_content (x : foreign) (offset : Z) : list Z :=
  let u := o_run x in
  be 1 (u_version u) ++ be 3 (trun_flags' u) ++ be 4 (zlen (o_samples x)) ++ (if u_offset u then be 4 offset else []) ++ opt 4 (u_first u) ++ concat (map (entry_of u) (o_samples x)).
Lemma trun_low : forall u, 0 <= bit (u_offset u) 0 + bit (there (u_first u)) 2 + bit (u_dur u) 8 + bit (u_size u) 9 + bit (u_flags u) 10 + bit (u_cts u) 11 < 65536.
Proof. intros u. unfold bit. destruct (u_offset u), (there (u_first u)), (u_dur u), (u_size u), (u_flags u), (u_cts u); vm_compute; split; congruence. Qed.
Lemma trun_bits : forall u, let f := trun_flags' u in Z.testbit f 0 = u_offset u /\ Z.testbit f 2 = there (u_first u) /\ Z.testbit f 8 = u_dur u /\ Z.testbit f 9 = u_size u /\ Z.testbit f 10 = u_flags u /\ Z.testbit f 11 = u_cts u.
Proof.
  intros u f. unfold f, trun_flags'. pose proof (trun_low u) as L. rewrite !high_bits by (exact L || lia). clear. unfold bit. destruct (u_offset u), (there (u_first u)), (u_dur u), (u_size u), (u_flags u), (u_cts u); vm_compute; repeat split; reflexivity.
Qed.
Definition seen_of (u : run) (s : xsample) : Z * Z * Z := (if u_dur u then x_dur s else 0, if u_size u then zlen (x_body s) else 0, if u_cts u then x_cts s mod 2 ^ 32 else 0).
Lemma reads_entry : forall h u s, sample_fits h u s -> Reads (get_trun_item (trun_flags' u)) (entry_of u s) (seen_of u s).
Proof.
  intros h u s (D & _ & L & _ & C). unfold get_trun_item, entry_of, seen_of. destruct (trun_bits u) as (_ & _ & B8 & B9 & B10 & B11). rewrite B8, B9, B10, B11. pose proof (zlen_nonneg (x_body s)).
  eapply reads_bind; [apply (reads_if _ 4); change (256 ^ Z.of_nat 4) with (2 ^ 32); lia|]. eapply reads_bind; [apply (reads_if _ 4); change (256 ^ Z.of_nat 4) with (2 ^ 32); lia|]. destruct (reads_if_any (u_flags u) 4 (x_flags s) 0) as (v & R). eapply reads_bind; [exact R|]. rewrite <- (app_nil_r (if u_cts u then be 4 (x_cts s mod 2 ^ 32) else [])). eapply reads_bind; [apply (reads_if _ 4); change (256 ^ Z.of_nat 4) with (2 ^ 32); apply Z.mod_pos_bound; reflexivity|]. apply reads_ret.
Qed.
Lemma reads_entries : forall h u l, Forall (sample_fits h u) l -> Reads (rrep (length l) (get_trun_item (trun_flags' u))) (concat (map (entry_of u) l)) (map (seen_of u) l).
Proof.
  intros h u l F. rewrite <- (map_length (seen_of u) l). apply reads_rep. induction F as [|s l H F IH]; [constructor|]. cbn [map]. constructor; [exact (reads_entry h u s H)|exact IH].
Qed.
Lemma reads_trun : forall x offset, 0 <= offset < 2 ^ 31 -> 0 <= u_version (o_run x) <= 1 -> word (u_first (o_run x)) -> 0 <= u_more (o_run x) < 256 -> zlen (o_samples x) < 2 ^ 32 -> Forall (sample_fits (o_head x) (o_run x)) (o_samples x) ->
  Reads get_trun (trun_content x offset) (mkT (u_version (o_run x)) (trun_flags' (o_run x)) (if u_offset (o_run x) then offset else 0) (map (seen_of (o_run x)) (o_samples x))).
Proof.
  intros x offset O V W M L F. unfold get_trun, trun_content. set (u := o_run x) in *. destruct (trun_bits u) as (B0 & B2 & _). pose proof (trun_low u) as Lo. pose proof (zlen_nonneg (o_samples x)).
  eapply reads_bind; [apply (reads_num 1 (u_version u)); cbn; lia|]. eapply reads_bind; [apply (reads_num 3 (trun_flags' u)); change (256 ^ Z.of_nat 3) with 16777216; unfold trun_flags'; lia|]. eapply reads_bind; [apply (reads_num 4); change (256 ^ Z.of_nat 4) with (2 ^ 32); lia|]. rewrite B0, B2.
  eapply reads_bind; [apply (reads_if _ 4); change (256 ^ Z.of_nat 4) with (2 ^ 32); lia|]. eapply reads_bind; [apply (reads_opt 4); exact W|]. rewrite <- (app_nil_r (concat _)). eapply reads_bind; [unfold zlen; rewrite Nat2Z.id; exact (reads_entries _ _ _ F)|].
  replace (sint (if u_offset u then offset else 0)) with (if u_offset u then offset else 0); [apply reads_ret|]. unfold sint. destruct (u_offset u); [|reflexivity]. rewrite (proj2 (Z.ltb_lt offset (2 ^ 31))) by lia. reflexivity.
Qed.
(** ** boxes *)
Lemma a_box_zlen : forall n c, zlen (a_box n c) = 4 + zlen n + zlen c. Proof. intros. unfold a_box. rewrite !zlen_app', be_zlen. lia. Qed.
Lemma a_box_leaf : forall t c, a_box (be 4 t) c = layout (Leaf t c). Proof. reflexivity. Qed.
Definition leaves (l : list (Z * list Z)) : list item := map (fun '(t, b) => Leaf t b) l.
Lemma other_leaves : forall l, other_boxes l = all_layout (leaves l).
Proof. induction l as [|[t b] l IH]; [reflexivity|]. unfold other_boxes, leaves in *. cbn [map concat]. rewrite all_layout_cons, IH. reflexivity. Qed.
Lemma step_leaf : forall f pre post m fuel t body m', f = pre ++ layout (Leaf t body) ++ post -> plain t -> 8 + zlen body < 2 ^ 32 -> 0 < zlen post -> m_mdat m' = 0 ->
  handle_box f (mkR (zlen pre + 8) (zlen pre) (8 + zlen body) t) m = Some (m', zlen pre + (8 + zlen body)) -> walk (S fuel) f (zlen pre) m = walk fuel f (zlen (pre ++ layout (Leaf t body))) m'.
Proof.
  intros f pre post m fuel t body m' Hf P L Lp Hm H. eapply step; [rewrite Hf; apply leaf_at; assumption| | |exact Hm].
  - rewrite H, zlen_app', leaf_zlen. reflexivity.
  - rewrite Hf, !zlen_app'. lia.
Qed.
Lemma known_uuid : forall t, 0 <= t < 2 ^ 32 -> ~ In t known -> plain t.
Proof. intros t H N. split; [exact H|]. intros E. apply N. rewrite E. unfold known. cbn [In]. tauto. Qed.
Lemma walk_others : forall l pre post m fuel, others_ok l -> 0 < zlen post -> m_mdat m = 0 -> walk (length l + fuel) (pre ++ other_boxes l ++ post) (zlen pre) m = walk fuel (pre ++ other_boxes l ++ post) (zlen (pre ++ other_boxes l)) m.
Proof.
  induction l as [|[t b] l IH]; intros pre post m fuel F Lp Hm; [change (other_boxes []) with (@nil Z); rewrite app_nil_r; reflexivity|]. destruct (Forall_inv F) as (P & N & L). cbn [fst snd] in *. change (other_boxes ((t, b) :: l)) with (layout (Leaf t b) ++ other_boxes l). set (f := pre ++ (layout (Leaf t b) ++ other_boxes l) ++ post). pose proof (zlen_nonneg b). pose proof (zlen_nonneg (other_boxes l)). cbn [length Nat.add].
  rewrite (step_leaf f pre (other_boxes l ++ post) m (length l + fuel) t b m); [|unfold f; rewrite <- !app_assoc; reflexivity|apply known_uuid; assumption|exact L|rewrite zlen_app'; lia|exact Hm|].
  - specialize (IH (pre ++ layout (Leaf t b)) post m fuel (Forall_inv_tail F) Lp Hm). assert (E : (pre ++ layout (Leaf t b)) ++ other_boxes l ++ post = f) by (unfold f; rewrite <- !app_assoc; reflexivity). rewrite E in IH. rewrite IH, <- app_assoc. reflexivity.
  - rewrite handle_unknown; cbn [r_type r_size r_pos r_box]; [reflexivity|exact N|lia|reflexivity].
Qed.
Definition traf_content (x : foreign) (position offset : Z) : list item := Leaf TFHD (tfhd_content x position) :: Leaf TFDT (tfdt_content x) :: leaves (o_inside x) ++ Leaf TRUN (trun_content x offset) :: leaves (o_after x).
Definition moof_content (x : foreign) (position offset : Z) : list item := [Leaf MFHD (be 4 0 ++ be 4 (o_seq x)); Node TRAF (traf_content x position offset)].
Lemma letters : be32 MOOF = [109; 111; 111; 102] /\ be32 MFHD = [109; 102; 104; 100] /\ be32 TRAF = [116; 114; 97; 102] /\ be32 TFHD = [116; 102; 104; 100] /\ be32 TFDT = [116; 102; 100; 116] /\ be32 TRUN = [116; 114; 117; 110] /\ be32 MDAT = [109; 100; 97; 116].
Proof. vm_compute. repeat split; reflexivity. Qed.
Lemma moof_layout : forall x position offset, moof_of x position offset = layout (Node MOOF (moof_content x position offset)).
Proof.
  intros. destruct letters as (L1 & L2 & L3 & L4 & L5 & L6 & _). unfold moof_of, mfhd_of, tfhd_of, tfdt_of, trun_of, moof_content, traf_content. rewrite <- L1, <- L2, <- L3, <- L4, <- L5, <- L6. rewrite !other_leaves. unfold a_box. rewrite layout_node, !all_layout_cons. change (all_layout []) with (@nil Z). rewrite app_nil_r, layout_node, !all_layout_cons, all_layout_app, all_layout_cons. rewrite !layout_leaf. reflexivity.
Qed.
Lemma moof_zlen : forall x p o p' o', zlen (moof_of x p o) = zlen (moof_of x p' o').
Proof.
  intros. unfold moof_of, tfhd_of, trun_of. rewrite !a_box_zlen, !zlen_app', !a_box_zlen, !zlen_app', !a_box_zlen, !zlen_app'. destruct (h_base (o_head x)), (u_offset (o_run x)); rewrite ?be_zlen; reflexivity.
Qed.
(** walking over boxes in the traf changes only the vectors *)
Definition vectors := option (list (list Z * list (Z * Z))).
Definition senced (m : moof) (se : vectors) : moof := match se with Some l => with_senc m l | None => m end.
Definition walks (l : list (Z * list Z)) (se : vectors) : Prop := forall pre post m fuel, 0 < zlen post -> m_mdat m = 0 ->
  walk (length l + fuel) (pre ++ other_boxes l ++ post) (zlen pre) m = walk fuel (pre ++ other_boxes l ++ post) (zlen (pre ++ other_boxes l)) (senced m se).
Lemma others_walks : forall l, others_ok l -> walks l None.
Proof. intros l H pre post m fuel L Hm. exact (walk_others l pre post m fuel H L Hm). Qed.
Definition foreign_read (x : foreign) (position : Z) (m : moof) (se : vectors) : moof :=
  let size := zlen (moof_of x 0 0) in
  mkMoof position (position + size + 8) (match h_dur (o_head x) with Some v => v | None => fst (m_default m) end, match h_size (o_head x) with Some v => v | None => snd (m_default m) end)
    (mkT (u_version (o_run x)) (trun_flags' (o_run x)) (if u_offset (o_run x) then size + 8 else 0) (map (seen_of (o_run x)) (o_samples x))) (Some (o_base x)) (match se with Some l => Some l | None => m_senc m end).
Lemma walk_foreign : forall x se pre post m fuel, fields_ok x -> walks (o_inside x) None -> walks (o_after x) se -> m_mdat m = 0 -> let position := zlen pre in let moof := moof_of x position (zlen (moof_of x 0 0) + 8) in let mdat := a_box [109; 100; 97; 116] (concat (map x_body (o_samples x))) in
  walk (7 + length (o_inside x) + (length (o_after x) + fuel)) (pre ++ (moof ++ mdat) ++ post) position m = Some (foreign_read x position m se, zlen (pre ++ moof ++ mdat)).
Proof.
  intros x se pre post m fuel (W1 & W2 & W3 & W4 & M & T & V & W5 & U & N & S1 & S2 & F) O2 O3 Hm position moof mdat.
  set (offset := zlen (moof_of x 0 0) + 8) in *. assert (Lm : zlen moof = offset - 8) by (unfold moof, offset; rewrite (moof_zlen x position (zlen (moof_of x 0 0) + 8) 0 0); lia).
  assert (Em : moof = layout (Node MOOF (moof_content x position offset))) by apply moof_layout.
  assert (Ed : mdat = layout (Leaf MDAT (concat (map x_body (o_samples x))))) by (unfold mdat; destruct letters as (_ & _ & _ & _ & _ & _ & <-); reflexivity).
  set (bodies := concat (map x_body (o_samples x))) in *. set (f := pre ++ (moof ++ mdat) ++ post).
  assert (Ld : zlen mdat = 8 + zlen bodies) by (rewrite Ed; apply leaf_zlen). pose proof (zlen_nonneg bodies). pose proof (zlen_nonneg post). pose proof (zlen_nonneg (moof_of x 0 0)) as L0. assert (Lo : offset = zlen (moof_of x 0 0) + 8) by reflexivity. clearbody offset.
  set (K := moof_content x position offset) in *. assert (LK : zlen moof = 8 + zlen (all_layout K)) by (rewrite Em; apply node_zlen).
  set (Q := traf_content x position offset) in *. set (A := layout (Leaf MFHD (be 4 0 ++ be 4 (o_seq x)))). assert (LA : zlen A = 16) by (unfold A; rewrite leaf_zlen, zlen_app', !be_zlen; reflexivity).
  assert (EK : all_layout K = A ++ layout (Node TRAF Q)) by (unfold K, moof_content; rewrite !all_layout_cons; change (all_layout []) with (@nil Z); rewrite app_nil_r; reflexivity).
  set (C := layout (Leaf TFHD (tfhd_content x position))). set (D := layout (Leaf TFDT (tfdt_content x))). set (I1 := other_boxes (o_inside x)). set (R := layout (Leaf TRUN (trun_content x offset))). set (Z1 := other_boxes (o_after x)).
  assert (EQ : all_layout Q = C ++ D ++ I1 ++ R ++ Z1) by (unfold Q, traf_content; rewrite !all_layout_cons, all_layout_app, all_layout_cons, <- !other_leaves; reflexivity).
  assert (LC : zlen C = 8 + zlen (tfhd_content x position)) by apply leaf_zlen. assert (LD : zlen D = 8 + zlen (tfdt_content x)) by apply leaf_zlen. assert (LR : zlen R = 8 + zlen (trun_content x offset)) by apply leaf_zlen.
  pose proof (zlen_nonneg (tfhd_content x position)). pose proof (zlen_nonneg (tfdt_content x)). pose proof (zlen_nonneg (trun_content x offset)). pose proof (zlen_nonneg I1). pose proof (zlen_nonneg Z1).
  assert (LQ : zlen (all_layout Q) = zlen C + zlen D + zlen I1 + zlen R + zlen Z1) by (rewrite EQ, !zlen_app'; lia). assert (LK2 : zlen (all_layout K) = 16 + (8 + zlen (all_layout Q))) by (rewrite EK, zlen_app', node_zlen; lia).
  replace (7 + length (o_inside x) + (length (o_after x) + fuel))%nat with (S (S (S (S (S (length (o_inside x) + (S (length (o_after x) + S fuel)))))))) by lia.
  rewrite (step_moof f pre (mdat ++ post) m _ Hm K); [|unfold f; rewrite Em, <- !app_assoc; reflexivity|lia|lia].
  set (m1 := with_moof m (zlen pre)). set (M1 := be32 (8 + zlen (all_layout K)) ++ be32 MOOF). assert (Hm1 : m_mdat m1 = 0) by exact Hm.
  assert (Ef1 : f = (pre ++ M1) ++ A ++ layout (Node TRAF Q) ++ mdat ++ post) by (unfold f, M1; rewrite Em, layout_node, EK, <- !app_assoc; reflexivity).
  assert (LM1 : zlen M1 = 8) by (unfold M1; rewrite zlen_app', !be32_zlen; reflexivity). assert (LT : zlen (layout (Node TRAF Q)) = 8 + zlen (all_layout Q)) by apply node_zlen.
  rewrite (step_leaf f (pre ++ M1) (layout (Node TRAF Q) ++ mdat ++ post) m1 _ MFHD (be 4 0 ++ be 4 (o_seq x)) m1); [|exact Ef1|splain|rewrite zlen_app', !be_zlen; reflexivity|rewrite !zlen_app'; lia|exact Hm1|]. 2:{
    transitivity (match get_mfhd f (zlen (pre ++ M1) + 8) with Some (_, p) => Some (m1, p) | None => None end); [reflexivity|]. assert (RR : Reads get_mfhd (be 4 0 ++ be 4 (o_seq x)) (be_val 0 (be 4 (o_seq x)))) by (unfold get_mfhd; eapply reads_bind; [apply reads_any; apply be_length|]; apply reads_any; apply be_length). rewrite Ef1. unfold A. rewrite (leaf_read _ _ _ _ _ _ RR), leaf_zlen. reflexivity. }
  fold A. rewrite (step_traf f ((pre ++ M1) ++ A) (mdat ++ post) m1 _ Hm1 Q); [|rewrite Ef1, <- !app_assoc; reflexivity|lia|lia].
  set (T1 := be32 (8 + zlen (all_layout Q)) ++ be32 TRAF). set (P := ((pre ++ M1) ++ A) ++ T1). assert (LT1 : zlen T1 = 8) by (unfold T1; rewrite zlen_app', !be32_zlen; reflexivity).
  assert (Ef2 : f = P ++ C ++ D ++ I1 ++ R ++ Z1 ++ mdat ++ post) by (rewrite Ef1; unfold P, T1; rewrite layout_node, EQ, <- !app_assoc; reflexivity).
  assert (LP : zlen P = position + 32) by (unfold P; rewrite !zlen_app', LM1, LA, LT1; unfold position; lia).
  change (zlen (((pre ++ M1) ++ A) ++ be32 (8 + zlen (all_layout Q)) ++ be32 TRAF)) with (zlen P). clearbody P.
  (* tfhd *)
  pose proof (reads_tfhd x position (m_default m1) W1 W2 W3 W4 M) as RH. set (df := (match h_dur (o_head x) with Some v => v | None => fst (m_default m1) end, match h_size (o_head x) with Some v => v | None => snd (m_default m1) end)) in *. set (m2 := with_default m1 df). assert (Hm2 : m_mdat m2 = 0) by exact Hm.
  rewrite (step_leaf f P (D ++ I1 ++ R ++ Z1 ++ mdat ++ post) m1 _ TFHD (tfhd_content x position) m2); [|exact Ef2|splain|lia|rewrite !zlen_app'; lia|exact Hm2|]. 2:{
    transitivity (match get_tfhd (m_default m1) f (zlen P + 8) with Some (d, p) => Some (with_default m1 d, p) | None => None end); [reflexivity|]. rewrite Ef2. unfold C. rewrite (leaf_read _ _ _ _ _ _ RH), leaf_zlen. reflexivity. }
  fold C. pose proof (reads_tfdt x T) as RT. set (m3 := with_tfdt m2 (o_base x)). assert (Hm3 : m_mdat m3 = 0) by exact Hm.
  assert (Ef3 : f = (P ++ C) ++ D ++ I1 ++ R ++ Z1 ++ mdat ++ post) by (rewrite Ef2, <- !app_assoc; reflexivity).
  rewrite (step_leaf f (P ++ C) (I1 ++ R ++ Z1 ++ mdat ++ post) m2 _ TFDT (tfdt_content x) m3); [|exact Ef3|splain|lia|rewrite !zlen_app'; lia|exact Hm3|]. 2:{
    transitivity (match get_tfdt f (zlen (P ++ C) + 8) with Some (d, p) => Some (with_tfdt m2 d, p) | None => None end); [reflexivity|]. rewrite Ef3. unfold D. rewrite (leaf_read _ _ _ _ _ _ RT), leaf_zlen. reflexivity. }
  fold D. set (Y := (P ++ C) ++ D). assert (Ef4 : f = Y ++ I1 ++ (R ++ Z1 ++ mdat ++ post)) by (unfold Y; rewrite Ef3, <- !app_assoc; reflexivity).
  rewrite Ef4. unfold I1. rewrite O2; [|rewrite !zlen_app'; lia|exact Hm3]. fold I1. rewrite <- Ef4. change (senced m3 None) with m3.
  assert (Ef5 : f = (Y ++ I1) ++ R ++ Z1 ++ mdat ++ post) by (rewrite Ef4, <- !app_assoc; reflexivity).
  pose proof (reads_trun x offset ltac:(lia) V W5 U N F) as RR. set (tr := mkT (u_version (o_run x)) (trun_flags' (o_run x)) (if u_offset (o_run x) then offset else 0) (map (seen_of (o_run x)) (o_samples x))) in *. set (m4 := with_trun m3 tr). assert (Hm4 : m_mdat m4 = 0) by exact Hm.
  rewrite (step_leaf f (Y ++ I1) (Z1 ++ mdat ++ post) m3 _ TRUN (trun_content x offset) m4); [|exact Ef5|splain|lia|rewrite !zlen_app'; lia|exact Hm4|]. 2:{
    transitivity (match get_trun f (zlen (Y ++ I1) + 8) with Some (d, p) => Some (with_trun m3 d, p) | None => None end); [reflexivity|]. rewrite Ef5. unfold R. rewrite (leaf_read _ _ _ _ _ _ RR), leaf_zlen. reflexivity. }
  fold R. assert (Ef6 : f = ((Y ++ I1) ++ R) ++ Z1 ++ (mdat ++ post)) by (rewrite Ef5, <- !app_assoc; reflexivity).
  rewrite Ef6. unfold Z1. rewrite O3; [|rewrite !zlen_app'; lia|exact Hm4]. fold Z1. rewrite <- Ef6. set (m5 := senced m4 se).
  rewrite (step_mdat f (((Y ++ I1) ++ R) ++ Z1) post m5 _ bodies); [|rewrite <- Ed, Ef6, <- !app_assoc; reflexivity|exact S2].
  assert (LY : zlen (((Y ++ I1) ++ R) ++ Z1) = position + zlen moof) by (unfold Y; rewrite !zlen_app', LP; lia).
  rewrite (zlen_app' _ (layout (Leaf MDAT bodies))), LY, <- Ed. rewrite !zlen_app'. f_equal. f_equal; [|unfold position; lia].
  unfold foreign_read, m5, m4, m3, m2, m1, tr, df. rewrite Lm, Lo. destruct se; unfold senced, with_senc, with_mdat, with_trun, with_tfdt, with_default, with_moof; cbn [m_moof m_mdat m_default m_trun m_tfdt m_senc]; f_equal; lia.
Qed.

(** ** samples and files *)
Lemma sint_mod : forall z, - 2 ^ 31 <= z < 2 ^ 31 -> sint (z mod 2 ^ 32) = z.
Proof. intros z H. exact (sint_u32 (fun _ t => t) z H). Qed.
Definition put_body (s : xsample) (b : list Z) : xsample := mkX b (x_dur s) (x_flags s) (x_cts s).
Definition triple_of (u : run) (t : xsample * list Z) : Z * Z * Z * list Z * list Z := (seen_of u (fst t), x_body (fst t), snd t).
Definition cleared (l : list xsample) (plains : list (list Z)) : list xsample := map (fun t => put_body (fst t) (snd t)) (combine l plains).
Lemma sample_seen : forall x position m se s, sample_fits (o_head x) (o_run x) s -> 0 <= u_version (o_run x) <= 1 -> let M := foreign_read x position m se in
  sample_size M (seen_of (o_run x) s) = zlen (x_body s) /\ sample_cts M (seen_of (o_run x) s) = x_cts s /\ sample_dur M (seen_of (o_run x) s) = x_dur s.
Proof.
  intros x position m se s (D & D' & L & L' & C) V M. destruct (trun_bits (o_run x)) as (_ & _ & B8 & B9 & _ & B11). unfold sample_size, sample_cts, sample_dur, M, foreign_read, seen_of. cbn [m_trun t_flags m_default fst snd]. rewrite B8, B9, B11. split; [|split].
  - destruct (u_size (o_run x)); [reflexivity|]. rewrite (L' eq_refl). reflexivity.
  - destruct (u_cts (o_run x)); [|lia]. apply sint_mod. destruct (u_version (o_run x) =? 1); lia.
  - destruct (u_dur (o_run x)); [unfold sint; rewrite (proj2 (Z.ltb_lt (x_dur s) (2 ^ 31))) by lia; reflexivity|]. rewrite (D' eq_refl). reflexivity.
Qed.
Lemma build_timed : forall x position m se l time, Forall (fun t => sample_fits (o_head x) (o_run x) (fst t)) l -> 0 <= u_version (o_run x) <= 1 -> build (foreign_read x position m se) (map (triple_of (o_run x)) l) time = timed time (map (fun t => put_body (fst t) (snd t)) l).
Proof.
  intros x position m se. induction l as [|[s b] l IH]; intros time F V; [reflexivity|]. pose proof (Forall_inv F) as F1. cbn [fst] in F1. destruct (sample_seen x position m se s F1 V) as (_ & H2 & H3). cbn [map triple_of build timed put_body fst snd x_body x_dur x_cts]. rewrite H2, H3, IH by (exact V || exact (Forall_inv_tail F)). reflexivity.
Qed.
Lemma combine_fst : forall {A B} (a : list A) (b : list B), length a = length b -> map fst (combine a b) = a.
Proof. induction a as [|u a IH]; intros [|v b] L; try discriminate; [reflexivity|]. cbn in *. f_equal. apply IH. lia. Qed.
Lemma take_foreign : forall key x pre post m se plains, fields_ok x -> zlen pre < 2 ^ 62 -> length (o_samples x) = length plains -> let position := zlen pre in let moof := moof_of x position (zlen (moof_of x 0 0) + 8) in let M := foreign_read x position m se in
  (forall j s b, nth_error (o_samples x) j = Some s -> nth_error plains j = Some b -> decode key M j (x_body s) = Some b) ->
  take_samples key (pre ++ (moof ++ a_box [109; 100; 97; 116] (concat (map x_body (o_samples x)))) ++ post) M 0 (t_items (m_trun M)) (base_offset M) (o_base x) = Some (timed (o_base x) (cleared (o_samples x) plains)).
Proof.
  intros key x pre post m se plains (W1 & W2 & W3 & W4 & Mo & T & V & W5 & U & N & S1 & S2 & F) Lp Lpl position moof M De. set (bodies := concat (map x_body (o_samples x))) in *.
  assert (Lm : zlen moof = zlen (moof_of x 0 0)) by apply moof_zlen. set (head := be 4 (8 + zlen bodies) ++ [109; 100; 97; 116]). assert (Lh : zlen head = 8) by (unfold head; rewrite zlen_app', be_zlen; reflexivity).
  assert (Eo : base_offset M = zlen (pre ++ moof ++ head)).
  { unfold base_offset, M, foreign_read. cbn [m_trun t_flags t_offset m_moof m_mdat]. destruct (trun_bits (o_run x)) as (B0 & _). rewrite B0, !zlen_app', Lm, Lh. destruct (u_offset (o_run x)); [|unfold position; lia]. pose proof (zlen_nonneg pre). pose proof (zlen_nonneg (moof_of x 0 0)). rewrite u64_id; unfold position; lia. }
  set (tl := combine (o_samples x) plains). pose proof (combine_fst _ _ Lpl) as Cf. fold tl in Cf.
  assert (Ei : t_items (m_trun M) = map (fun t => fst (fst t)) (map (triple_of (o_run x)) tl)) by (rewrite map_map; transitivity (map (seen_of (o_run x)) (map fst tl)); [rewrite Cf; reflexivity|rewrite map_map; reflexivity]).
  assert (Eb : bodies = concat (map (fun t => snd (fst t)) (map (triple_of (o_run x)) tl))) by (rewrite map_map; transitivity (concat (map x_body (map fst tl))); [rewrite Cf; reflexivity|rewrite map_map; reflexivity]).
  rewrite Eo, Ei. replace (pre ++ (moof ++ a_box [109; 100; 97; 116] bodies) ++ post) with ((pre ++ moof ++ head) ++ bodies ++ post) by (unfold a_box, head; rewrite <- !app_assoc; reflexivity). rewrite Eb. rewrite take_general.
  - f_equal. apply build_timed; [|assumption]. apply Forall_map with (f := fst) (P := sample_fits (o_head x) (o_run x)). rewrite Cf. exact F.
  - intros j i o b Hj. rewrite nth_error_map in Hj. destruct (nth_error tl j) as [[s b']|] eqn:Ej; [|discriminate]. injection Hj as <- <- <-. destruct (nth_error_combine _ _ _ _ _ Ej) as [E1 E2]. destruct (sample_seen x position m se s (proj1 (Forall_forall _ _) F s (nth_error_In _ _ E1)) V) as (H1 & _). split; [exact H1|]. cbn [fst snd Nat.add]. exact (De j s b' E1 E2).
Qed.
Lemma count_others : forall l, 8 * Z.of_nat (length l) <= zlen (other_boxes l).
Proof. induction l as [|[t b] l IH]; [cbn; lia|]. change (other_boxes ((t, b) :: l)) with (layout (Leaf t b) ++ other_boxes l). rewrite zlen_app', leaf_zlen. pose proof (zlen_nonneg b). cbn [length]. lia. Qed.
Lemma parse_foreign : forall x se pre bs post m, others_ok (o_before x) -> fields_ok x -> walks (o_inside x) None -> walks (o_after x) se -> laid_out x (zlen pre) bs -> parse (pre ++ bs ++ post) (zlen pre) m = Some (foreign_read x (zlen (pre ++ other_boxes (o_before x))) m se, zlen (pre ++ bs)).
Proof.
  intros x se pre bs post m O1 O O2 O3 (moof & E1 & E2). assert (Es : zlen moof = zlen (moof_of x 0 0)) by (rewrite E1; apply moof_zlen). rewrite Es, <- zlen_app' in E1. set (P := pre ++ other_boxes (o_before x)) in *.
  set (mdat := a_box [109; 100; 97; 116] (concat (map x_body (o_samples x)))) in *. assert (Ld : 8 <= zlen mdat) by (unfold mdat; rewrite a_box_zlen; change (zlen [109; 100; 97; 116]) with 4; pose proof (zlen_nonneg (concat (map x_body (o_samples x)))); lia).
  pose proof (zlen_nonneg moof) as Lm. pose proof (zlen_nonneg (other_boxes (o_before x))) as Lb. pose proof (zlen_nonneg post). pose proof (zlen_nonneg pre).
  assert (Ef : pre ++ bs ++ post = pre ++ other_boxes (o_before x) ++ ((moof ++ mdat) ++ post)) by (rewrite E2, <- !app_assoc; reflexivity). assert (Ef2 : pre ++ bs ++ post = P ++ (moof ++ mdat) ++ post) by (rewrite Ef; unfold P; rewrite <- !app_assoc; reflexivity).
  unfold parse. replace (zlen (pre ++ bs ++ post) <=? zlen pre) with false by (symmetry; apply Z.leb_gt; rewrite Ef, !zlen_app'; lia). set (m0 := mkMoof (m_moof m) 0 (m_default m) (m_trun m) (m_tfdt m) (m_senc m)).
  change (walk (S (length (pre ++ bs ++ post))) (pre ++ bs ++ post) (zlen pre) m0 = Some (foreign_read x (zlen P) m se, zlen (pre ++ bs))).
  assert (Lmo : zlen (other_boxes (o_inside x)) + zlen (other_boxes (o_after x)) + 40 <= zlen moof). { rewrite E1. unfold moof_of, mfhd_of, tfdt_of, tfhd_of, trun_of. repeat (rewrite ?a_box_zlen, ?zlen_app', ?be_zlen). repeat match goal with |- context [zlen (if ?b then ?u else ?v)] => let q := fresh in pose proof (zlen_nonneg (if b then u else v)) as q; set (zlen (if b then u else v)) in * end. repeat match goal with |- context [zlen (opt ?n ?o)] => let q := fresh in pose proof (zlen_nonneg (opt n o)) as q; set (zlen (opt n o)) in * end. match goal with |- context [zlen (concat ?l)] => pose proof (zlen_nonneg (concat l)) end. change (zlen [109; 111; 111; 102]) with 4. change (zlen [116; 114; 97; 102]) with 4. change (zlen [116; 102; 104; 100]) with 4. change (zlen [116; 102; 100; 116]) with 4. change (zlen [116; 114; 117; 110]) with 4. change (zlen [109; 102; 104; 100]) with 4. lia. }
  pose proof (count_others (o_before x)) as C1. pose proof (count_others (o_inside x)) as C2. pose proof (count_others (o_after x)) as C3.
  assert (Hfu : exists fu, S (length (pre ++ bs ++ post)) = (length (o_before x) + (7 + length (o_inside x) + (length (o_after x) + fu)))%nat).
  { exists (S (length (pre ++ bs ++ post)) - (length (o_before x) + (7 + length (o_inside x) + length (o_after x))))%nat. assert (zlen (pre ++ bs ++ post) = zlen pre + zlen (other_boxes (o_before x)) + zlen moof + zlen mdat + zlen post) by (rewrite Ef, !zlen_app'; lia). unfold zlen in *. lia. }
  destruct Hfu as (fu & ->). rewrite Ef. rewrite walk_others; [|exact O1|rewrite !zlen_app'; lia|reflexivity]. rewrite <- Ef. fold P. rewrite Ef2, E1. unfold mdat. rewrite (walk_foreign x se); [|exact O|exact O2|exact O3|reflexivity]. f_equal. f_equal.
  rewrite <- E1. fold mdat. rewrite E2. unfold P. rewrite !zlen_app'. lia.
Qed.
Lemma boxes_other : forall l, others_ok l -> boxes (other_boxes l) l.
Proof.
  induction l as [|[t b] l IH]; intros F; [constructor|]. destruct (Forall_inv F) as (P & N & L). cbn [fst snd] in *. change (other_boxes ((t, b) :: l)) with ((be 4 (8 + zlen b) ++ be 4 t ++ b) ++ other_boxes l). rewrite <- !app_assoc. pose proof (zlen_nonneg b).
  assert (Et : be_val 0 (be 4 t) = t) by (apply be_val_be; change (256 ^ Z.of_nat 4) with (2 ^ 32); lia). rewrite <- Et at 2. apply boxes_cons; [apply be_length|apply be_length|apply be_val_be; change (256 ^ Z.of_nat 4) with (2 ^ 32); lia|apply IH; exact (Forall_inv_tail F)].
Qed.
Lemma bytes_at_least : forall x start bs, laid_out x start bs -> 8 <= zlen bs.
Proof. intros x start bs (moof & _ & ->). rewrite !zlen_app', a_box_zlen. pose proof (zlen_nonneg (other_boxes (o_before x))). pose proof (zlen_nonneg moof). pose proof (zlen_nonneg (concat (map x_body (o_samples x)))). change (zlen [109; 100; 97; 116]) with 4. lia. Qed.
Definition good (key : option (list Z -> list Z)) (x : foreign) (plains : list (list Z)) : Prop :=
  others_ok (o_before x) /\ fields_ok x /\ walks (o_inside x) None /\ exists se, walks (o_after x) se /\ length (o_samples x) = length plains
  /\ forall j s b, nth_error (o_samples x) j = Some s -> nth_error plains j = Some b -> forall M, m_senc M = match se with Some l => Some l | None => m_senc M end -> decode key M j (x_body s) = Some b.
Lemma read_foreign : forall start l f, foreign_file start l f -> forall key plains, Forall2 (good key) l plains -> forall pre m fuel, start = zlen pre -> zlen (pre ++ f) < 2 ^ 60 -> (length l < fuel)%nat ->
  read_fragments fuel key (pre ++ f) start m = Some (map (fun t => timed (o_base (fst t)) (cleared (o_samples (fst t)) (snd t))) (combine l plains)).
Proof.
  intros start l f H. induction H as [start l H|start x l bs rest H1 H2 IH]; intros key plains F pre m fuel -> L Lf; (destruct fuel as [|fuel]; [lia|]); cbn [read_fragments].
  - inversion F; subst. cbn [combine map]. unfold parse. destruct (zlen (pre ++ other_boxes l) <=? zlen pre) eqn:E; [reflexivity|]. set (m0 := mkMoof (m_moof m) 0 (m_default m) (m_trun m) (m_tfdt m) (m_senc m)).
    destruct (walk_unknown l (other_boxes l) (boxes_other l H)) with (pre := pre) (m := m0) (fuel := S (length (pre ++ other_boxes l))) as (p & W).
    + eapply Forall_impl; [|exact H]. intros b (_ & N & _). exact N.
    + intros E'. rewrite E', app_nil_r in E. apply Z.leb_gt in E. lia.
    + reflexivity.
    + exact L.
    + pose proof (boxes_count _ _ (boxes_other l H)). rewrite app_length. lia.
    + unfold walk in W. rewrite W. reflexivity.
  - inversion F as [|x' pl l' plains' G F' Ex Ey]; subst. clear F. cbn [combine map fst snd]. destruct G as (O1 & O & O2 & se & O3 & Lpl & De). rewrite (parse_foreign x se pre bs rest m O1 O O2 O3 H1). pose proof (zlen_nonneg pre). pose proof (zlen_nonneg (other_boxes (o_before x))). set (P := pre ++ other_boxes (o_before x)). set (M := foreign_read x (zlen P) m se).
    assert (Emd : (m_mdat M =? 0) = false) by (apply Z.eqb_neq; unfold M, foreign_read; cbn [m_mdat]; pose proof (zlen_nonneg (moof_of x 0 0)); pose proof (zlen_nonneg P); lia). rewrite Emd.
    assert (Eb : m_tfdt M = Some (o_base x)) by reflexivity. rewrite Eb. assert (Hb : s64 (o_base x) = o_base x) by (destruct O as (_ & _ & _ & _ & _ & T & _); unfold s64; rewrite (proj2 (Z.ltb_lt (o_base x) (2 ^ 63))) by lia; reflexivity). rewrite Hb.
    destruct H1 as (moof & E1 & E2). assert (Es : zlen moof = zlen (moof_of x 0 0)) by (rewrite E1; apply moof_zlen). rewrite Es, <- zlen_app' in E1. fold P in E1.
    assert (Ef : pre ++ bs ++ rest = P ++ (moof ++ a_box [109; 100; 97; 116] (concat (map x_body (o_samples x)))) ++ rest) by (rewrite E2; unfold P; rewrite <- !app_assoc; reflexivity).
    assert (LP : zlen P < 2 ^ 62). { assert (zlen P <= zlen (pre ++ bs ++ rest)) by (rewrite Ef, (zlen_app' P); pose proof (zlen_nonneg ((moof ++ a_box [109; 100; 97; 116] (concat (map x_body (o_samples x)))) ++ rest)); lia). lia. }
    assert (Tk : take_samples key (pre ++ bs ++ rest) M 0 (t_items (m_trun M)) (base_offset M) (o_base x) = Some (timed (o_base x) (cleared (o_samples x) pl))) by (rewrite Ef, E1; apply take_foreign; [exact O|exact LP|exact Lpl|]; intros j s b Hs Hb'; apply (De j s b Hs Hb'); destruct se; reflexivity). rewrite Tk.
    rewrite app_assoc in L |- *. rewrite (zlen_app' pre bs). rewrite (IH key plains' F' (pre ++ bs) M fuel); [reflexivity|rewrite zlen_app'; reflexivity|exact L|cbn [length] in Lf; lia].
Qed.
Lemma foreign_count : forall start l f, foreign_file start l f -> (length l <= length f)%nat.
Proof. intros start l f H. induction H as [|start x l bs rest H1 H2 IH]; [cbn; lia|]. cbn [length]. rewrite app_length. pose proof (bytes_at_least _ _ _ H1). unfold zlen in *. lia. Qed.
Lemma foreign_read_general : forall key l f plains, foreign_file 0 l f -> Forall2 (good key) l plains -> zlen f < 2 ^ 60 -> read_file key f = Some (map (fun t => timed (o_base (fst t)) (cleared (o_samples (fst t)) (snd t))) (combine l plains)).
Proof. intros key l f plains H F L. unfold read_file. apply (read_foreign 0 l f H key plains F [] moof0); [reflexivity|exact L|]. pose proof (foreign_count _ _ _ H). lia. Qed.
Lemma cleared_self : forall l, cleared l (map x_body l) = l.
Proof. induction l as [|[b d fl c] l IH]; [reflexivity|]. unfold cleared in *. cbn [map combine fst snd put_body x_body x_dur x_flags x_cts]. rewrite IH. reflexivity. Qed.
Lemma foreign_read_file : forall l f, foreign_file 0 l f -> Forall foreign_ok l -> zlen f < 2 ^ 60 -> read_file None f = Some (map (fun x => timed (o_base x) (o_samples x)) l).
Proof.
  intros l f H F L. rewrite (foreign_read_general None l f (map (fun x => map x_body (o_samples x)) l) H); [|clear H L|exact L].
  - f_equal. clear. induction l as [|x l IH]; [reflexivity|]. cbn [map combine fst snd]. rewrite cleared_self, IH. reflexivity.
  - induction F as [|x l (H1 & H2 & H3 & H4) F IH]; [constructor|]. cbn [map]. constructor; [|exact IH]. split; [exact H1|]. split; [exact H4|]. split; [apply others_walks; exact H2|]. exists None. split; [apply others_walks; exact H3|]. split; [rewrite map_length; reflexivity|].
    intros j s b Hs Hb M _. rewrite nth_error_map, Hs in Hb. injection Hb as <-. reflexivity.
Qed.
