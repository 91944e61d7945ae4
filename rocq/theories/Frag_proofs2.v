(** Proofs about Frag_model: reading fragments. *)
From Coq Require Import ZifyNat.
From Verif Require Import Util SampleTab_model SampleTab_proofs HlsCrypt_model Box_model Box_proofs Cenc_model Cenc_proofs Frag_model Frag_proofs.
Local Open Scope Z_scope.
Local Ltac Zify.zify_post_hook ::= Z.div_mod_to_equations.
Opaque be.

(** ** Fields *)
Definition Reads {A} (m : rdr A) (bs : list Z) (x : A) : Prop := forall pre post, m (pre ++ bs ++ post) (zlen pre) = Some (x, zlen pre + zlen bs).
Lemma reads_ret : forall {A} (x : A), Reads (rret x) [] x. Proof. intros A x pre post. unfold rret. change (zlen (@nil Z)) with 0. rewrite Z.add_0_r. reflexivity. Qed.
Lemma reads_bind : forall {A B} (m : rdr A) (k : A -> rdr B) a b x y, Reads m a x -> Reads (k x) b y -> Reads (rbind m k) (a ++ b) y.
Proof. intros A B m k a b x y H1 H2 pre post. unfold rbind. rewrite <- app_assoc. rewrite H1. specialize (H2 (pre ++ a) post). rewrite <- app_assoc in H2. rewrite zlen_app' in H2. rewrite H2. rewrite zlen_app'. do 2 f_equal. lia. Qed.
Lemma reads_any : forall n bs, length bs = n -> Reads (rnum n) bs (be_val 0 bs).
Proof. intros n bs L pre post. unfold rnum, num_at. rewrite <- L. rewrite bytes_at_app. reflexivity. Qed.
Lemma reads_num : forall n v, 0 <= v < 256 ^ Z.of_nat n -> Reads (rnum n) (be n v) v.
Proof. intros n v H. pose proof (reads_any n (be n v) (be_length n v)) as R. rewrite be_val_be in R by exact H. exact R. Qed.
Lemma reads_bytes : forall n bs, length bs = n -> Reads (rbytes n) bs bs.
Proof. intros n bs L pre post. unfold rbytes. rewrite <- L, bytes_at_app. reflexivity. Qed.
Lemma reads_rep : forall {A} (m : rdr A) l xs, Forall2 (Reads m) l xs -> Reads (rrep (length xs) m) (concat l) xs.
Proof. intros A m l xs H. induction H as [|b x l xs H F IH]; [apply reads_ret|]. cbn [length rrep concat]. apply (reads_bind _ _ _ _ x); [exact H|]. rewrite <- (app_nil_r (concat l)). eapply reads_bind; [exact IH|]. apply reads_ret. Qed.
Lemma reads_rif0 : forall m d, Reads (rif false m d) [] d. Proof. intros. apply reads_ret. Qed.
Lemma reads_eq : forall {A} (m : rdr A) bs bs' x, Reads m bs x -> bs = bs' -> Reads m bs' x. Proof. intros. subst. assumption. Qed.
Ltac rb x := apply (reads_bind _ _ _ _ x).
Ltac any32 := apply reads_any; apply be32_length.

Lemma read_mfhd : forall st, exists v, Reads get_mfhd (mfhd_body st) v.
Proof. intros. eexists. unfold get_mfhd, mfhd_body. eapply reads_bind; [apply reads_any; unfold full; rewrite app_length, !be_length; reflexivity|]. any32. Qed.
Lemma read_tfhd : forall d0 st, Reads (get_tfhd d0) (tfhd_body st) d0.
Proof.
  intros [d s] st. unfold get_tfhd, tfhd_body, full. rewrite <- app_assoc. eapply reads_bind; [apply (reads_num 1 0); cbn; lia|]. eapply reads_bind; [apply (reads_num 3 0); cbn; lia|]. rewrite <- (app_nil_r (be32 (track st))). eapply reads_bind; [any32|]. change (Z.testbit 0 0) with false. change (Z.testbit 0 1) with false. change (Z.testbit 0 3) with false. change (Z.testbit 0 4) with false. change (Z.testbit 0 5) with false. intros pre post. unfold rif, rbind, rret. cbn [fst snd]. change (zlen (@nil Z)) with 0. rewrite Z.add_0_r. reflexivity.
Qed.
Lemma read_tfdt : forall base, 0 <= base < 2 ^ 64 -> Reads get_tfdt (tfdt_body base) base.
Proof.
  intros base H. unfold get_tfdt, tfdt_body, full. rewrite <- app_assoc. eapply reads_bind; [apply (reads_num 1 1); cbn; lia|]. eapply reads_bind; [apply (reads_num 3 0); cbn; lia|]. change (1 =? 1) with true. cbv iota. assert (E : be32 (base / 2 ^ 32) ++ be32 (u32 base) = be 8 base). { change 8%nat with (4 + 4)%nat. rewrite be_app. change (256 ^ Z.of_nat 4) with (2 ^ 32). f_equal. unfold u32. change (2 ^ 32) with (256 ^ Z.of_nat 4). exact (be_mod 4 base). }
  rewrite E. apply reads_num. exact H.
Qed.
Lemma reads_num32 : forall v, 0 <= v < 2 ^ 32 -> Reads (rnum 4) (be32 v) v. Proof. intros. apply reads_num. exact H. Qed.
Definition item32 (i : Z * Z * Z) : Prop := 0 <= fst (fst i) < 2 ^ 32 /\ 0 <= snd (fst i) < 2 ^ 32 /\ 0 <= snd i < 2 ^ 32.
Lemma item_of_32 : forall scale ts s, item32 (item_of scale ts s). Proof. intros. unfold item_of, item32. cbn [fst snd]. unfold u32. repeat split; try apply Z.mod_pos_bound; lia. Qed.
(** without composition offsets nothing is written for them and 0 is read *)
Definition item_seen (video : bool) (i : Z * Z * Z) : Z * Z * Z := let '(d, s, c) := i in (d, s, if video then c else 0).
Lemma flags_v : forall st, trun_flags st = if 0 <? first_flags st then 2821 else 769. Proof. intros. unfold trun_flags. destruct (0 <? first_flags st); reflexivity. Qed.
Lemma read_item : forall fl i, fl = 2821 \/ fl = 769 -> item32 i -> Reads (get_trun_item fl) (trun_item fl i) (item_seen (fl =? 2821) i).
Proof.
  intros fl [[d s] c] Hf (H1 & H2 & H3). cbn [fst snd] in *. unfold get_trun_item, trun_item. destruct Hf as [-> | ->].
  - change (Z.testbit 2821 8) with true. change (Z.testbit 2821 9) with true. change (Z.testbit 2821 10) with false. change (Z.testbit 2821 11) with true. cbv iota. unfold rif. eapply reads_bind; [apply reads_num32; exact H1|]. eapply reads_bind; [apply reads_num32; exact H2|]. rewrite <- (app_nil_l (be32 c)). eapply reads_bind; [apply reads_ret|]. rewrite <- (app_nil_r (be32 c)). eapply reads_bind; [apply reads_num32; exact H3|]. apply reads_ret.
  - change (Z.testbit 769 8) with true. change (Z.testbit 769 9) with true. change (Z.testbit 769 10) with false. change (Z.testbit 769 11) with false. cbv iota. unfold rif. eapply reads_bind; [apply reads_num32; exact H1|]. eapply reads_bind; [apply reads_num32; exact H2|]. rewrite <- (app_nil_l (@nil Z)). eapply reads_bind; [apply reads_ret|]. rewrite <- (app_nil_l (@nil Z)). eapply reads_bind; [apply reads_ret|]. apply reads_ret.
Qed.
Lemma read_items : forall fl l, fl = 2821 \/ fl = 769 -> Forall item32 l -> Reads (rrep (length l) (get_trun_item fl)) (concat (map (trun_item fl) l)) (map (item_seen (fl =? 2821)) l).
Proof.
  intros fl l Hf F. rewrite <- (map_length (item_seen (fl =? 2821)) l). apply reads_rep. induction F as [|i l H F IH]; [constructor|]. cbn [map]. constructor; [apply read_item; assumption|exact IH].
Qed.
Lemma read_trun : forall st l, Forall item32 l -> zlen l < 2 ^ 32 -> 0 <= g2 st < 2 ^ 31 -> Reads get_trun (trun_body st l) (mkT 1 (trun_flags st) (g2 st) (map (item_seen (0 <? first_flags st)) l)).
Proof.
  intros st l F L G. unfold get_trun, trun_body, full. rewrite <- app_assoc. eapply reads_bind; [apply (reads_num 1 1); cbn; lia|]. assert (Hf : trun_flags st = 2821 \/ trun_flags st = 769) by (rewrite flags_v; destruct (0 <? first_flags st); [left|right]; reflexivity). assert (Ev : (0 <? first_flags st) = (trun_flags st =? 2821)) by (rewrite flags_v; destruct (0 <? first_flags st); reflexivity).
  eapply reads_bind; [apply (reads_num 3); change (256 ^ Z.of_nat 3) with 16777216; destruct Hf; lia|]. eapply reads_bind; [apply reads_num32; unfold zlen in L; lia|].
  assert (B0 : Z.testbit (trun_flags st) 0 = true) by (destruct Hf as [-> | ->]; reflexivity). rewrite B0. unfold rif at 1. eapply reads_bind; [apply reads_num32; lia|].
  apply (reads_bind _ _ _ _ (if Z.testbit (trun_flags st) 2 then be_val 0 (be32 (first_flags st)) else 0)); [unfold rif; destruct (Z.testbit (trun_flags st) 2); [any32|apply reads_ret]|].
  rewrite <- (app_nil_r (concat _)). eapply reads_bind; [rewrite Nat2Z.id; apply read_items; assumption|]. rewrite Ev. unfold sint. rewrite (proj2 (Z.ltb_lt (g2 st) (2 ^ 31))) by lia. apply reads_ret.
Qed.
Lemma read_saiz : forall n, exists v, Reads get_saiz (saiz_body n) v.
Proof.
  intros. eexists. unfold get_saiz, saiz_body, full. rewrite <- app_assoc. eapply reads_bind; [apply (reads_num 1 0); cbn; lia|]. eapply reads_bind; [apply (reads_num 3 0); cbn; lia|]. change (Z.testbit 0 0) with false. unfold rif. rewrite <- (app_nil_l (be 1 16 ++ _)). eapply reads_bind; [apply reads_ret|]. eapply reads_bind; [apply (reads_num 1 16); cbn; lia|]. change (16 =? 0) with false. cbv iota. rewrite <- (app_nil_r (be32 n)). eapply reads_bind; [any32|]. rewrite <- (app_nil_l (@nil Z)). eapply reads_bind; [apply reads_ret|]. apply reads_ret.
Qed.
Lemma read_saio : forall o, exists v, Reads get_saio (saio_body o) v.
Proof.
  intros. eexists. unfold get_saio, saio_body, full. rewrite <- app_assoc. eapply reads_bind; [apply (reads_num 1 0); cbn; lia|]. eapply reads_bind; [apply (reads_num 3 0); cbn; lia|]. change (Z.testbit 0 0) with false. unfold rif. rewrite <- (app_nil_l (be32 1 ++ _)). eapply reads_bind; [apply reads_ret|]. eapply reads_bind; [apply reads_num32; lia|]. change (Z.to_nat 1) with 1%nat. change (negb (0 =? 0)) with false. cbv iota. cbn [rrep].
  rewrite <- (app_nil_r (be32 (u32 o))). eapply reads_bind; [rewrite <- (app_nil_r (be32 (u32 o))); eapply reads_bind; [any32|]; rewrite <- (app_nil_l (@nil Z)); eapply reads_bind; [apply reads_ret|]; apply reads_ret|]. rewrite <- (app_nil_l (@nil Z)). eapply reads_bind; [apply reads_ret|]. apply reads_ret.
Qed.
Definition entry_ok (e : entry) : Prop := length (e_iv e) = 8%nat /\ 0 <= e_clear e < 2 ^ 16 /\ 0 <= e_protected e < 2 ^ 32.
Lemma read_entry : forall e, entry_ok e -> Reads (get_single 2) (senc_entry e) (e_iv e, [(e_clear e, e_protected e)]).
Proof.
  intros e (H1 & H2 & H3). unfold get_single, senc_entry. eapply reads_bind; [apply reads_bytes; exact H1|]. change (Z.testbit 2 1) with true. cbv iota. rewrite <- (app_nil_r (be 2 1 ++ _)). eapply reads_bind; [|apply reads_ret]. eapply reads_bind; [apply (reads_num 2 1); cbn; lia|]. change (Z.to_nat 1) with 1%nat. cbn [rrep]. rewrite <- (app_nil_r (be 2 (e_clear e) ++ _)). eapply reads_bind; [eapply reads_bind; [apply reads_num; exact H2|]; rewrite <- (app_nil_r (be32 (e_protected e))); eapply reads_bind; [apply reads_num32; exact H3|]; apply reads_ret|]. rewrite <- (app_nil_l (@nil Z)). eapply reads_bind; [apply reads_ret|]. apply reads_ret.
Qed.
Lemma read_senc : forall l, Forall entry_ok l -> zlen l < 2 ^ 32 -> Reads get_senc (senc_body l) (map (fun e => (e_iv e, [(e_clear e, e_protected e)])) l).
Proof.
  intros l F L. unfold get_senc, senc_body, full. rewrite <- app_assoc. eapply reads_bind; [apply (reads_num 1 0); cbn; lia|]. eapply reads_bind; [apply (reads_num 3 2); cbn; lia|]. eapply reads_bind; [apply reads_num32; unfold zlen in L; lia|]. rewrite Nat2Z.id. rewrite <- (map_length (fun e => (e_iv e, [(e_clear e, e_protected e)])) l). apply reads_rep. clear L. induction F as [|e l H F IH]; [constructor|]. cbn [map]. constructor; [apply read_entry; exact H|exact IH].
Qed.
(** ** Boxes *)
Definition walk (fuel : nat) (f : list Z) (p : Z) (m : moof) : option (moof * Z) := match do_box f p with Some b => parse_boxes fuel f b m | None => None end.
Lemma step : forall fuel f p m b m' p', do_box f p = Some b -> handle_box f b m = Some (m', p') -> p' < zlen f -> m_mdat m' = 0 -> walk (S fuel) f p m = walk fuel f p' m'.
Proof. intros fuel f p m b m' p' H1 H2 H3 H4. unfold walk. rewrite H1. cbn [parse_boxes]. rewrite H2, H4. rewrite (proj2 (Z.ltb_lt _ _) H3). reflexivity. Qed.
Lemma step_last : forall fuel f p m b m' p', do_box f p = Some b -> handle_box f b m = Some (m', p') -> m_mdat m' <> 0 -> walk (S fuel) f p m = Some (m', p').
Proof. intros fuel f p m b m' p' H1 H2 H4. unfold walk. rewrite H1. cbn [parse_boxes]. rewrite H2. rewrite (proj2 (Z.eqb_neq _ _) H4). rewrite andb_false_r. reflexivity. Qed.
Definition plain (t : Z) : Prop := 0 <= t < 2 ^ 32 /\ t <> uuid.
Lemma leaf_at : forall pre t body post, plain t -> 8 + zlen body < 2 ^ 32 -> do_box (pre ++ layout (Leaf t body) ++ post) (zlen pre) = Some (mkR (zlen pre + 8) (zlen pre) (8 + zlen body) t).
Proof. intros pre t body post [H1 H2] H3. rewrite layout_leaf. apply do_box_plain; assumption. Qed.
Lemma node_at : forall pre t kids post, plain t -> 8 + zlen (all_layout kids) < 2 ^ 32 -> do_box (pre ++ layout (Node t kids) ++ post) (zlen pre) = Some (mkR (zlen pre + 8) (zlen pre) (8 + zlen (all_layout kids)) t).
Proof. intros pre t kids post [H1 H2] H3. rewrite layout_node. apply do_box_plain; assumption. Qed.
(** a leaf read by [get] *)
Lemma leaf_read : forall {A} (get : rdr A) pre t body post x, Reads get body x -> get (pre ++ layout (Leaf t body) ++ post) (zlen pre + 8) = Some (x, zlen pre + zlen (layout (Leaf t body))).
Proof.
  intros A get pre t body post x H. specialize (H (pre ++ be32 (8 + zlen body) ++ be32 t) post). rewrite !zlen_app', !be32_zlen in H. rewrite leaf_zlen. rewrite layout_leaf. rewrite <- !app_assoc in H |- *. replace (zlen pre + 8) with (zlen pre + (4 + 4)) by lia. rewrite H. do 2 f_equal. lia.
Qed.
Lemma ne_type : forall f b m, r_type b = STYP \/ r_type b = SIDX -> handle_box f b m = Some (m, skip_current b).
Proof. intros f b m [H | H]; unfold handle_box; rewrite H; reflexivity. Qed.
Definition with_moof m p := mkMoof p (m_mdat m) (m_default m) (m_trun m) (m_tfdt m) (m_senc m).
Definition with_mdat m p := mkMoof (m_moof m) p (m_default m) (m_trun m) (m_tfdt m) (m_senc m).
Definition with_default m p := mkMoof (m_moof m) (m_mdat m) p (m_trun m) (m_tfdt m) (m_senc m).
Definition with_trun m p := mkMoof (m_moof m) (m_mdat m) (m_default m) p (m_tfdt m) (m_senc m).
Definition with_tfdt m p := mkMoof (m_moof m) (m_mdat m) (m_default m) (m_trun m) (Some p) (m_senc m).
Definition with_senc m p := mkMoof (m_moof m) (m_mdat m) (m_default m) (m_trun m) (m_tfdt m) (Some p).
Ltac splain := unfold plain; split; [vm_compute; split; congruence|vm_compute; congruence].
Section Steps.
Variables (f pre post : list Z) (m : moof) (fuel : nat).
Hypothesis Hm : m_mdat m = 0.
Lemma step_skip : forall t body, t = STYP \/ t = SIDX -> f = pre ++ layout (Leaf t body) ++ post -> 8 + zlen body < 2 ^ 32 -> 0 < zlen post -> walk (S fuel) f (zlen pre) m = walk fuel f (zlen (pre ++ layout (Leaf t body))) m.
Proof.
  intros t body Ht Hf L Lp. eapply step; [rewrite Hf; apply leaf_at; [destruct Ht; subst t; splain|exact L]| | |exact Hm].
  - rewrite ne_type by (cbn; exact Ht). f_equal. f_equal. rewrite skip_current_ok by (cbn [r_size]; pose proof (zlen_nonneg body); lia). cbn [r_pos r_size]. rewrite zlen_app', leaf_zlen. lia.
  - rewrite Hf, !zlen_app'. lia.
Qed.
Lemma step_mfhd : forall st, f = pre ++ layout (Leaf MFHD (mfhd_body st)) ++ post -> 0 < zlen post -> walk (S fuel) f (zlen pre) m = walk fuel f (zlen (pre ++ layout (Leaf MFHD (mfhd_body st)))) m.
Proof.
  intros st Hf Lp. destruct (read_mfhd st) as (v & R). eapply step; [rewrite Hf; apply leaf_at; [splain|unfold mfhd_body, full; rewrite !zlen_app', !be_zlen, !be32_zlen; lia]| | |exact Hm].
  - transitivity (match get_mfhd f (zlen pre + 8) with Some (_, p) => Some (m, p) | None => None end); [reflexivity|]. rewrite Hf, (leaf_read _ _ _ _ _ _ R), (zlen_app' pre). reflexivity.
  - rewrite Hf, !zlen_app'. lia.
Qed.
Lemma step_tfhd : forall st, f = pre ++ layout (Leaf TFHD (tfhd_body st)) ++ post -> 0 < zlen post -> walk (S fuel) f (zlen pre) m = walk fuel f (zlen (pre ++ layout (Leaf TFHD (tfhd_body st)))) m.
Proof.
  intros st Hf Lp. pose proof (read_tfhd (m_default m) st) as R. eapply step; [rewrite Hf; apply leaf_at; [splain|unfold tfhd_body, full; rewrite !zlen_app', !be_zlen, !be32_zlen; lia]| | |exact Hm].
  - transitivity (match get_tfhd (m_default m) f (zlen pre + 8) with Some (d, p) => Some (with_default m d, p) | None => None end); [reflexivity|]. rewrite Hf, (leaf_read _ _ _ _ _ _ R), (zlen_app' pre). destruct m; reflexivity.
  - rewrite Hf, !zlen_app'. lia.
Qed.
Lemma step_tfdt : forall base, 0 <= base < 2 ^ 64 -> f = pre ++ layout (Leaf TFDT (tfdt_body base)) ++ post -> 0 < zlen post -> walk (S fuel) f (zlen pre) m = walk fuel f (zlen (pre ++ layout (Leaf TFDT (tfdt_body base)))) (with_tfdt m base).
Proof.
  intros base Hb Hf Lp. pose proof (read_tfdt base Hb) as R. eapply step; [rewrite Hf; apply leaf_at; [splain|unfold tfdt_body, full; rewrite !zlen_app', !be_zlen, !be32_zlen; lia]| | |exact Hm].
  - transitivity (match get_tfdt f (zlen pre + 8) with Some (d, p) => Some (with_tfdt m d, p) | None => None end); [reflexivity|]. rewrite Hf, (leaf_read _ _ _ _ _ _ R), (zlen_app' pre). reflexivity.
  - rewrite Hf, !zlen_app'. lia.
Qed.
Lemma step_trun : forall st l, Forall item32 l -> zlen l < 2 ^ 32 -> 0 <= g2 st < 2 ^ 31 -> 8 + zlen (trun_body st l) < 2 ^ 32 -> f = pre ++ layout (Leaf TRUN (trun_body st l)) ++ post -> 0 < zlen post -> walk (S fuel) f (zlen pre) m = walk fuel f (zlen (pre ++ layout (Leaf TRUN (trun_body st l)))) (with_trun m (mkT 1 (trun_flags st) (g2 st) (map (item_seen (0 <? first_flags st)) l))).
Proof.
  intros st l F L G B Hf Lp. pose proof (read_trun st l F L G) as R. eapply step; [rewrite Hf; apply leaf_at; [splain|exact B]| | |exact Hm].
  - transitivity (match get_trun f (zlen pre + 8) with Some (d, p) => Some (with_trun m d, p) | None => None end); [reflexivity|]. rewrite Hf, (leaf_read _ _ _ _ _ _ R), (zlen_app' pre). reflexivity.
  - rewrite Hf, !zlen_app'. lia.
Qed.
Lemma step_saiz : forall n, f = pre ++ layout (Leaf SAIZ (saiz_body n)) ++ post -> 0 < zlen post -> walk (S fuel) f (zlen pre) m = walk fuel f (zlen (pre ++ layout (Leaf SAIZ (saiz_body n)))) m.
Proof.
  intros n Hf Lp. destruct (read_saiz n) as (v & R). eapply step; [rewrite Hf; apply leaf_at; [splain|unfold saiz_body, full; rewrite !zlen_app', !be_zlen, !be32_zlen; lia]| | |exact Hm].
  - transitivity (match get_saiz f (zlen pre + 8) with Some (_, p) => Some (m, p) | None => None end); [reflexivity|]. rewrite Hf, (leaf_read _ _ _ _ _ _ R), (zlen_app' pre). reflexivity.
  - rewrite Hf, !zlen_app'. lia.
Qed.
Lemma step_saio : forall n, f = pre ++ layout (Leaf SAIO (saio_body n)) ++ post -> 0 < zlen post -> walk (S fuel) f (zlen pre) m = walk fuel f (zlen (pre ++ layout (Leaf SAIO (saio_body n)))) m.
Proof.
  intros n Hf Lp. destruct (read_saio n) as (v & R). eapply step; [rewrite Hf; apply leaf_at; [splain|unfold saio_body, full; rewrite !zlen_app', !be_zlen, !be32_zlen; lia]| | |exact Hm].
  - transitivity (match get_saio f (zlen pre + 8) with Some (_, p) => Some (m, p) | None => None end); [reflexivity|]. rewrite Hf, (leaf_read _ _ _ _ _ _ R), (zlen_app' pre). reflexivity.
  - rewrite Hf, !zlen_app'. lia.
Qed.
Lemma step_senc : forall l, Forall entry_ok l -> zlen l < 2 ^ 32 -> 8 + zlen (senc_body l) < 2 ^ 32 -> f = pre ++ layout (Leaf SENC (senc_body l)) ++ post -> 0 < zlen post -> walk (S fuel) f (zlen pre) m = walk fuel f (zlen (pre ++ layout (Leaf SENC (senc_body l)))) (with_senc m (map (fun e => (e_iv e, [(e_clear e, e_protected e)])) l)).
Proof.
  intros l F L B Hf Lp. pose proof (read_senc l F L) as R. eapply step; [rewrite Hf; apply leaf_at; [splain|exact B]| | |exact Hm].
  - transitivity (match get_senc f (zlen pre + 8) with Some (d, p) => Some (with_senc m d, p) | None => None end); [reflexivity|]. rewrite Hf, (leaf_read _ _ _ _ _ _ R), (zlen_app' pre). reflexivity.
  - rewrite Hf, !zlen_app'. lia.
Qed.
Lemma step_moof : forall kids, f = pre ++ layout (Node MOOF kids) ++ post -> 8 + zlen (all_layout kids) < 2 ^ 32 -> 0 < zlen (all_layout kids) -> walk (S fuel) f (zlen pre) m = walk fuel f (zlen (pre ++ be32 (8 + zlen (all_layout kids)) ++ be32 MOOF)) (with_moof m (zlen pre)).
Proof.
  intros kids Hf B Lp. eapply step; [rewrite Hf; apply node_at; [splain|exact B]| | |exact Hm].
  - transitivity (Some (with_moof m (zlen pre), zlen pre + 8)); [reflexivity|]. rewrite !zlen_app', !be32_zlen. reflexivity.
  - rewrite Hf, layout_node, !zlen_app', !be32_zlen. pose proof (zlen_nonneg post). lia.
Qed.
Lemma step_traf : forall kids, f = pre ++ layout (Node TRAF kids) ++ post -> 8 + zlen (all_layout kids) < 2 ^ 32 -> 0 < zlen (all_layout kids) -> walk (S fuel) f (zlen pre) m = walk fuel f (zlen (pre ++ be32 (8 + zlen (all_layout kids)) ++ be32 TRAF)) m.
Proof.
  intros kids Hf B Lp. eapply step; [rewrite Hf; apply node_at; [splain|exact B]| | |exact Hm].
  - transitivity (Some (m, zlen pre + 8)); [reflexivity|]. rewrite !zlen_app', !be32_zlen. reflexivity.
  - rewrite Hf, layout_node, !zlen_app', !be32_zlen. pose proof (zlen_nonneg post). lia.
Qed.
Lemma step_mdat : forall body, f = pre ++ layout (Leaf MDAT body) ++ post -> 8 + zlen body < 2 ^ 32 -> walk (S fuel) f (zlen pre) m = Some (with_mdat m (zlen pre + 8), zlen (pre ++ layout (Leaf MDAT body))).
Proof.
  intros body Hf B. eapply step_last; [rewrite Hf; apply leaf_at; [splain|exact B]| |].
  - transitivity (Some (with_mdat m (zlen pre + 8), skip_current (mkR (zlen pre + 8) (zlen pre) (8 + zlen body) MDAT))); [reflexivity|]. rewrite skip_current_ok by (cbn [r_size]; pose proof (zlen_nonneg body); lia). cbn [r_pos r_size]. rewrite zlen_app', leaf_zlen. do 2 f_equal. lia.
  - cbn. pose proof (zlen_nonneg pre). lia.
Qed.
End Steps.
