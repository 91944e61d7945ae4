(** Proofs about Frag_model: what is written for a fragment. *)
From Coq Require Import ZifyNat.
From Verif Require Import Util SampleTab_model SampleTab_proofs HlsCrypt_model Box_model Box_proofs Cenc_model Cenc_proofs Frag_model.
Local Open Scope Z_scope.
Local Ltac Zify.zify_post_hook ::= Z.div_mod_to_equations.
Opaque be be32.

Lemma zlen_app' : forall {A} (a b : list A), zlen (a ++ b) = zlen a + zlen b. Proof. intros. unfold zlen. rewrite app_length. lia. Qed.
Lemma be_zlen : forall n x, zlen (be n x) = Z.of_nat n. Proof. intros. unfold zlen. rewrite be_length. reflexivity. Qed.
Lemma leaf_fin : forall t body f ps, 8 + zlen body < 2 ^ 32 -> child_box t body (fin f ps) = fin (f ++ layout (Leaf t body)) ps.
Proof. intros. rewrite child_fin. cbn [layout]. rewrite u32_id; [reflexivity|]. pose proof (zlen_nonneg body). lia. Qed.
Lemma node_fin : forall t f inside ps, 8 + zlen inside < 2 ^ 32 -> close_box (fin (f ++ be32 4294967295 ++ be32 t ++ inside) ((t, zlen f) :: ps)) = Some (fin (f ++ be32 (8 + zlen inside) ++ be32 t ++ inside) ps).
Proof. intros. rewrite (close_fin t f (be32 4294967295) (be32 t ++ inside) ps) by apply be32_length. rewrite zlen_app', be32_zlen. pose proof (zlen_nonneg inside). rewrite u32_id by lia. do 3 f_equal. f_equal. f_equal. lia. Qed.
Lemma patch_fin : forall pre x y post ps p, p = zlen pre -> length x = length y -> seek (zlen (pre ++ x ++ post)) (put y (seek p (fin (pre ++ x ++ post) ps))) = fin (pre ++ y ++ post) ps.
Proof. intros pre x y post ps p -> L. unfold seek at 2. cbn [fin w_file w_parents]. rewrite patch by exact L. unfold seek, fin. cbn [w_file w_parents]. f_equal. unfold zlen. rewrite !app_length. lia. Qed.

Definition all_layout (l : list item) : list Z := concat (map layout l).
Lemma all_layout_app : forall a b, all_layout (a ++ b) = all_layout a ++ all_layout b. Proof. intros. unfold all_layout. rewrite map_app, concat_app. reflexivity. Qed.
Lemma all_layout_cons : forall i l, all_layout (i :: l) = layout i ++ all_layout l. Proof. reflexivity. Qed.
Lemma layout_node : forall t kids, layout (Node t kids) = be32 (8 + zlen (all_layout kids)) ++ be32 t ++ all_layout kids. Proof. reflexivity. Qed.
Lemma layout_leaf : forall t b, layout (Leaf t b) = be32 (8 + zlen b) ++ be32 t ++ b. Proof. reflexivity. Qed.
Lemma leaf_zlen : forall t b, zlen (layout (Leaf t b)) = 8 + zlen b. Proof. intros. rewrite layout_leaf, !zlen_app', !be32_zlen. lia. Qed.
Lemma node_zlen : forall t k, zlen (layout (Node t k)) = 8 + zlen (all_layout k). Proof. intros. rewrite layout_node, !zlen_app', !be32_zlen. lia. Qed.
Lemma layout_nonneg : forall l, 0 <= zlen (all_layout l). Proof. intros. apply zlen_nonneg. Qed.
Lemma in_zlen : forall i l, In i l -> zlen (layout i) <= zlen (all_layout l).
Proof. intros i. induction l as [|k l IH]; intros H; [destruct H|]. rewrite all_layout_cons, zlen_app'. pose proof (zlen_nonneg (layout k)). pose proof (layout_nonneg l). destruct H as [H|H]; [subst k; lia|]. specialize (IH H). lia. Qed.
Section Scale.
Variable scale : Z -> Z -> Z.
(** the setting with other values for the two fields given a value at the end *)
Definition sized (st : setting) (r o : Z) : setting := mkSet (track st) (sequence st) (first_flags st) (timescale st) (crypt st) r o.
Definition items_of (st : setting) (l : list sample) := map (item_of scale (timescale st)) l.
Definition kids_to_trun (st : setting) (base : Z) (l : list sample) : list item :=
  [Leaf TFHD (tfhd_body st)] ++ (if negb (base =? 2 ^ 64 - 1) then [Leaf TFDT (tfdt_body base)] else []) ++ [Leaf TRUN (trun_body st (items_of st l))].
Definition aux_offset (st : setting) (base : Z) (l : list sample) : Z := 8 + 16 + 8 + zlen (all_layout (kids_to_trun st base l)) + 16 + 17 + 20.
Definition traf_kids (st : setting) (base : Z) (l : list sample) : list item :=
  kids_to_trun st base l ++ match crypt st with
  | None => []
  | Some _ => [Leaf SAIZ (saiz_body (Z.of_nat (length l))); Leaf SAIO (saio_body (aux_offset st base l)); Leaf SENC (senc_body (snd (samples_out st l)))]
  end.
Definition moof_kids (st : setting) (base : Z) (l : list sample) : list item := [Leaf MFHD (mfhd_body st); Node TRAF (traf_kids st base l)].
Definition mdat_of (st : setting) (l : list sample) : list Z := concat (fst (samples_out st l)).
Definition cts0_of (st : setting) (l : list sample) : Z := match items_of st l with (_, _, c) :: _ => c | [] => 0 end.
Definition frag_items (st : setting) (base : Z) (l : list sample) : list item :=
  [Leaf STYP styp_body; Leaf SIDX (sidx_body st base (cts0_of st l) (zsum (map (fun i => fst (fst i)) (items_of st l)))); Node MOOF (moof_kids st base l); Leaf MDAT (mdat_of st l)].
Definition moof_size (st : setting) (base : Z) (l : list sample) : Z := zlen (layout (Node MOOF (moof_kids st base l))).
Definition final (st : setting) (base : Z) (l : list sample) : setting := sized st (moof_size st base l + 8 + zlen (mdat_of st l)) (moof_size st base l + 8).
Definition frag_bytes (st : setting) (base : Z) (l : list sample) : list Z := all_layout (frag_items (final st base l) base l).
(** ** sizes *)
Lemma trun_split : forall st items, exists a b, trun_body st items = a ++ be32 (g2 st) ++ b /\ zlen a = 8 /\ forall r o, trun_body (sized st r o) items = a ++ be32 o ++ b.
Proof.
  intros. exists (full 1 (trun_flags st) ++ be32 (Z.of_nat (length items))), ((if Z.testbit (trun_flags st) 2 then be32 (first_flags st) else []) ++ concat (map (trun_item (trun_flags st)) items)). split; [unfold trun_body; rewrite <- !app_assoc; reflexivity|]. split; [unfold full; rewrite !zlen_app', !be_zlen, be32_zlen; reflexivity|]. intros. unfold trun_body, sized, trun_flags. cbn [first_flags g2]. rewrite <- !app_assoc. reflexivity.
Qed.
Lemma sidx_split : forall st base c d, exists a b, sidx_body st base c d = a ++ be32 (g1 st) ++ b /\ zlen a = 24 /\ zlen b = 8 /\ forall r o, sidx_body (sized st r o) base c d = a ++ be32 r ++ b.
Proof.
  intros. exists (full 0 0 ++ be32 (track st) ++ be32 (u32 (timescale st)) ++ be32 (u32 (u64 (c + base))) ++ be32 0 ++ be 2 0 ++ be 2 1), (be32 (u32 d) ++ be32 (2 ^ 31 + 2 ^ 28)). split; [unfold sidx_body; rewrite <- !app_assoc; reflexivity|]. split; [unfold full; rewrite !zlen_app', !be_zlen, !be32_zlen; reflexivity|]. split; [rewrite !zlen_app', !be32_zlen; reflexivity|]. intros. unfold sidx_body, sized. cbn [track timescale g1]. rewrite <- !app_assoc. reflexivity.
Qed.
(** ** the bytes *)
(** [end_fragment] without the crypt part, in one: what follows the traf header up to the end of the traf *)
Definition traf_calls (st : setting) (base : Z) (l : list sample) (moof_position : Z) (w : wr) : wr :=
  let w := child_box TFHD (tfhd_body st) w in
  let w := if negb (base =? 2 ^ 64 - 1) then child_box TFDT (tfdt_body base) w else w in
  let w := child_box TRUN (trun_body st (items_of st l)) w in
  match crypt st with
  | None => w
  | Some _ => child_box SENC (senc_body (snd (samples_out st l))) (child_box SAIO (saio_body (w_pos w + 16 - moof_position + 17 + 20)) (child_box SAIZ (saiz_body (Z.of_nat (length (snd (samples_out st l))))) w))
  end.
Lemma entries_length : forall st l, crypt st <> None -> length (snd (samples_out st l)) = length l.
Proof. intros st l H. unfold samples_out. destruct (crypt st) as [[[E sub] iv]|]; [|contradiction]. cbn [snd]. rewrite map_length, encrypt_samples_length, map_length. reflexivity. Qed.
Definition small_frag (st : setting) (base : Z) (l : list sample) : Prop := moof_size st base l + 8 + zlen (mdat_of st l) < 2 ^ 31.
Lemma traf_small : forall st base l, small_frag st base l -> 8 + zlen (all_layout (traf_kids st base l)) < 2 ^ 31 - 24.
Proof.
  intros st base l H. unfold small_frag, moof_size in H. rewrite node_zlen in H. unfold moof_kids in H. rewrite !all_layout_cons in H. rewrite !zlen_app', leaf_zlen, node_zlen in H. pose proof (zlen_nonneg (mdat_of st l)). pose proof (layout_nonneg []). unfold mfhd_body, full in H. rewrite !zlen_app', !be_zlen, be32_zlen in H. lia.
Qed.
Lemma traf_calls_ok : forall st base l F M ps, small_frag st base l -> M = zlen F - 32 ->
  traf_calls st base l M (fin F ps) = fin (F ++ all_layout (traf_kids st base l)) ps.
Proof.
  intros st base l F M ps H HM. pose proof (traf_small _ _ _ H) as B. assert (K : forall t b, In (Leaf t b) (traf_kids st base l) -> 8 + zlen b < 2 ^ 32) by (intros t b I; apply in_zlen in I; rewrite leaf_zlen in I; lia).
  assert (K3 : traf_calls st base l M (fin F ps) = match crypt st with None => fin (F ++ all_layout (kids_to_trun st base l)) ps | Some _ =>
     let w := fin (F ++ all_layout (kids_to_trun st base l)) ps in child_box SENC (senc_body (snd (samples_out st l))) (child_box SAIO (saio_body (w_pos w + 16 - M + 17 + 20)) (child_box SAIZ (saiz_body (Z.of_nat (length (snd (samples_out st l))))) w)) end).
  { unfold traf_calls, kids_to_trun. rewrite leaf_fin by (apply (K TFHD); unfold traf_kids, kids_to_trun; rewrite !in_app_iff; left; left; left; reflexivity).
    assert (KT : forall W, child_box TRUN (trun_body st (items_of st l)) (fin W ps) = fin (W ++ layout (Leaf TRUN (trun_body st (items_of st l)))) ps) by (intros; apply leaf_fin; apply (K TRUN); unfold traf_kids, kids_to_trun; rewrite !in_app_iff; left; right; right; left; reflexivity).
    destruct (negb (base =? 2 ^ 64 - 1)) eqn:Eb.
    - rewrite leaf_fin by (apply (K TFDT); unfold traf_kids, kids_to_trun; rewrite !in_app_iff; left; right; left; rewrite Eb; left; reflexivity). rewrite KT. rewrite !all_layout_app, !all_layout_cons. change (all_layout []) with (@nil Z). rewrite !app_nil_r, <- !app_assoc. reflexivity.
    - rewrite KT. rewrite !all_layout_app, !all_layout_cons. change (all_layout []) with (@nil Z). rewrite !app_nil_r, app_nil_l, <- !app_assoc. reflexivity. }
  rewrite K3. unfold traf_kids in *. destruct (crypt st) as [cr|] eqn:Ec; [|rewrite app_nil_r; reflexivity]. cbv zeta. rewrite entries_length by congruence.
  rewrite leaf_fin by (apply (K SAIZ); apply in_app_iff; right; left; reflexivity). cbn [fin w_pos].
  replace (zlen (F ++ all_layout (kids_to_trun st base l)) + 16 - M + 17 + 20) with (aux_offset st base l) by (unfold aux_offset; rewrite zlen_app'; lia).
  rewrite leaf_fin by (apply (K SAIO); apply in_app_iff; right; right; left; reflexivity). rewrite leaf_fin by (apply (K SENC); apply in_app_iff; right; right; right; left; reflexivity).
  rewrite all_layout_app, !all_layout_cons. change (all_layout []) with (@nil Z). rewrite !app_nil_r, <- !app_assoc. reflexivity.
Qed.
Lemma moof_size_sized : forall st base l r o, moof_size (sized st r o) base l = moof_size st base l.
Proof.
  intros. unfold moof_size. rewrite !node_zlen. unfold moof_kids. rewrite !all_layout_cons, !zlen_app', !leaf_zlen, !node_zlen. assert (T : zlen (all_layout (kids_to_trun (sized st r o) base l)) = zlen (all_layout (kids_to_trun st base l))).
  { unfold kids_to_trun. rewrite !all_layout_app, !all_layout_cons, !zlen_app', !leaf_zlen. destruct (trun_split st (items_of st l)) as (a & b & T1 & _ & T2). change (items_of (sized st r o) l) with (items_of st l). rewrite T2, T1. rewrite !zlen_app', !be32_zlen. reflexivity. }
  unfold traf_kids. rewrite !all_layout_app, !zlen_app', T. change (crypt (sized st r o)) with (crypt st). change (snd (samples_out (sized st r o) l)) with (snd (samples_out st l)). unfold aux_offset. rewrite T. reflexivity.
Qed.
(** where trun.data_offset is *)
Lemma kids_trun_split : forall st base l, exists a b, all_layout (kids_to_trun st base l) = a ++ be32 (g2 st) ++ b /\ zlen a = zlen (layout (Leaf TFHD (tfhd_body st)) ++ (if negb (base =? 2 ^ 64 - 1) then layout (Leaf TFDT (tfdt_body base)) else [])) + 16 /\ forall r o, all_layout (kids_to_trun (sized st r o) base l) = a ++ be32 o ++ b.
Proof.
  intros. destruct (trun_split st (items_of st l)) as (a & b & T1 & T2 & T3). set (x := layout (Leaf TFHD (tfhd_body st)) ++ (if negb (base =? 2 ^ 64 - 1) then layout (Leaf TFDT (tfdt_body base)) else [])). exists (x ++ be32 (8 + zlen (trun_body st (items_of st l))) ++ be32 TRUN ++ a), b.
  assert (Q : forall s, track s = track st -> timescale s = timescale st -> all_layout (kids_to_trun s base l) = x ++ be32 (8 + zlen (trun_body s (items_of st l))) ++ be32 TRUN ++ trun_body s (items_of st l)).
  { intros s Es Et. unfold kids_to_trun. replace (items_of s l) with (items_of st l) by (unfold items_of; rewrite Et; reflexivity). rewrite !all_layout_app, !all_layout_cons. change (all_layout []) with (@nil Z). rewrite !app_nil_r. replace (tfhd_body s) with (tfhd_body st) by (unfold tfhd_body; rewrite Es; reflexivity). rewrite (layout_leaf TRUN). unfold x. rewrite <- !app_assoc. f_equal. destruct (negb (base =? 2 ^ 64 - 1)); [rewrite all_layout_cons; change (all_layout []) with (@nil Z); rewrite app_nil_r; reflexivity|reflexivity]. }
  split; [rewrite (Q st eq_refl eq_refl); rewrite T1; rewrite <- !app_assoc; reflexivity|]. split; [rewrite !zlen_app', !be32_zlen, T2; lia|]. intros r o. rewrite (Q (sized st r o) eq_refl eq_refl). rewrite T3. replace (zlen (a ++ be32 o ++ b)) with (zlen (trun_body st (items_of st l))) by (rewrite T1, !zlen_app', !be32_zlen; reflexivity). rewrite <- !app_assoc. reflexivity.
Qed.
Lemma moof_split : forall st base l, exists a b, layout (Node MOOF (moof_kids st base l)) = a ++ be32 (g2 st) ++ b /\ zlen a = 32 + zlen (layout (Leaf TFHD (tfhd_body st)) ++ (if negb (base =? 2 ^ 64 - 1) then layout (Leaf TFDT (tfdt_body base)) else [])) + 16 /\ forall r o, layout (Node MOOF (moof_kids (sized st r o) base l)) = a ++ be32 o ++ b.
Proof.
  intros. destruct (kids_trun_split st base l) as (a & b & T1 & T2 & T3).
  set (rest := all_layout match crypt st with None => [] | Some _ => [Leaf SAIZ (saiz_body (Z.of_nat (length l))); Leaf SAIO (saio_body (aux_offset st base l)); Leaf SENC (senc_body (snd (samples_out st l)))] end).
  assert (Z1 : forall o, zlen (a ++ be32 o ++ b) = zlen (all_layout (kids_to_trun st base l))) by (intros; rewrite T1, !zlen_app', !be32_zlen; reflexivity).
  assert (A : forall r o, all_layout (traf_kids (sized st r o) base l) = (a ++ be32 o ++ b) ++ rest).
  { intros. unfold traf_kids. rewrite all_layout_app, T3. f_equal. unfold rest. change (crypt (sized st r o)) with (crypt st). change (snd (samples_out (sized st r o) l)) with (snd (samples_out st l)). replace (aux_offset (sized st r o) base l) with (aux_offset st base l) by (unfold aux_offset; rewrite T3, (Z1 o); reflexivity). reflexivity. }
  assert (A0 : all_layout (traf_kids st base l) = (a ++ be32 (g2 st) ++ b) ++ rest) by (unfold traf_kids; rewrite all_layout_app, T1; reflexivity).
  set (sz := zlen (all_layout (traf_kids st base l))). set (msz := zlen (all_layout (moof_kids st base l))).
  exists (be32 (8 + msz) ++ be32 MOOF ++ layout (Leaf MFHD (mfhd_body st)) ++ be32 (8 + sz) ++ be32 TRAF ++ a), (b ++ rest).
  assert (Sz : forall r o, zlen (all_layout (traf_kids (sized st r o) base l)) = sz) by (intros; unfold sz; rewrite A, A0, !zlen_app', !be32_zlen; reflexivity).
  split; [rewrite layout_node; fold msz; unfold moof_kids; rewrite !all_layout_cons; change (all_layout []) with (@nil Z); rewrite app_nil_r, layout_node; fold sz; rewrite A0; rewrite <- !app_assoc; reflexivity|].
  split; [rewrite !zlen_app', !be32_zlen, leaf_zlen, T2; unfold mfhd_body, full; rewrite !zlen_app', !be_zlen, !be32_zlen; lia|].
  intros r o. assert (M : zlen (all_layout (moof_kids (sized st r o) base l)) = msz) by (unfold msz, moof_kids; rewrite !all_layout_cons, !zlen_app', !leaf_zlen, !node_zlen, Sz; reflexivity).
  rewrite layout_node, M. unfold moof_kids. rewrite !all_layout_cons. change (all_layout []) with (@nil Z). rewrite app_nil_r, layout_node, Sz, A. rewrite <- !app_assoc. reflexivity.
Qed.
Lemma end_fragment_ok : forall st base l f ps, l <> [] -> small_frag st base l -> end_fragment scale st base l (fin f ps) = Some (fin (f ++ frag_bytes st base l) ps).
Proof.
  intros st base l f ps N H. unfold end_fragment. fold (items_of st l). destruct (samples_out st l) as [bodies entries] eqn:So.
  assert (Hm : concat bodies = mdat_of st l) by (unfold mdat_of; rewrite So; reflexivity). rewrite Hm. assert (He : entries = snd (samples_out st l)) by (rewrite So; reflexivity).
  assert (Hi : exists d s c il, items_of st l = (d, s, c) :: il /\ cts0_of st l = c) by (unfold cts0_of, items_of; destruct l as [|x l']; [contradiction|]; cbn [map]; unfold item_of; do 4 eexists; split; reflexivity). destruct Hi as (d0 & s0 & c0 & il & Hi & Hc). rewrite Hi. rewrite <- Hi. rewrite <- Hc. clear Hi d0 s0 il Hc c0.
  set (dur := zsum (map (fun i => fst (fst i)) (items_of st l))). set (cts := cts0_of st l).
  rewrite leaf_fin by (vm_compute; reflexivity). destruct (sidx_split st base cts dur) as (sa & sb & X1 & X2 & X3 & X4).
  assert (Ls : zlen (sidx_body st base cts dur) = 36) by (rewrite X1, !zlen_app', be32_zlen, X2, X3; reflexivity).
  set (A := layout (Leaf STYP styp_body)). cbn [fin w_pos]. fold (fin (f ++ A) ps).
  rewrite leaf_fin by (rewrite Ls; lia). set (Sx := layout (Leaf SIDX (sidx_body st base cts dur))). cbn [fin w_pos]. fold (fin ((f ++ A) ++ Sx) ps).
  set (F := (f ++ A) ++ Sx). rewrite open_fin. rewrite leaf_fin by (unfold mfhd_body, full; rewrite !zlen_app', !be_zlen, !be32_zlen; lia).
  rewrite open_fin. set (FM := (F ++ be32 4294967295 ++ be32 MOOF) ++ layout (Leaf MFHD (mfhd_body st))).
  set (ps2 := (TRAF, zlen FM) :: (MOOF, zlen F) :: ps). set (G := FM ++ be32 4294967295 ++ be32 TRAF).
  assert (LG : zlen G = zlen F + 32) by (unfold G, FM; rewrite !zlen_app', !be32_zlen, leaf_zlen; unfold mfhd_body, full; rewrite !zlen_app', !be_zlen, !be32_zlen; lia).
  pose proof (traf_calls_ok st base l G (zlen F) ps2 H ltac:(lia)) as TC. unfold traf_calls in TC. rewrite <- He in TC. rewrite TC.
  pose proof (traf_small _ _ _ H) as B.
  assert (P0 : w_pos (if negb (base =? 2 ^ 64 - 1) then child_box TFDT (tfdt_body base) (child_box TFHD (tfhd_body st) (fin G ps2)) else child_box TFHD (tfhd_body st) (fin G ps2)) = zlen G + zlen (layout (Leaf TFHD (tfhd_body st)) ++ (if negb (base =? 2 ^ 64 - 1) then layout (Leaf TFDT (tfdt_body base)) else []))).
  { rewrite leaf_fin by (unfold tfhd_body, full; rewrite !zlen_app', !be_zlen, !be32_zlen; lia). destruct (negb (base =? 2 ^ 64 - 1)); [rewrite leaf_fin by (unfold tfdt_body, full; rewrite !zlen_app', !be_zlen, !be32_zlen; lia)|]; cbn [fin w_pos]; rewrite !zlen_app'; change (@zlen Z []) with 0; lia. }
  rewrite P0. clear P0 TC. unfold G at 1. rewrite <- (app_assoc FM), <- (app_assoc (be32 4294967295)). unfold ps2. rewrite node_fin by lia. rewrite <- layout_node.
  unfold FM at 1. rewrite <- (app_assoc (F ++ _)), <- (app_assoc F), <- (app_assoc (be32 4294967295)).
  replace (layout (Leaf MFHD (mfhd_body st)) ++ layout (Node TRAF (traf_kids st base l))) with (all_layout (moof_kids st base l)) by (unfold moof_kids; rewrite !all_layout_cons; change (all_layout []) with (@nil Z); rewrite app_nil_r; reflexivity).
  rewrite node_fin by (unfold small_frag, moof_size in H; rewrite node_zlen in H; pose proof (zlen_nonneg (mdat_of st l)); lia). rewrite <- layout_node.
  rewrite !put_fin. cbn [fin w_pos].
  set (Mo := layout (Node MOOF (moof_kids st base l))) in *. set (md := mdat_of st l) in *.
  assert (HMo : zlen Mo = moof_size st base l) by reflexivity. unfold small_frag in H. fold md in H. rewrite u32_id by (pose proof (zlen_nonneg md); pose proof (zlen_nonneg Mo); lia).
  set (R := (((F ++ Mo) ++ be32 (zlen md + 8)) ++ be32 MDAT) ++ md).
  change (mkW R (zlen R) ps) with (fin R ps).
  destruct (moof_split st base l) as (ma & mb & M1 & M2 & M3). fold Mo in M1.
  assert (R1 : R = (F ++ ma) ++ be32 (g2 st) ++ mb ++ be32 (zlen md + 8) ++ be32 MDAT ++ md) by (unfold R; rewrite M1, <- !app_assoc; reflexivity).
  rewrite R1. rewrite patch_fin; [|rewrite (zlen_app' F ma), M2; lia|rewrite !be32_length; reflexivity].
  set (o := u32 (zlen (((F ++ Mo) ++ be32 (zlen md + 8)) ++ be32 MDAT) - zlen F)).
  assert (Ho : o = moof_size st base l + 8) by (unfold o; rewrite !zlen_app', !be32_zlen, <- HMo; rewrite u32_id; pose proof (zlen_nonneg md); pose proof (zlen_nonneg Mo); lia).
  set (R2 := (F ++ ma) ++ be32 o ++ mb ++ be32 (zlen md + 8) ++ be32 MDAT ++ md).
  assert (LR : zlen ((F ++ ma) ++ be32 (g2 st) ++ mb ++ be32 (zlen md + 8) ++ be32 MDAT ++ md) = zlen R2) by (unfold R2; rewrite !zlen_app', !be32_zlen; reflexivity).
  rewrite LR. set (z := u32 (zlen R2 - zlen F)).
  assert (Hz : z = moof_size st base l + 8 + zlen md).
  { unfold z. rewrite <- LR, <- R1. unfold R. rewrite !zlen_app', !be32_zlen, HMo. rewrite u32_id; pose proof (zlen_nonneg md); pose proof (zlen_nonneg Mo); lia. }
  assert (R3 : R2 = (f ++ A ++ be32 (8 + 36) ++ be32 SIDX ++ sa) ++ be32 (g1 st) ++ sb ++ ma ++ be32 o ++ mb ++ be32 (zlen md + 8) ++ be32 MDAT ++ md) by (unfold R2, F, Sx; rewrite layout_leaf, Ls, X1, <- !app_assoc; reflexivity).
  rewrite R3. rewrite patch_fin; [|rewrite !zlen_app', !be32_zlen, X2; lia|rewrite !be32_length; reflexivity]. f_equal. f_equal.
  unfold frag_bytes, frag_items. rewrite !all_layout_cons. change (all_layout []) with (@nil Z). unfold final at 1 2. rewrite !(layout_leaf SIDX). change (cts0_of (final st base l) l) with cts. change (items_of (final st base l) l) with (items_of st l). fold dur. unfold final. rewrite M3, X4. fold A. rewrite !zlen_app', X2, X3, be32_zlen. change (8 + (24 + (4 + 8))) with (8 + 36). change (mdat_of (sized st (moof_size st base l + 8 + zlen (mdat_of st l)) (moof_size st base l + 8)) l) with md. rewrite layout_leaf. fold md. rewrite <- Hz, <- Ho. rewrite app_nil_r. rewrite (Z.add_comm 8 (zlen md)). rewrite <- !app_assoc. reflexivity.
Qed.
End Scale.
