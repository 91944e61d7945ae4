(** Proofs about Frag_model: what is written is read back. *)
From Coq Require Import ZifyNat.
From Verif Require Import Util SampleTab_model SampleTab_proofs HlsCrypt_model Box_model Box_proofs Cenc_model Cenc_proofs Frag_model Frag_proofs Frag_proofs2.
Local Open Scope Z_scope.
Local Ltac Zify.zify_post_hook ::= Z.div_mod_to_equations.
Opaque be be32.

Section Scale.
Variable scale : Z -> Z -> Z.
Definition crypt_ok (st : setting) : Prop := match crypt st with Some (E, _, iv) => cipher E /\ is_iv iv | None => True end.
Definition senc_of (st : setting) (l : list sample) : list (list Z * list (Z * Z)) := map (fun e => (e_iv e, [(e_clear e, e_protected e)])) (snd (samples_out st l)).
Definition read_back (st : setting) (base : Z) (l : list sample) (start : Z) (m : moof) : moof :=
  mkMoof (start + 80) (start + 80 + moof_size scale st base l + 8) (m_default m) (mkT 1 (trun_flags st) (moof_size scale st base l + 8) (map (item_seen (0 <? first_flags st)) (items_of scale st l)))
    (if negb (base =? 2 ^ 64 - 1) then Some base else m_tfdt m) (match crypt st with Some _ => Some (senc_of st l) | None => m_senc m end).
Lemma entries_ok : forall st l, crypt_ok st -> Forall (fun s => zlen (s_body s) < 2 ^ 32) l -> Forall entry_ok (snd (samples_out st l)).
Proof.
  intros st l C F. unfold samples_out, crypt_ok in *. destruct (crypt st) as [[[E sub] iv]|]; [|constructor]. destruct C as [C I]. cbn [snd].
  assert (Fs : Forall small (map s_body l)) by (apply Forall_map; exact F). apply Forall_forall. intros e He. apply in_map_iff in He. destruct He as (x & <- & Hx). apply (In_nth _ _ ([], mkE [] 0 0)) in Hx. destruct Hx as (j & Hj & Hx). rewrite encrypt_samples_length in Hj. destruct (sample_formula E sub (map s_body l) iv j C I Fs Hj) as (S1 & S2 & S3 & _). rewrite Hx in S1, S2, S3. set (b := nth j (map s_body l) []) in *. assert (Hb : zlen b < 2 ^ 32) by (apply (proj1 (Forall_nth small (map s_body l)) Fs j [] Hj)). pose proof (zlen_nonneg b) as Hn. pose proof (clear_bounds sub (zlen b) Hn) as Hc.
  split; [rewrite S1; apply be_length|]. rewrite S3 in *. split; [|lia]. split; [lia|]. unfold clear_of. destruct sub; [|lia]. destruct (Z.leb_spec (zlen b) 112); [lia|]. pose proof (Z.mod_pos_bound (zlen b) 16 ltac:(lia)). lia.
Qed.
Lemma trun_zlen_ge : forall st l, 4 * zlen l <= zlen (trun_body st l).
Proof.
  intros. unfold trun_body, full. rewrite !zlen_app'. assert (4 * zlen l <= zlen (concat (map (trun_item (trun_flags st)) l))).
  { induction l as [|[[d s] c] l IH]; [reflexivity|]. cbn [map concat]. rewrite zlen_app'. replace (zlen ((d, s, c) :: l)) with (1 + zlen l) by (unfold zlen; cbn [length]; lia). unfold trun_item at 1. rewrite !zlen_app'. assert (Z.testbit (trun_flags st) 8 = true) as -> by (rewrite flags_v; destruct (0 <? first_flags st); reflexivity). rewrite be32_zlen. set (z1 := zlen (if Z.testbit (trun_flags st) 9 then _ else _)). set (z2 := zlen (if Z.testbit (trun_flags st) 11 then _ else _)). assert (0 <= z1) by apply zlen_nonneg. assert (0 <= z2) by apply zlen_nonneg. lia. }
  set (z3 := zlen (if Z.testbit (trun_flags st) 2 then _ else _)). assert (0 <= z3) by apply zlen_nonneg. rewrite !be_zlen, !be32_zlen. lia.
Qed.
Lemma parse_ok : forall st base l pre post m, crypt_ok st -> Forall (fun s => zlen (s_body s) < 2 ^ 32) l -> small_frag scale st base l -> 0 <= base < 2 ^ 64 ->
  let F := frag_bytes scale st base l in parse (pre ++ F ++ post) (zlen pre) m = Some (read_back st base l (zlen pre) m, zlen (pre ++ F)).
Proof.
  intros st base l pre post m C Fb H Hb F. set (f := pre ++ F ++ post).
  set (s := final scale st base l). assert (Hs : small_frag scale s base l) by (unfold small_frag in *; unfold s, final; rewrite moof_size_sized; exact H).
  assert (Es : forall A (x : setting -> A), True) by (intros; exact I). clear Es.
  set (A := layout (Leaf STYP styp_body)). set (sb := sidx_body s base (cts0_of scale s l) (zsum (map (fun i => fst (fst i)) (items_of scale s l)))). set (S1 := layout (Leaf SIDX sb)). set (Mo := layout (Node MOOF (moof_kids scale s base l))). set (D := layout (Leaf MDAT (mdat_of s l))).
  assert (EF : F = A ++ S1 ++ Mo ++ D) by (unfold F, frag_bytes, frag_items; rewrite !all_layout_cons; change (all_layout []) with (@nil Z); rewrite app_nil_r; reflexivity).
  assert (LA : zlen A = 36) by (vm_compute; reflexivity). assert (Lsb : zlen sb = 36) by (destruct (sidx_split s base (cts0_of scale s l) (zsum (map (fun i => fst (fst i)) (items_of scale s l)))) as (a & b & X1 & X2 & X3 & _); unfold sb; rewrite X1, !zlen_app', be32_zlen, X2, X3; reflexivity).
  assert (LS : zlen S1 = 44) by (unfold S1; rewrite leaf_zlen, Lsb; reflexivity).
  assert (LMo : zlen Mo = moof_size scale st base l) by (unfold Mo; change (moof_size scale s base l = moof_size scale st base l); unfold s, final; apply moof_size_sized).
  assert (Lmd : 0 <= zlen (mdat_of s l)) by apply zlen_nonneg. assert (LD : zlen D = 8 + zlen (mdat_of s l)) by (unfold D; apply leaf_zlen).
  assert (Hlt : zlen pre < zlen f) by (unfold f; rewrite EF, !zlen_app'; pose proof (zlen_nonneg Mo); pose proof (zlen_nonneg post); lia).
  unfold parse. rewrite (proj2 (Z.leb_gt _ _) Hlt). set (m0 := mkMoof (m_moof m) 0 (m_default m) (m_trun m) (m_tfdt m) (m_senc m)).
  change (walk (S (length f)) f (zlen pre) m0 = Some (read_back st base l (zlen pre) m, zlen (pre ++ F))).
  assert (Hfu : exists fu, length f = (12 + fu)%nat) by (exists (length f - 12)%nat; assert (36 <= zlen f) by (unfold f; rewrite EF, !zlen_app'; pose proof (zlen_nonneg Mo); pose proof (zlen_nonneg post); pose proof (zlen_nonneg pre); lia); unfold zlen in *; lia). destruct Hfu as (fu & ->). change (S (12 + fu)) with (S (S (S (S (S (S (S (S (S (S (S (S (S fu))))))))))))).
  pose proof (traf_small scale s base l Hs) as Bt.
  assert (Bs : moof_size scale st base l + 8 + zlen (mdat_of s l) < 2 ^ 31) by exact H.
  assert (ELM : zlen Mo = 8 + zlen (all_layout (moof_kids scale s base l))) by (unfold Mo; apply node_zlen).
  (* styp *)
  rewrite (step_skip f pre (S1 ++ Mo ++ D ++ post) m0 _ eq_refl STYP styp_body); [|left; reflexivity|unfold f; rewrite EF, <- !app_assoc; reflexivity|vm_compute; reflexivity|rewrite zlen_app'; pose proof (zlen_nonneg (Mo ++ D ++ post)); lia]. fold A.
  (* sidx *)
  rewrite (step_skip f (pre ++ A) (Mo ++ D ++ post) m0 _ eq_refl SIDX sb); [|right; reflexivity|unfold f; rewrite EF, <- !app_assoc; reflexivity|rewrite Lsb; lia|rewrite !zlen_app'; pose proof (zlen_nonneg Mo); pose proof (zlen_nonneg post); lia]. fold S1.
  (* moof *)
  assert (LTK : 36 <= zlen (all_layout (traf_kids scale s base l))).
  { unfold traf_kids, kids_to_trun. rewrite !all_layout_app, !all_layout_cons, !zlen_app', !leaf_zlen. change (all_layout []) with (@nil Z). change (zlen (@nil Z)) with 0. unfold tfhd_body at 1, trun_body at 1, full. rewrite !zlen_app', !be_zlen, !be32_zlen. match goal with |- context [zlen (all_layout (if ?b then ?x else ?y))] => pose proof (zlen_nonneg (all_layout (if b then x else y))) end. match goal with |- context [zlen (all_layout (match ?b with Some _ => _ | None => _ end))] => pose proof (zlen_nonneg (all_layout (match b with Some _ => [Leaf SAIZ (saiz_body (Z.of_nat (length l))); Leaf SAIO (saio_body (aux_offset scale s base l)); Leaf SENC (senc_body (snd (samples_out s l)))] | None => [] end))) end. match goal with |- context [zlen (if Z.testbit ?a ?b then ?x else ?y)] => pose proof (zlen_nonneg (if Z.testbit a b then x else y)) end. match goal with |- context [zlen (concat ?x)] => pose proof (zlen_nonneg (concat x)) end. lia. }
  rewrite (step_moof f ((pre ++ A) ++ S1) (D ++ post) m0 _ eq_refl (moof_kids scale s base l)); [|unfold f; rewrite EF, <- !app_assoc; reflexivity|rewrite <- ELM, LMo; lia|unfold moof_kids; rewrite !all_layout_cons, zlen_app', leaf_zlen; pose proof (zlen_nonneg (mfhd_body s)); pose proof (zlen_nonneg (layout (Node TRAF (traf_kids scale s base l)) ++ all_layout [])); lia].
  set (M1 := be32 (8 + zlen (all_layout (moof_kids scale s base l))) ++ be32 MOOF). set (m1 := with_moof m0 (zlen ((pre ++ A) ++ S1))).
  set (Mf := layout (Leaf MFHD (mfhd_body s))). set (T := layout (Node TRAF (traf_kids scale s base l))).
  assert (EMo : Mo = M1 ++ Mf ++ T) by (unfold Mo, M1, Mf, T; rewrite layout_node; unfold moof_kids; rewrite !all_layout_cons; change (all_layout []) with (@nil Z); rewrite app_nil_r, <- !app_assoc; reflexivity).
  assert (ET : zlen T = 8 + zlen (all_layout (traf_kids scale s base l))) by (unfold T; apply node_zlen).
  rewrite (step_mfhd f (((pre ++ A) ++ S1) ++ M1) (T ++ D ++ post) m1 _ eq_refl s); [|unfold f; rewrite EF, EMo, <- !app_assoc; reflexivity|rewrite zlen_app'; pose proof (zlen_nonneg (D ++ post)); lia]. fold Mf.
  rewrite (step_traf f ((((pre ++ A) ++ S1) ++ M1) ++ Mf) (D ++ post) m1 _ eq_refl (traf_kids scale s base l)); [|unfold f; rewrite EF, EMo, <- !app_assoc; reflexivity|lia|lia].
  set (T1 := be32 (8 + zlen (all_layout (traf_kids scale s base l))) ++ be32 TRAF). set (P := ((((pre ++ A) ++ S1) ++ M1) ++ Mf) ++ T1).
  assert (ET1 : T = T1 ++ all_layout (traf_kids scale s base l)) by (unfold T, T1; rewrite layout_node, <- app_assoc; reflexivity).
  set (K := all_layout (traf_kids scale s base l)) in *.
  assert (Ef : f = P ++ K ++ D ++ post) by (unfold f, P; rewrite EF, EMo, ET1, <- !app_assoc; reflexivity).
  assert (LP : zlen P + zlen K = zlen pre + 80 + zlen Mo) by (rewrite EMo, ET1; unfold P; rewrite !zlen_app', LA, LS; lia).
  clearbody P. clear Mf T T1 M1 EMo ET ET1.
  set (H1 := layout (Leaf TFHD (tfhd_body s))). set (tb := trun_body s (items_of scale s l)). set (R1 := layout (Leaf TRUN tb)).
  set (X := all_layout (match crypt s with None => [] | Some _ => [Leaf SAIZ (saiz_body (Z.of_nat (length l))); Leaf SAIO (saio_body (aux_offset scale s base l)); Leaf SENC (senc_body (snd (samples_out s l)))] end)).
  set (V := if negb (base =? 2 ^ 64 - 1) then layout (Leaf TFDT (tfdt_body base)) else []).
  assert (EK : K = H1 ++ V ++ R1 ++ X).
  { unfold K, traf_kids, kids_to_trun. rewrite !all_layout_app, !all_layout_cons. change (all_layout []) with (@nil Z). rewrite !app_nil_r, <- !app_assoc. f_equal. fold tb. fold R1. unfold X. f_equal. unfold V. destruct (negb (base =? 2 ^ 64 - 1)); [rewrite all_layout_cons; change (all_layout []) with (@nil Z); apply app_nil_r|reflexivity]. }
  assert (LD0 : 8 <= zlen D) by lia. assert (Lpost : 0 <= zlen post) by apply zlen_nonneg.
  assert (LR : zlen R1 = 8 + zlen tb) by (unfold R1; apply leaf_zlen). assert (LV : 0 <= zlen V) by apply zlen_nonneg. assert (LH : 0 <= zlen H1) by apply zlen_nonneg. assert (LX : 0 <= zlen X) by apply zlen_nonneg. assert (LK : zlen K = zlen H1 + zlen V + zlen R1 + zlen X) by (rewrite EK, !zlen_app'; lia).
  pose proof (trun_zlen_ge s (items_of scale s l)) as Ltb. fold tb in Ltb. assert (0 <= zlen tb) by apply zlen_nonneg.
  rewrite (step_tfhd f P (V ++ R1 ++ X ++ D ++ post) m1 _ eq_refl s); [|rewrite Ef, EK, <- !app_assoc; reflexivity|rewrite !zlen_app'; lia]. fold H1.
  set (m2 := m1). set (m3 := if negb (base =? 2 ^ 64 - 1) then with_tfdt m2 base else m2).
  assert (Q : exists k, walk (S (S (S (S (S (S (S fu))))))) f (zlen (P ++ H1)) m2 = walk (S (S (S (S (S (S k)))))) f (zlen ((P ++ H1) ++ V)) m3).
  { unfold m3, V in *. destruct (negb (base =? 2 ^ 64 - 1)) eqn:Eb.
    - exists fu. apply (step_tfdt f (P ++ H1) (R1 ++ X ++ D ++ post) m2 _ eq_refl base Hb); [rewrite Ef, EK, <- !app_assoc; reflexivity|rewrite !zlen_app'; lia].
    - exists (S fu). rewrite app_nil_r. reflexivity. }
  destruct Q as (k & Q). rewrite Q. clear Q. assert (Hm3 : m_mdat m3 = 0) by (unfold m3; destruct (negb (base =? 2 ^ 64 - 1)); reflexivity).
  assert (Eg2 : g2 s = moof_size scale st base l + 8) by reflexivity.
  rewrite (step_trun f ((P ++ H1) ++ V) (X ++ D ++ post) m3 _ Hm3 s (items_of scale s l)); [|apply Forall_map, Forall_forall; intros; apply item_of_32|lia|rewrite Eg2; pose proof (zlen_nonneg Mo); lia|fold tb; lia|rewrite Ef, EK, <- !app_assoc; reflexivity|rewrite !zlen_app'; lia]. fold tb. fold R1.
  set (m4 := with_trun m3 _). assert (Hm4 : m_mdat m4 = 0) by exact Hm3.
  set (m5 := match crypt st with Some _ => with_senc m4 (senc_of st l) | None => m4 end).
  assert (Q : exists k', walk (S (S (S (S (S k))))) f (zlen (((P ++ H1) ++ V) ++ R1)) m4 = walk (S k') f (zlen ((((P ++ H1) ++ V) ++ R1) ++ X)) m5).
  { unfold m5, X in *. change (crypt s) with (crypt st) in *. destruct (crypt st) as [cr|] eqn:Ec; [|exists (S (S (S (S k)))); change (all_layout []) with (@nil Z); rewrite app_nil_r; reflexivity].
    rewrite !all_layout_cons in *. change (all_layout []) with (@nil Z) in *. rewrite app_nil_r in *. rewrite !zlen_app' in LX, LK. exists (S k).
    set (Y := ((P ++ H1) ++ V) ++ R1). set (x1 := layout (Leaf SAIZ (saiz_body (Z.of_nat (length l))))) in *. set (x2 := layout (Leaf SAIO (saio_body (aux_offset scale s base l)))) in *. set (en := snd (samples_out s l)) in *. set (x3 := layout (Leaf SENC (senc_body en))) in *.
    assert (0 <= zlen x1) by apply zlen_nonneg. assert (0 <= zlen x2) by apply zlen_nonneg. assert (Lx3 : zlen x3 = 8 + zlen (senc_body en)) by apply leaf_zlen. assert (0 <= zlen (senc_body en)) by apply zlen_nonneg.
    assert (Ey : f = Y ++ x1 ++ x2 ++ x3 ++ D ++ post) by (rewrite Ef, EK; unfold Y; rewrite <- !app_assoc; reflexivity).
    rewrite (step_saiz f Y (x2 ++ x3 ++ D ++ post) m4 _ Hm4 (Z.of_nat (length l))); [|exact Ey|rewrite !zlen_app'; lia]. fold x1.
    rewrite (step_saio f (Y ++ x1) (x3 ++ D ++ post) m4 _ Hm4 (aux_offset scale s base l)); [|rewrite Ey, <- !app_assoc; reflexivity|rewrite !zlen_app'; lia]. fold x2.
    assert (Len : zlen en = zlen (items_of scale s l)) by (unfold en, zlen, items_of; rewrite entries_length, map_length; [reflexivity|change (crypt s) with (crypt st); congruence]).
    rewrite (step_senc f ((Y ++ x1) ++ x2) (D ++ post) m4 _ Hm4 en); [|apply entries_ok; [exact C|exact Fb]|lia|lia|rewrite Ey, <- !app_assoc; reflexivity|rewrite !zlen_app'; lia]. fold x3.
    f_equal; [rewrite <- !app_assoc; reflexivity]. }
  destruct Q as (k' & Q). rewrite Q. clear Q. assert (Hm5 : m_mdat m5 = 0) by (unfold m5; destruct (crypt st); exact Hm4).
  set (W := (((P ++ H1) ++ V) ++ R1) ++ X). assert (EW : W = P ++ K) by (unfold W; rewrite EK, <- !app_assoc; reflexivity).
  rewrite (step_mdat f W post m5 _ (mdat_of s l)); [|rewrite EW, Ef, <- !app_assoc; reflexivity|pose proof (zlen_nonneg Mo); lia]. fold D. f_equal. f_equal.
  - assert (ZW : zlen W = zlen pre + 80 + zlen Mo) by (rewrite EW, zlen_app'; lia). rewrite ZW, LMo. unfold read_back, m5, m4, m3, m2, m1, m0. rewrite !zlen_app', LA, LS. replace (zlen pre + 36 + 44) with (zlen pre + 80) by lia.
    destruct (crypt st); destruct (negb (base =? 2 ^ 64 - 1)); cbn [with_mdat with_senc with_trun with_tfdt with_default with_moof m_moof m_mdat m_default m_trun m_tfdt m_senc]; reflexivity.
  - rewrite EW, EF, !zlen_app', LA, LS. lia.
Qed.
End Scale.
