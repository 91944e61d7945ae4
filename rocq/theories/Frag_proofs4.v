(** Proofs about Frag_model: the samples, all fragments, index and auxiliary information. *)
From Coq Require Import ZifyNat.
From Verif Require Import Util SampleTab_model SampleTab_proofs HlsCrypt_model Box_model Box_proofs Cenc_model Cenc_proofs Frag_model Frag_proofs Frag_proofs2 Frag_proofs3.
Local Open Scope Z_scope.
Local Ltac Zify.zify_post_hook ::= Z.div_mod_to_equations.
Opaque be be32.

Definition decode (key : option (list Z -> list Z)) (m : moof) (n : nat) (buffer : list Z) : option (list Z) :=
  match key, m_senc m with
  | Some E, Some l => match nth_error l n with Some (iv, subs) => Some (decrypt E iv subs buffer) | None => None end
  | _, _ => Some buffer
  end.
Fixpoint build (m : moof) (tl : list (Z * Z * Z * list Z * list Z)) (dec : Z) : list sample :=
  match tl with
  | [] => []
  | (i, _, b) :: tl => mkS b (dec + sample_cts m i) dec (sample_dur m i) :: build m tl (dec + sample_dur m i)
  end.
Lemma take_general : forall key m post tl n pre dec, (forall j i o b, nth_error tl j = Some (i, o, b) -> sample_size m i = zlen o /\ decode key m (n + j) o = Some b) ->
  take_samples key (pre ++ concat (map (fun t => snd (fst t)) tl) ++ post) m n (map (fun t => fst (fst t)) tl) (zlen pre) dec = Some (build m tl dec).
Proof.
  intros key m post. induction tl as [|[[i o] b] tl IH]; intros n pre dec H; [reflexivity|]. cbn [map concat fst snd take_samples build]. destruct (H 0%nat i o b eq_refl) as [H1 H2]. rewrite Nat.add_0_r in H2. rewrite H1. replace (Z.to_nat (zlen o)) with (length o) by (unfold zlen; lia). rewrite <- app_assoc. rewrite bytes_at_app. unfold decode in H2. rewrite H2.
  specialize (IH (S n) (pre ++ o) (dec + sample_dur m i)). rewrite zlen_app', <- app_assoc in IH. rewrite IH; [reflexivity|]. intros j i' o' b' Hj. specialize (H (S j) i' o' b' Hj). rewrite <- plus_n_Sm in H. exact H.
Qed.
Lemma first_time : forall z base, u32 (u64 (u32 z + base)) = (base + sint (u32 z)) mod 2 ^ 32.
Proof. intros. unfold sint, u32, u64. destruct (Z.ltb_spec (z mod 2 ^ 32) (2 ^ 31)); lia. Qed.
Section Scale.
Variable scale : Z -> Z -> Z.
Lemma fits_small : forall l, room l -> Forall (fun s => zlen (s_body s) < 2 ^ 31) l.
Proof.
  intros l H. unfold room in H. apply Forall_forall. intros s Hs. assert (zlen (s_body s) <= zlen (concat (map s_body l))); [|pose proof (zlen_nonneg l); lia]. clear H. induction l as [|x l IH]; [destruct Hs|]. cbn [map concat]. rewrite zlen_app'. pose proof (zlen_nonneg (s_body x)). pose proof (zlen_nonneg (concat (map s_body l))). destruct Hs as [->|Hs]; [lia|]. specialize (IH Hs). lia.
Qed.
Lemma key_crypt : forall key st, key_for key st -> crypt_ok st.
Proof. intros key st H. unfold key_for, crypt_ok in *. destruct key, (crypt st) as [[[E' sub] iv]|]; try contradiction; [destruct H as (-> & H); exact H|exact I]. Qed.
Lemma fits_small32 : forall l, room l -> Forall (fun s => zlen (s_body s) < 2 ^ 32) l.
Proof. intros l H. eapply Forall_impl; [|exact (fits_small l H)]. cbv beta. intros. lia. Qed.
Lemma outs_length : forall st l, length (fst (samples_out st l)) = length l.
Proof. intros. unfold samples_out. destruct (crypt st) as [[[E sub] iv]|]; cbn [fst]; rewrite map_length; [rewrite encrypt_samples_length, map_length|]; reflexivity. Qed.
Lemma outs_nth : forall key st l j s o, key_for key st -> room l -> nth_error l j = Some s -> nth_error (fst (samples_out st l)) j = Some o ->
  zlen o = zlen (s_body s) /\ forall m, m_senc m = match crypt st with Some _ => Some (senc_of st l) | None => None end -> decode key m j o = Some (s_body s).
Proof.
  intros key st l j s o K R Hs Ho. pose proof (fits_small32 l R) as F. unfold samples_out, senc_of, key_for, decode in *. unfold samples_out. destruct key as [E|], (crypt st) as [[[E' sub] iv]|]; try contradiction.
  - destruct K as (-> & C & I). cbn [fst snd] in *. assert (Hj : (j < length (map s_body l))%nat) by (rewrite map_length; apply nth_error_Some; congruence). destruct (decrypt_samples E sub (map s_body l) iv j C I) as [D1 D2]; [apply Forall_map; exact F|exact Hj|]. set (r := nth j (encrypt_samples E sub iv (map s_body l)) ([], mkE [] 0 0)) in *.
    assert (Hr : nth_error (encrypt_samples E sub iv (map s_body l)) j = Some r) by (apply nth_error_nth'; rewrite encrypt_samples_length; exact Hj).
    assert (Es : nth j (map s_body l) [] = s_body s) by (apply nth_error_nth; apply map_nth_error; exact Hs). rewrite Es in *. rewrite (map_nth_error fst _ _ Hr) in Ho. injection Ho as <-. split; [exact D1|]. intros m ->. rewrite (map_nth_error _ _ _ (map_nth_error snd _ _ Hr)). rewrite D2. reflexivity.
  - cbn [fst snd] in *. rewrite (map_nth_error s_body _ _ Hs) in Ho. injection Ho as <-. split; [reflexivity|]. intros m _. reflexivity.
Qed.
Definition triples (st : setting) (l : list sample) : list (Z * Z * Z * list Z * list Z) := map (fun '(s, o) => (item_seen (0 <? first_flags st) (item_of scale (timescale st) s), o, s_body s)) (combine l (fst (samples_out st l))).
Lemma triples_items : forall st l, map (fun t => fst (fst t)) (triples st l) = map (item_seen (0 <? first_flags st)) (items_of scale st l).
Proof.
  intros. unfold triples, items_of. rewrite !map_map. pose proof (outs_length st l) as L. revert L. generalize (fst (samples_out st l)) as o. induction l as [|s l IH]; intros [|x o] L; try discriminate; [reflexivity|]. cbn [combine map fst]. f_equal. apply IH. cbn in L. lia.
Qed.
Lemma triples_outs : forall st l, map (fun t => snd (fst t)) (triples st l) = fst (samples_out st l).
Proof.
  intros. unfold triples. rewrite !map_map. pose proof (outs_length st l) as L. revert L. generalize (fst (samples_out st l)) as o. induction l as [|s l IH]; intros [|x o] L; try discriminate; [reflexivity|]. cbn [combine map fst snd]. f_equal. apply IH. cbn in L. lia.
Qed.
Lemma nth_error_combine : forall {A B} (a : list A) (b : list B) j x y, nth_error (combine a b) j = Some (x, y) -> nth_error a j = Some x /\ nth_error b j = Some y.
Proof. induction a as [|u a IH]; intros [|v b] [|j] x y H; try discriminate; cbn in *; [injection H as -> ->; split; reflexivity|]. apply IH. exact H. Qed.
Lemma sint_u32 : forall z, - 2 ^ 31 <= z < 2 ^ 31 -> sint (u32 z) = z.
Proof. intros z H. unfold sint, u32. destruct (Z.ltb_spec (z mod 2 ^ 32) (2 ^ 31)); lia. Qed.
Lemma ticks_off : forall ts s, times_ok scale ts s -> sint (u32 (ticks scale ts (u64 (s_comp s - s_dec s)))) = ticks scale ts (s_comp s - s_dec s).
Proof.
  intros ts s [_ H]. unfold ticks. destruct (Z.eqb_spec ts 10000000) as [->|N]; cbn [negb].
  - assert (E : u32 (u64 (s_comp s - s_dec s)) = u32 (s_comp s - s_dec s)) by (unfold u32, u64; lia). rewrite E. apply sint_u32. exact H.
  - destruct H as [H1 H2]. rewrite u64_id by exact H1. apply sint_u32. lia.
Qed.
Lemma build_counted : forall st m l outs base, Forall (times_ok scale (timescale st)) l -> length outs = length l -> t_flags (m_trun m) = trun_flags st ->
  build m (map (fun '(s, o) => (item_seen (0 <? first_flags st) (item_of scale (timescale st) s), o, s_body s)) (combine l outs)) base = counted scale (timescale st) (0 <? first_flags st) base l.
Proof.
  intros st m l. induction l as [|s l IH]; intros [|o outs] base F L T; try discriminate; [reflexivity|]. cbn [combine map build counted]. pose proof (Forall_inv F) as Hs. rewrite flags_v in T.
  assert (D : sample_dur m (item_seen (0 <? first_flags st) (item_of scale (timescale st) s)) = ticks scale (timescale st) (s_dur s)).
  { unfold sample_dur. rewrite T. replace (Z.testbit (if 0 <? first_flags st then 2821 else 769) 8) with true by (destruct (0 <? first_flags st); reflexivity). cbv iota. unfold item_of. cbn [item_seen fst]. apply sint_u32. destruct Hs as [Hs _]. lia. }
  rewrite !D. f_equal.
  - f_equal. f_equal. unfold sample_cts. rewrite T. destruct (0 <? first_flags st); [|reflexivity]. change (Z.testbit 2821 11) with true. cbv iota. unfold item_of. cbn [item_seen snd]. apply ticks_off. exact Hs.
  - apply IH; [exact (Forall_inv_tail F)|cbn in L; lia|rewrite flags_v; exact T].
Qed.
(** ** sizes *)
Lemma concat_zlen : forall (a b : list (list Z)), length a = length b -> (forall j x y, nth_error a j = Some x -> nth_error b j = Some y -> zlen x = zlen y) -> zlen (concat a) = zlen (concat b).
Proof.
  induction a as [|x a IH]; intros [|y b] L H; try discriminate; [reflexivity|]. cbn [concat]. rewrite !zlen_app'. rewrite (H 0%nat x y eq_refl eq_refl). f_equal. apply IH; [cbn in L; lia|]. intros j u v Hu Hv. exact (H (S j) u v Hu Hv).
Qed.
Lemma mdat_zlen : forall key st l, key_for key st -> room l -> zlen (mdat_of st l) = zlen (concat (map s_body l)).
Proof.
  intros key st l K R. unfold mdat_of. apply concat_zlen; [rewrite outs_length, map_length; reflexivity|]. intros j x y Hx Hy. assert (exists s, nth_error l j = Some s) as (s & Hs) by (destruct (nth_error l j) eqn:Es; [eexists; reflexivity|]; apply nth_error_None in Es; rewrite <- (map_length s_body) in Es; apply nth_error_None in Es; congruence). rewrite (map_nth_error s_body _ _ Hs) in Hy. injection Hy as <-. exact (proj1 (outs_nth key st l j s x K R Hs Hx)).
Qed.
Lemma concat_const : forall {A} (f : A -> list Z) n l, Forall (fun x => zlen (f x) <= n) l -> zlen (concat (map f l)) <= n * zlen l.
Proof. intros A f n l F. induction F as [|x l H F IH]; [change (0 <= n * 0); lia|]. cbn [map concat]. rewrite zlen_app'. replace (zlen (x :: l)) with (1 + zlen l) by (unfold zlen; cbn [length]; lia). lia. Qed.
Lemma room_small : forall key st base l, key_for key st -> room l -> small_frag scale st base l.
Proof.
  intros key st base l K R. unfold small_frag. rewrite (mdat_zlen key) by assumption. unfold room in R. assert (moof_size scale st base l <= 145 + 28 * zlen l); [|lia]. unfold moof_size. rewrite node_zlen. unfold moof_kids. rewrite !all_layout_cons, !zlen_app', !leaf_zlen, !node_zlen. change (all_layout []) with (@nil Z). change (zlen (@nil Z)) with 0. unfold traf_kids, kids_to_trun. rewrite !all_layout_app, !all_layout_cons, !zlen_app', !leaf_zlen. change (all_layout []) with (@nil Z). change (zlen (@nil Z)) with 0. unfold mfhd_body, tfhd_body, full. rewrite !zlen_app', !be_zlen, !be32_zlen.
  assert (A1 : zlen (all_layout (if negb (base =? 2 ^ 64 - 1) then [Leaf TFDT (tfdt_body base)] else [])) <= 20) by (destruct (negb (base =? 2 ^ 64 - 1)); [rewrite all_layout_cons, zlen_app', leaf_zlen; unfold tfdt_body, full; rewrite !zlen_app', !be_zlen, !be32_zlen|]; change (all_layout []) with (@nil Z); change (zlen (@nil Z)) with 0; lia).
  assert (A2 : zlen (trun_body st (items_of scale st l)) <= 16 + 12 * zlen l).
  { unfold trun_body, full. rewrite !zlen_app', !be_zlen, !be32_zlen. assert (zlen (if Z.testbit (trun_flags st) 2 then be32 (first_flags st) else []) <= 4) by (destruct (Z.testbit (trun_flags st) 2); [rewrite be32_zlen|change (zlen (@nil Z)) with 0]; lia). assert (zlen (concat (map (trun_item (trun_flags st)) (items_of scale st l))) <= 12 * zlen (items_of scale st l)).
    { apply concat_const. apply Forall_forall. intros [[d s] c] _. unfold trun_item. rewrite !zlen_app'. destruct (Z.testbit (trun_flags st) 8), (Z.testbit (trun_flags st) 9), (Z.testbit (trun_flags st) 11); rewrite ?be32_zlen; change (zlen (@nil Z)) with 0; lia. }
    replace (zlen (items_of scale st l)) with (zlen l) in * by (unfold items_of, zlen; rewrite map_length; reflexivity). lia. }
  match goal with |- context [zlen (all_layout (match crypt st with Some _ => ?x | None => ?y end))] => assert (A3 : zlen (all_layout (match crypt st with Some _ => x | None => y end)) <= 53 + 16 * zlen l) end.
  { destruct (crypt st) as [cr|] eqn:Ec; [|change (zlen (all_layout [])) with 0; pose proof (zlen_nonneg l); lia]. rewrite !all_layout_cons, !zlen_app', !leaf_zlen. change (all_layout []) with (@nil Z). change (zlen (@nil Z)) with 0. unfold saiz_body, saio_body, senc_body, full. rewrite !zlen_app', !be_zlen, !be32_zlen. set (en := snd (samples_out st l)). assert (Le : zlen en = zlen l) by (unfold zlen, en; rewrite entries_length; [reflexivity|congruence]).
    assert (zlen (concat (map senc_entry en)) <= 16 * zlen en); [|lia]. apply concat_const. pose proof (entries_ok scale st l (key_crypt _ _ K) (fits_small32 l R)) as F. fold en in F. eapply Forall_impl; [|exact F]. intros e (H1 & _ & _). unfold senc_entry. rewrite !zlen_app', !be_zlen, !be32_zlen. unfold zlen. rewrite H1. cbn. lia. }
  lia.
Qed.
(** ** all fragments *)
Definition bytes_of (fr : fragment) : list Z := let '(st, base, l) := fr in frag_bytes scale st base l.
Definition counted_of (fr : fragment) : list sample := let '(st, base, l) := fr in counted scale (timescale st) (0 <? first_flags st) base l.
Lemma write_fragments_ok : forall key frs f ps, Forall (fragment_ok scale key) frs -> write_fragments scale frs (fin f ps) = Some (fin (f ++ concat (map bytes_of frs)) ps).
Proof.
  intros key. induction frs as [|[[st base] l] frs IH]; intros f ps F; [cbn [map concat write_fragments]; rewrite app_nil_r; reflexivity|]. destruct (Forall_inv F) as (K & B & N & R & T). cbn [write_fragments]. rewrite end_fragment_ok; [|exact N|exact (room_small key _ _ _ K R)]. rewrite IH by exact (Forall_inv_tail F). cbn [map concat bytes_of]. rewrite <- app_assoc. reflexivity.
Qed.
Lemma bytes_ge : forall st base l, 36 <= zlen (frag_bytes scale st base l).
Proof. intros. unfold frag_bytes, frag_items. rewrite all_layout_cons, zlen_app'. pose proof (zlen_nonneg (all_layout [Leaf SIDX (sidx_body (final scale st base l) base (cts0_of scale (final scale st base l) l) (zsum (map (fun i => fst (fst i)) (items_of scale (final scale st base l) l)))); Node MOOF (moof_kids scale (final scale st base l) base l); Leaf MDAT (mdat_of (final scale st base l) l)])). change (zlen (layout (Leaf STYP styp_body))) with 36. lia. Qed.
Lemma take_ok : forall key st base l pre post m, key_for key st -> 0 <= base < 2 ^ 63 -> l <> [] -> room l -> Forall (times_ok scale (timescale st)) l -> (crypt st = None -> m_senc m = None) -> zlen pre < 2 ^ 63 ->
  let M := read_back scale st base l (zlen pre) m in take_samples key (pre ++ frag_bytes scale st base l ++ post) M 0 (t_items (m_trun M)) (base_offset M) base = Some (counted scale (timescale st) (0 <? first_flags st) base l).
Proof.
  intros key st base l pre post m K B N R T Sm Hp M. pose proof (room_small key st base l K R) as Sf.
  assert (Ems : m_senc M = match crypt st with Some _ => Some (senc_of st l) | None => None end) by (unfold M, read_back; cbn [m_senc]; destruct (crypt st); [reflexivity|apply Sm; reflexivity]).
  assert (Et : t_items (m_trun M) = map (fun t => fst (fst t)) (triples st l)) by (rewrite triples_items; reflexivity). rewrite Et.
  set (s := final scale st base l). set (Mo := layout (Node MOOF (moof_kids scale s base l))).
  assert (LMo : zlen Mo = moof_size scale st base l) by (unfold Mo; change (moof_size scale s base l = moof_size scale st base l); unfold s, final; apply moof_size_sized).
  set (H0 := layout (Leaf STYP styp_body) ++ layout (Leaf SIDX (sidx_body s base (cts0_of scale s l) (zsum (map (fun i => fst (fst i)) (items_of scale s l))))) ++ Mo ++ be32 (8 + zlen (mdat_of st l)) ++ be32 MDAT).
  assert (Lsb : zlen (sidx_body s base (cts0_of scale s l) (zsum (map (fun i => fst (fst i)) (items_of scale s l)))) = 36) by (destruct (sidx_split s base (cts0_of scale s l) (zsum (map (fun i => fst (fst i)) (items_of scale s l)))) as (a & b & X1 & X2 & X3 & _); rewrite X1, !zlen_app', be32_zlen, X2, X3; reflexivity).
  assert (EH : frag_bytes scale st base l = H0 ++ mdat_of st l) by (unfold frag_bytes, frag_items; fold s; rewrite !all_layout_cons; change (all_layout []) with (@nil Z); rewrite app_nil_r, (layout_leaf MDAT); unfold H0; rewrite <- !app_assoc; reflexivity).
  assert (LH : zlen H0 = 80 + moof_size scale st base l + 8) by (unfold H0; rewrite !zlen_app', leaf_zlen, leaf_zlen, Lsb, !be32_zlen, LMo; change (zlen styp_body) with 28; lia).
  assert (Eo : base_offset M = zlen (pre ++ H0)).
  { unfold base_offset, M, read_back. cbn [m_trun t_flags t_offset m_moof]. rewrite flags_v. replace (Z.testbit (if 0 <? first_flags st then 2821 else 769) 0) with true by (destruct (0 <? first_flags st); reflexivity). cbv iota. rewrite zlen_app', LH.
    rewrite u64_id; [lia|]. unfold small_frag in Sf. pose proof (zlen_nonneg (mdat_of st l)). pose proof (zlen_nonneg pre). pose proof (zlen_nonneg Mo). lia. }
  rewrite Eo, EH, <- app_assoc, app_assoc. unfold mdat_of. rewrite <- triples_outs. rewrite take_general.
  - f_equal. apply build_counted; [exact T|apply outs_length|reflexivity].
  - intros j i o b Hj. unfold triples in Hj. destruct (nth_error (combine l (fst (samples_out st l))) j) as [[s1 o1]|] eqn:Ej; [|rewrite nth_error_map, Ej in Hj; discriminate]. rewrite (map_nth_error _ _ _ Ej) in Hj. injection Hj as <- <- <-. destruct (nth_error_combine _ _ _ _ _ Ej) as [E1 E2]. destruct (outs_nth key st l j s1 o1 K R E1 E2) as [O1 O2]. split; [|exact (O2 M Ems)]. rewrite O1. unfold sample_size, M, read_back. cbn [m_trun t_flags]. rewrite flags_v. replace (Z.testbit (if 0 <? first_flags st then 2821 else 769) 9) with true by (destruct (0 <? first_flags st); reflexivity). cbv iota. unfold item_of. cbn [item_seen fst snd]. apply u32_id. pose proof (proj1 (Forall_forall _ _) (fits_small l R) s1 (nth_error_In _ _ E1)) as Hz. cbv beta in Hz. pose proof (zlen_nonneg (s_body s1)). lia.
Qed.
Lemma read_fragments_ok : forall key frs fuel pre m, Forall (fragment_ok scale key) frs -> (length frs < fuel)%nat -> (key = None -> m_senc m = None) -> let f := pre ++ concat (map bytes_of frs) in zlen f < 2 ^ 63 ->
  read_fragments fuel key f (zlen pre) m = Some (map counted_of frs).
Proof.
  intros key. induction frs as [|[[st base] l] frs IH]; intros [|fuel] pre m F Lf Hm f Lz; try (cbn in Lf; lia).
  - cbn [read_fragments]. unfold f. cbn [map concat]. rewrite app_nil_r. unfold parse. rewrite Z.leb_refl. reflexivity.
  - destruct (Forall_inv F) as (K & B & N & R & T). cbn [read_fragments]. unfold f in *. cbn [map concat bytes_of counted_of] in *. pose proof (room_small key st base l K R) as Sf.
    rewrite parse_ok; [|exact (key_crypt key st K)|exact (fits_small32 l R)|exact Sf|lia]. set (M := read_back scale st base l (zlen pre) m). pose proof (zlen_nonneg pre).
    assert (Emd : (m_mdat M =? 0) = false) by (apply Z.eqb_neq; unfold M, read_back; cbn [m_mdat]; unfold moof_size; pose proof (zlen_nonneg (layout (Node MOOF (moof_kids scale st base l)))); lia). rewrite Emd.
    assert (Eb : m_tfdt M = Some base) by (unfold M, read_back; cbn [m_tfdt]; rewrite (proj2 (Z.eqb_neq base (2 ^ 64 - 1))) by lia; reflexivity). rewrite Eb. unfold s64. rewrite (proj2 (Z.ltb_lt base (2 ^ 63))) by lia.
    assert (Kn : crypt st = None -> m_senc m = None) by (intros Ec; apply Hm; unfold key_for in K; rewrite Ec in K; destruct key; [contradiction|reflexivity]).
    unfold M. rewrite (take_ok key st base l pre (concat (map bytes_of frs)) m K B N R T Kn) by (rewrite zlen_app' in Lz; pose proof (zlen_nonneg (frag_bytes scale st base l ++ concat (map bytes_of frs))); lia). fold M.
    rewrite app_assoc. rewrite IH; [reflexivity|exact (Forall_inv_tail F)|cbn in Lf; lia| |rewrite <- app_assoc; exact Lz].
    intros Ek. unfold M, read_back. cbn [m_senc]. destruct (crypt st) eqn:Ec; [|apply Hm; exact Ek]. unfold key_for in K. rewrite Ek, Ec in K. contradiction.
Qed.
Lemma roundtrip : forall key frs, Forall (fragment_ok scale key) frs -> exists w, write_fragments scale frs empty_file = Some w /\ (zlen (w_file w) < 2 ^ 63 -> read_file key (w_file w) = Some (map counted_of frs)).
Proof.
  intros key frs F. change empty_file with (fin [] []). rewrite (write_fragments_ok key) by exact F. eexists. split; [reflexivity|]. cbn [fin w_file app]. intros L. unfold read_file. apply (read_fragments_ok key frs (S (length (concat (map bytes_of frs)))) [] moof0 F); [|reflexivity|exact L].
  clear F L. induction frs as [|[[st base] l] frs IH]; [cbn; lia|]. cbn [map concat bytes_of length]. rewrite app_length. pose proof (bytes_ge st base l). unfold zlen in H. lia.
Qed.
Lemma counted_exact : forall l video base, continuous base l -> (video = false -> Forall (fun s => s_comp s = s_dec s) l) -> counted scale 10000000 video base l = l.
Proof.
  induction l as [|[b c d u] l IH]; intros video base C V; [reflexivity|]. cbn [continuous s_dec s_dur] in C. destruct C as [<- C]. cbn [counted s_body s_comp s_dec s_dur]. unfold ticks. change (negb (10000000 =? 10000000)) with false. cbv iota. rewrite IH; [|exact C|intros Hv; exact (Forall_inv_tail (V Hv))]. f_equal. f_equal. destruct video; [lia|]. specialize (V eq_refl). apply Forall_inv in V. cbn [s_comp s_dec] in V. lia.
Qed.
(** ** the index *)
Lemma num_field : forall a n v b, 0 <= v < 256 ^ Z.of_nat n -> num_at (a ++ be n v ++ b) (zlen a) n = Some v. Proof. intros. apply num_at_app; [reflexivity|assumption]. Qed.
Lemma frag_boxes : forall key st base l f, key_for key st -> l <> [] -> room l -> exists w fb sb mb, end_fragment scale st base l (mkW f (zlen f) []) = Some w /\ w_file w = f ++ fb
  /\ boxes fb [(STYP, styp_body); (SIDX, sb); (MOOF, mb); (MDAT, concat (fst (samples_out st l)))]
  /\ num_at sb 24 4 = Some (8 + zlen mb + (8 + zlen (concat (map s_body l)))) /\ num_at sb 8 4 = Some (u32 (timescale st)) /\ num_at sb 12 4 = Some (u32 (u64 (cts0_of scale st l + base))) /\ num_at sb 28 4 = Some (u32 (zsum (map (fun s => u32 (ticks scale (timescale st) (s_dur s))) l)))
  /\ mb = all_layout (moof_kids scale (final scale st base l) base l).
Proof.
  intros key st base l f K N R. pose proof (room_small key st base l K R) as Sf. change (mkW f (zlen f) []) with (fin f []). rewrite end_fragment_ok by assumption. set (s := final scale st base l).
  set (sb := sidx_body s base (cts0_of scale s l) (zsum (map (fun i => fst (fst i)) (items_of scale s l)))). exists (fin (f ++ frag_bytes scale st base l) []), (frag_bytes scale st base l), sb, (all_layout (moof_kids scale s base l)).
  split; [reflexivity|]. split; [reflexivity|].
  assert (LM : 8 + zlen (all_layout (moof_kids scale s base l)) = moof_size scale st base l) by (rewrite <- (node_zlen MOOF); change (moof_size scale s base l = moof_size scale st base l); unfold s, final; apply moof_size_sized).
  assert (Lsb : zlen sb = 36) by (destruct (sidx_split s base (cts0_of scale s l) (zsum (map (fun i => fst (fst i)) (items_of scale s l)))) as (a & b & X1 & X2 & X3 & _); unfold sb; rewrite X1, !zlen_app', be32_zlen, X2, X3; reflexivity).
  pose proof (mdat_zlen key st l K R) as Md. unfold small_frag in Sf. pose proof (zlen_nonneg (mdat_of st l)) as Mn. pose proof (zlen_nonneg (all_layout (moof_kids scale s base l))) as On.
  split.
  { unfold frag_bytes. fold s. apply boxes_back. unfold frag_items. repeat (apply Forall2_cons; [split; [reflexivity|split; [|vm_compute; split; congruence]]|]); [| | | |apply Forall2_nil].
    - change (8 + zlen styp_body < 2 ^ 32). change (zlen styp_body) with 28. lia.
    - change (8 + zlen sb < 2 ^ 32). lia.
    - apply fits_node. split; [change (concat (map layout (moof_kids scale s base l))) with (all_layout (moof_kids scale s base l)); lia|]. assert (Z8 : zlen (all_layout (moof_kids scale s base l)) < 2 ^ 31) by lia. assert (FF : forall t b, In (Leaf t b) (moof_kids scale s base l ++ traf_kids scale s base l) -> 8 + zlen b < 2 ^ 32).
      { intros t b I. apply in_app_iff in I. destruct I as [I|I]; [apply in_zlen in I; rewrite leaf_zlen in I; lia|]. apply in_zlen in I. rewrite leaf_zlen in I. assert (In (Node TRAF (traf_kids scale s base l)) (moof_kids scale s base l)) as J by (right; left; reflexivity). apply in_zlen in J. rewrite node_zlen in J. lia. }
      assert (Z9 : 8 + zlen (all_layout (traf_kids scale s base l)) < 2 ^ 31) by (assert (In (Node TRAF (traf_kids scale s base l)) (moof_kids scale s base l)) as J by (right; left; reflexivity); apply in_zlen in J; rewrite node_zlen in J; lia).
      apply Forall_cons; [apply (FF MFHD); left; reflexivity|]. apply Forall_cons; [|apply Forall_nil]. apply fits_node. split; [change (concat (map layout (traf_kids scale s base l))) with (all_layout (traf_kids scale s base l)); lia|].
      apply Forall_forall. intros i Hi. assert (Il : exists t b, i = Leaf t b).
      { unfold traf_kids, kids_to_trun in Hi. rewrite !in_app_iff in Hi. destruct Hi as [[Hi|[Hi|Hi]]|Hi]; [destruct Hi as [<-|[]]|destruct (negb (base =? 2 ^ 64 - 1)); [destruct Hi as [<-|[]]|destruct Hi]|destruct Hi as [<-|[]]|destruct (crypt s); [destruct Hi as [<-|[<-|[<-|[]]]]|destruct Hi]]; do 2 eexists; reflexivity. }
      destruct Il as (t & b & ->). apply (FF t b). apply in_app_iff. right. exact Hi.
    - change (8 + zlen (mdat_of st l) < 2 ^ 32). lia. }
  split; [|split; [|split; [|split; [|reflexivity]]]].
  - destruct (sidx_split s base (cts0_of scale s l) (zsum (map (fun i => fst (fst i)) (items_of scale s l)))) as (a & b & X1 & X2 & X3 & _). unfold sb. rewrite X1, <- X2. transitivity (num_at (a ++ be 4 (g1 s) ++ b) (zlen a) 4); [reflexivity|]. rewrite num_field; [f_equal; change (g1 s) with (moof_size scale st base l + 8 + zlen (mdat_of st l)); lia|]. change (g1 s) with (moof_size scale st base l + 8 + zlen (mdat_of st l)). change (256 ^ Z.of_nat 4) with (2 ^ 32). lia.
  - transitivity (num_at ((full 0 0 ++ be32 (track s)) ++ be 4 (u32 (timescale s)) ++ (be32 (u32 (u64 (cts0_of scale s l + base))) ++ be32 0 ++ be 2 0 ++ be 2 1 ++ be32 (g1 s) ++ be32 (u32 (zsum (map (fun i => fst (fst i)) (items_of scale s l)))) ++ be32 (2 ^ 31 + 2 ^ 28))) 8 4); [f_equal; unfold sb, sidx_body; rewrite <- !app_assoc; reflexivity|]. apply num_at_app; [unfold full; rewrite !zlen_app', !be_zlen, be32_zlen; reflexivity|]. unfold u32. change (256 ^ Z.of_nat 4) with (2 ^ 32). apply Z.mod_pos_bound. lia.
  - transitivity (num_at ((full 0 0 ++ be32 (track s) ++ be32 (u32 (timescale s))) ++ be 4 (u32 (u64 (cts0_of scale s l + base))) ++ (be32 0 ++ be 2 0 ++ be 2 1 ++ be32 (g1 s) ++ be32 (u32 (zsum (map (fun i => fst (fst i)) (items_of scale s l)))) ++ be32 (2 ^ 31 + 2 ^ 28))) 12 4); [f_equal; unfold sb, sidx_body; rewrite <- !app_assoc; reflexivity|]. apply num_at_app; [unfold full; rewrite !zlen_app', !be_zlen, !be32_zlen; reflexivity|]. unfold u32. change (256 ^ Z.of_nat 4) with (2 ^ 32). apply Z.mod_pos_bound. lia.
  - transitivity (num_at ((full 0 0 ++ be32 (track s) ++ be32 (u32 (timescale s)) ++ be32 (u32 (u64 (cts0_of scale s l + base))) ++ be32 0 ++ be 2 0 ++ be 2 1 ++ be32 (g1 s)) ++ be 4 (u32 (zsum (map (fun i => fst (fst i)) (items_of scale s l)))) ++ be32 (2 ^ 31 + 2 ^ 28)) 28 4); [f_equal; unfold sb, sidx_body; rewrite <- !app_assoc; reflexivity|]. rewrite num_at_app; [f_equal; f_equal; f_equal; unfold items_of; rewrite map_map; reflexivity|unfold full; rewrite !zlen_app', !be_zlen, !be32_zlen; reflexivity|]. unfold u32 at 1 2. change (256 ^ Z.of_nat 4) with (2 ^ 32). apply Z.mod_pos_bound. lia.
Qed.
Lemma box_list : forall its, Forall (fun i => exists t b, i = Leaf t b /\ 0 <= t < 2 ^ 32) its -> zlen (all_layout its) < 2 ^ 32 -> boxes (all_layout its) (map (fun i => match i with Leaf t b => (t, b) | _ => (0, []) end) its).
Proof.
  intros its F L. apply boxes_back. induction its as [|i its IH]; [constructor|]. destruct (Forall_inv F) as (t & b & -> & Ht). rewrite all_layout_cons, zlen_app', leaf_zlen in L. pose proof (layout_nonneg its). pose proof (zlen_nonneg b). cbn [map]. constructor; [|apply IH; [exact (Forall_inv_tail F)|lia]]. split; [reflexivity|]. split; [cbn [fits]; lia|exact Ht].
Qed.
Lemma aux_info : forall key st base l, key_for key st -> crypt st <> None -> l <> [] -> room l -> let mb := all_layout (moof_kids scale (final scale st base l) base l) in let entries := concat (map senc_entry (snd (samples_out st l))) in
  exists mf tb before rb zb ab eb off, boxes mb [(MFHD, mf); (TRAF, tb)] /\ boxes tb (before ++ [(TRUN, rb); (SAIZ, zb); (SAIO, ab); (SENC, eb)])
  /\ num_at rb 8 4 = Some (8 + zlen mb + 8) /\ num_at ab 8 4 = Some off /\ skipn 8 eb = entries /\ firstn (length entries) (skipn (Z.to_nat (off - 8)) mb) = entries.
Proof.
  intros key st base l K Ec N R mb entries. pose proof (room_small key st base l K R) as Sf. set (s := final scale st base l) in *.
  assert (Hs : small_frag scale s base l) by (unfold small_frag in *; unfold s, final; rewrite moof_size_sized; exact Sf). pose proof (traf_small scale s base l Hs) as Bt.
  assert (LM : 8 + zlen mb = moof_size scale st base l) by (unfold mb; rewrite <- (node_zlen MOOF); change (moof_size scale s base l = moof_size scale st base l); unfold s, final; apply moof_size_sized).
  set (en := snd (samples_out st l)) in *. set (before := [Leaf TFHD (tfhd_body s)] ++ (if negb (base =? 2 ^ 64 - 1) then [Leaf TFDT (tfdt_body base)] else [])).
  set (rb := trun_body s (items_of scale s l)). set (zb := saiz_body (Z.of_nat (length l))). set (off := aux_offset scale s base l). set (ab := saio_body off). set (eb := senc_body en).
  assert (Ek : traf_kids scale s base l = before ++ [Leaf TRUN rb; Leaf SAIZ zb; Leaf SAIO ab; Leaf SENC eb]) by (unfold traf_kids, kids_to_trun, before; change (crypt s) with (crypt st); destruct (crypt st); [rewrite <- !app_assoc; reflexivity|contradiction]).
  exists (mfhd_body s), (all_layout (traf_kids scale s base l)), (map (fun i => match i with Leaf t b => (t, b) | _ => (0, []) end) before), rb, zb, ab, eb, off.
  unfold small_frag in Sf. pose proof (zlen_nonneg (mdat_of st l)) as Mn. assert (Hfb : Forall (fun i => exists t b, i = Leaf t b /\ 0 <= t < 2 ^ 32) before).
  { unfold before. apply Forall_app. split; [apply Forall_cons; [|apply Forall_nil]; do 2 eexists; split; [reflexivity|vm_compute; split; congruence]|]. destruct (negb (base =? 2 ^ 64 - 1)); [|apply Forall_nil]. apply Forall_cons; [|apply Forall_nil]. do 2 eexists. split; [reflexivity|vm_compute; split; congruence]. }
  split.
  { unfold mb, moof_kids. rewrite !all_layout_cons. change (all_layout []) with (@nil Z). rewrite app_nil_r, layout_leaf, layout_node. set (tk := all_layout (traf_kids scale s base l)) in *.
    pose proof (boxes_back [Leaf MFHD (mfhd_body s); Leaf TRAF tk] [(MFHD, mfhd_body s); (TRAF, tk)]) as BB. cbn [map concat] in BB. rewrite app_nil_r, !layout_leaf in BB. apply BB. assert (zlen (mfhd_body s) = 8) by (unfold mfhd_body, full; rewrite !zlen_app', !be_zlen, be32_zlen; reflexivity). repeat (apply Forall2_cons; [split; [reflexivity|split; [cbn [fits]; lia|vm_compute; split; congruence]]|]). apply Forall2_nil. }
  split.
  { rewrite Ek. pose proof (box_list (before ++ [Leaf TRUN rb; Leaf SAIZ zb; Leaf SAIO ab; Leaf SENC eb])) as BB. rewrite map_app in BB. apply BB; [|rewrite <- Ek; lia]. apply Forall_app. split; [exact Hfb|]. repeat (apply Forall_cons; [do 2 eexists; split; [reflexivity|vm_compute; split; congruence]|]). apply Forall_nil. }
  split.
  { destruct (trun_split s (items_of scale s l)) as (a & b & X1 & X2 & _). unfold rb. rewrite X1, <- X2. transitivity (num_at (a ++ be 4 (g2 s) ++ b) (zlen a) 4); [reflexivity|]. rewrite num_field; [f_equal; change (g2 s) with (moof_size scale st base l + 8); lia|]. change (g2 s) with (moof_size scale st base l + 8). change (256 ^ Z.of_nat 4) with (2 ^ 32). pose proof (zlen_nonneg mb). lia. }
  assert (Lk : zlen (all_layout (traf_kids scale s base l)) = zlen (all_layout (kids_to_trun scale s base l)) + 37 + 16 + zlen entries).
  { unfold traf_kids. change (crypt s) with (crypt st). destruct (crypt st) eqn:Ecr; [|contradiction]. rewrite all_layout_app, zlen_app', !all_layout_cons, !zlen_app', !leaf_zlen. change (snd (samples_out s l)) with en. unfold saiz_body, saio_body, senc_body, full. rewrite !zlen_app', !be_zlen, !be32_zlen. change (zlen (all_layout [])) with 0. fold entries. lia. }
  assert (Hoff : off = 85 + zlen (all_layout (kids_to_trun scale s base l))) by (unfold off, aux_offset; lia). pose proof (layout_nonneg (kids_to_trun scale s base l)) as Ln. pose proof (zlen_nonneg entries) as Le.
  split. { unfold ab, saio_body. rewrite u32_id by lia. transitivity (num_at ((full 0 0 ++ be32 1) ++ be 4 off ++ []) 8 4); [f_equal; rewrite app_nil_r, <- app_assoc; reflexivity|]. apply num_at_app; [unfold full; rewrite !zlen_app', !be_zlen, be32_zlen; reflexivity|]. change (256 ^ Z.of_nat 4) with (2 ^ 32). lia. }
  split. { unfold eb, senc_body, full. fold entries. rewrite <- !app_assoc. rewrite app_assoc, app_assoc. apply (firstn_app_n 8). rewrite !app_length, !be_length, be32_length. reflexivity. }
  unfold mb, moof_kids. rewrite !all_layout_cons. change (all_layout []) with (@nil Z). rewrite app_nil_r, layout_node.
  assert (Et : all_layout (traf_kids scale s base l) = (all_layout (kids_to_trun scale s base l) ++ layout (Leaf SAIZ zb) ++ layout (Leaf SAIO ab) ++ be32 (8 + zlen eb) ++ be32 SENC ++ full 0 2 ++ be32 (Z.of_nat (length en))) ++ entries).
  { unfold traf_kids. change (crypt s) with (crypt st). destruct (crypt st); [|contradiction]. rewrite all_layout_app, !all_layout_cons. change (all_layout []) with (@nil Z). change (snd (samples_out s l)) with en. fold zb off. fold ab. fold eb. rewrite app_nil_r, (layout_leaf SENC). unfold eb at 2, senc_body. fold entries. rewrite <- !app_assoc. reflexivity. }
  rewrite Et at 2. set (big := (all_layout (kids_to_trun scale s base l) ++ _)) in *. rewrite !app_assoc. set (hd := ((layout (Leaf MFHD (mfhd_body s)) ++ _) ++ _) ++ big). assert (Lh : length hd = Z.to_nat (off - 8)).
  { assert (zlen hd = off - 8); [|unfold zlen in *; lia]. unfold hd, big. rewrite !zlen_app', !leaf_zlen, !be32_zlen. unfold mfhd_body, full, zb, saiz_body, ab, saio_body, full. rewrite !zlen_app', !be_zlen, !be32_zlen. lia. }
  destruct (firstn_app_n (Z.to_nat (off - 8)) hd entries Lh) as [_ ->]. apply firstn_all.
Qed.
End Scale.
