(** Proofs about Conform_model: encrypted fragments. *)
From Coq Require Import ZifyNat.
From Verif Require Import Util SampleTab_model SampleTab_proofs HlsCrypt_model Box_model Box_proofs Cenc_model Cenc_proofs Frag_model Frag_proofs Frag_proofs2 Frag_proofs3 Frag_proofs4 Defrag_model Foreign_model Foreign_proofs Sealed_model Sealed_proofs Conform_model Conform_proofs.
Local Open Scope Z_scope.
Local Ltac Zify.zify_post_hook ::= Z.div_mod_to_equations.
Lemma full_two : full 0 2 = be 1 0 ++ be 3 (bit true 1). Proof. vm_compute. reflexivity. Qed.
Lemma full_none : full 0 0 = be 1 0 ++ be 3 (bit (there None) 0). Proof. vm_compute. reflexivity. Qed.
Opaque be be32.

(** ** samples *)
Definition lock_of (sub : bool) (v : Z) (body : list Z) : lock := let c := Z.to_nat (clear_of sub (zlen body)) in mkL v [(firstn c body, skipn c body)].
Fixpoint locks_of (sub : bool) (v : Z) (l : list (list Z)) : list lock := match l with [] => [] | b :: l => lock_of sub v b :: locks_of sub ((v + 1) mod 2 ^ 64) l end.
Lemma plain_lock : forall sub v body, plain_of (lock_of sub v body) = body.
Proof. intros. unfold plain_of, lock_of. cbn [l_parts map concat fst snd]. rewrite app_nil_r. apply firstn_skipn. Qed.
Lemma seals : forall E sub iv body, cipher E -> is_iv iv -> zlen body < 2 ^ 32 -> let k := lock_of sub (be_val 0 iv) body in exists out e, encrypt_sample E sub iv body = (out, e, be 8 ((be_val 0 iv + 1) mod 2 ^ 64))
  /\ sealed E k out /\ lock_ok true k /\ senc_entry e = entry_bytes true k /\ length out = length body.
Proof.
  intros E sub iv body C I S k. pose proof (encrypt_sample_spec E sub iv body C I S) as Q. cbv zeta in Q. pose proof (zlen_nonneg body) as Hn. pose proof (clear_bounds sub (zlen body) Hn) as Hc. assert (Hs : clear_of sub (zlen body) < 2 ^ 16 \/ zlen body = 0) by (unfold clear_of; destruct sub; [|left; lia]; destruct (Z.leb_spec (zlen body) 112); left; lia).
  set (clear := clear_of sub (zlen body)) in *. assert (Ek : k = mkL (be_val 0 iv) [(firstn (Z.to_nat clear) body, skipn (Z.to_nat clear) body)]) by reflexivity. clearbody clear. clearbody k. subst k.
  set (c := firstn (Z.to_nat clear) body) in *. set (p := skipn (Z.to_nat clear) body) in *. assert (Lp : length p = Z.to_nat (zlen body - clear)) by (unfold p; rewrite skipn_length; unfold zlen in *; lia). assert (Lc : length c = Z.to_nat clear) by (unfold c; rewrite firstn_length; unfold zlen in *; lia).
  destruct (iv_num iv I) as (V1 & V2). do 2 eexists. split; [exact Q|]. pose proof (nblocks_enough (zlen body - clear) ltac:(lia)) as NB. set (n := nblocks (zlen body - clear)) in *.
  assert (Lk : length (key_stream E (be_val 0 iv) n) = (16 * n)%nat) by (apply ks_length; exact C).
  assert (Ex : xor_bytes p (key_stream E (be_val 0 iv) (length p)) = xor_bytes p (key_stream E (be_val 0 iv) n)).
  { assert (Hx : (n <= length p)%nat) by (unfold n, nblocks; lia). replace (length p) with (n + (length p - n))%nat by lia. change (key_stream E (be_val 0 iv) (n + (length p - n))) with (ks E (be_val 0 iv) 0 (n + (length p - n))). rewrite ks_split. apply xor_short. change (ks E (be_val 0 iv) 0 n) with (key_stream E (be_val 0 iv) n). lia. }
  assert (Lx : length (xor_bytes p (key_stream E (be_val 0 iv) n)) = length p) by (apply xor_len; lia).
  split; [|split; [|split]].
  - unfold sealed. cbn [l_parts l_vector map concat snd fst]. rewrite app_nil_r. exists [xor_bytes p (key_stream E (be_val 0 iv) n)]. cbn [map concat combine]. rewrite !app_nil_r. split; [rewrite Lx; reflexivity|]. split; [symmetry; exact Ex|reflexivity].
  - unfold lock_ok. cbn [l_parts l_vector map concat snd fst whole_blocks]. rewrite app_nil_r. split; [exact V1|]. split; [split; [right; reflexivity|exact Logic.I]|]. split; [unfold zlen; lia|]. split; [discriminate|]. split; [reflexivity|]. apply Forall_cons; [|apply Forall_nil]. cbn [fst snd]. unfold zlen in *. lia.
  - unfold senc_entry, entry_bytes. cbn [e_iv e_clear e_protected l_vector l_parts map concat fst snd]. rewrite V2, app_nil_r. replace (zlen c) with clear by (unfold zlen; lia). replace (zlen p) with (zlen body - clear) by (unfold zlen in *; lia). reflexivity.
  - rewrite app_length, Lx. unfold zlen in *. lia.
Qed.
Lemma seals_all : forall E sub l iv, cipher E -> is_iv iv -> Forall (fun b => zlen b < 2 ^ 32) l -> let r := encrypt_samples E sub iv l in let locks := locks_of sub (be_val 0 iv) l in
  Forall2 (fun o k => sealed E k o) (map fst r) locks /\ Forall (lock_ok true) locks /\ map senc_entry (map snd r) = map (entry_bytes true) locks /\ consecutive (be_val 0 iv) locks /\ map plain_of locks = l /\ map (@length Z) (map fst r) = map (@length Z) l.
Proof.
  intros E sub. induction l as [|b l IH]; intros iv C I F r locks; [repeat split; constructor|]. destruct (seals E sub iv b C I (Forall_inv F)) as (out & e & Q & S1 & S2 & S3 & S4). destruct (iv_num iv I) as (V1 & V2).
  assert (Hw : 0 <= (be_val 0 iv + 1) mod 2 ^ 64 < 2 ^ 64) by (apply Z.mod_pos_bound; lia). specialize (IH (be 8 ((be_val 0 iv + 1) mod 2 ^ 64)) C (be8_iv _) (Forall_inv_tail F)). cbv zeta in IH. rewrite be8_val in IH by exact Hw. destruct IH as (I1 & I2 & I3 & I4 & I5 & I6).
  unfold r, locks. cbn [encrypt_samples locks_of]. rewrite Q. cbn [map fst snd consecutive]. split; [constructor; assumption|]. split; [constructor; assumption|]. split; [rewrite S3, I3; reflexivity|]. split; [split; [reflexivity|exact I4]|]. split; [rewrite plain_lock, I5; reflexivity|rewrite S4, I6; reflexivity].
Qed.
(** ** fragments *)
Section Scale.
Variable scale : Z -> Z -> Z.
Definition hidden_samples (st : setting) (l : list sample) (outs : list (list Z)) : list xsample := map (fun t => let g := given scale (timescale st) (0 <? first_flags st) (fst t) in mkX (snd t) (x_dur g) 0 (x_cts g)) (combine l outs).
Definition said_sealed (st : setting) (base : Z) (l : list sample) : foreign :=
  let s := final scale st base l in
  mkFo [(STYP, styp_body); (SIDX, sidx_body s base (cts0_of scale s l) (zsum (map (fun i => fst (fst i)) (items_of scale s l))))] (sequence st) (track st) (mkH false None None None None 0) 1 base []
    (mkU 1 true (if 0 <? first_flags st then Some (first_flags st) else None) true true false (0 <? first_flags st) 0)
    [(SAIZ, saiz_body (Z.of_nat (length l))); (SAIO, saio_body (aux_offset scale s base l)); (SENC, senc_body (snd (samples_out st l)))] (hidden_samples st l (fst (samples_out st l))).
Lemma hidden_entries : forall st l outs, map (@length Z) outs = map (@length Z) (map s_body l) -> Forall (times_ok scale (timescale st)) l -> Forall (fun s => zlen (s_body s) < 2 ^ 32) l ->
  map (trun_item (trun_flags st)) (items_of scale st l) = map (entry_of (mkU 1 true (if 0 <? first_flags st then Some (first_flags st) else None) true true false (0 <? first_flags st) 0)) (hidden_samples st l outs)
  /\ map x_body (hidden_samples st l outs) = outs /\ length (hidden_samples st l outs) = length l
  /\ Forall2 (fun y s => x_dur y = ticks scale (timescale st) (s_dur s) /\ zlen (x_body y) = zlen (s_body s) /\ x_cts y = (if 0 <? first_flags st then ticks scale (timescale st) (s_comp s - s_dec s) else 0)) (hidden_samples st l outs) l
  /\ opened (hidden_samples st l outs) (map s_body l) = map (given scale (timescale st) (0 <? first_flags st)) l.
Proof.
  intros st. induction l as [|s l IH]; intros [|o outs] Lo T F; try discriminate; [repeat split; constructor|]. cbn [map] in Lo. injection Lo as L1 L2. destruct (IH outs L2 (Forall_inv_tail T) (Forall_inv_tail F)) as (H1 & H2 & H3 & H4 & H5).
  unfold hidden_samples, items_of, opened in *. cbn [combine map fst snd length x_body]. split; [rewrite H1; f_equal; rewrite given_entry by (first [exact (Forall_inv T)|exact (Forall_inv F)]); unfold entry_of, given; cbn [u_dur u_size u_flags u_cts x_dur x_body x_cts x_flags]; unfold zlen; rewrite L1; reflexivity|].
  split; [rewrite H2; reflexivity|]. split; [rewrite H3; reflexivity|]. split; [constructor; [unfold given, zlen; cbn [x_dur x_body x_cts]; rewrite L1; repeat split|exact H4]|]. rewrite H5. reflexivity.
Qed.
Lemma sealed_moof : forall st base l position, crypt st <> None -> 0 <= base < 2 ^ 63 ->
  map (trun_item (trun_flags st)) (items_of scale st l) = map (entry_of (o_run (said_sealed st base l))) (o_samples (said_sealed st base l)) -> length (o_samples (said_sealed st base l)) = length l ->
  layout (Node MOOF (moof_kids scale (final scale st base l) base l)) = moof_of (said_sealed st base l) position (moof_size scale st base l + 8).
Proof.
  intros st base l position Ec B He Hl. rewrite moof_layout. apply (f_equal layout), (f_equal (Node MOOF)). unfold moof_kids, moof_content. apply f_equal2; [apply (f_equal (Leaf MFHD)); unfold mfhd_body; rewrite full_zero; reflexivity|]. apply f_equal2; [|reflexivity]. apply (f_equal (Node TRAF)).
  unfold traf_kids, traf_content, kids_to_trun. change (crypt (final scale st base l)) with (crypt st). destruct (crypt st) as [cr|] eqn:Ecr; [|destruct (Ec eq_refl)]. replace (negb (base =? 2 ^ 64 - 1)) with true by lia. change (leaves (o_inside (said_sealed st base l))) with (@nil item). cbn [app]. apply f_equal2; [|apply f_equal2; [|apply f_equal2]].
  - apply f_equal. unfold tfhd_body, tfhd_content, said_sealed. cbn [o_head o_track h_base h_desc h_dur h_size h_flags h_more opt]. rewrite head_zero, !app_nil_r, <- !app_assoc. reflexivity.
  - apply f_equal. unfold tfdt_body, tfdt_content, said_sealed. cbn [o_tfdt o_base]. change (1 =? 1) with true. cbv iota. rewrite be8_halves. unfold full. rewrite <- !app_assoc. reflexivity.
  - apply f_equal. unfold trun_body, trun_content. rewrite <- He. unfold zlen. rewrite Hl. unfold said_sealed. cbn [o_run u_version u_offset u_first u_dur u_size u_flags u_cts u_more]. change (trun_flags (final scale st base l)) with (trun_flags st). change (first_flags (final scale st base l)) with (first_flags st). change (g2 (final scale st base l)) with (moof_size scale st base l + 8). change (items_of scale (final scale st base l) l) with (items_of scale st l).
    unfold full. set (u := mkU 1 true (if 0 <? first_flags st then Some (first_flags st) else None) true true false (0 <? first_flags st) 0). replace (trun_flags' u) with (trun_flags st) by (rewrite run_flags; reflexivity). rewrite <- !app_assoc. apply f_equal2; [reflexivity|]. apply f_equal2; [reflexivity|]. apply f_equal2; [change be32 with (be 4); unfold items_of; rewrite !map_length; reflexivity|]. apply f_equal2; [reflexivity|]. apply f_equal2; [|reflexivity].
    rewrite flags_v. destruct (0 <? first_flags st); reflexivity.
  - reflexivity.
Qed.
Lemma sealed_conforms : forall E sub iv st base l f, fragment_ok scale (Some E) (st, base, l) -> crypt st = Some (E, sub, iv) -> first_flags st < 2 ^ 32 -> exists w x added locks, end_fragment scale st base l (mkW f (zlen f) []) = Some w /\ w_file w = f ++ added
  /\ laid_out x (zlen f) added /\ sealed_ok E x locks /\ says_sealed scale st base l x locks /\ consecutive (be_val 0 iv) locks /\ map fst (o_before x) = [STYP; SIDX] /\ o_inside x = [] /\ map fst (o_after x) = [SAIZ; SAIO; SENC].
Proof.
  intros E sub iv st base l f (K & B & N & R & T) Ec FF. pose proof (room_small scale (Some E) st base l K R) as Sf. change (mkW f (zlen f) []) with (fin f []). rewrite end_fragment_ok by assumption.
  assert (CI : cipher E /\ is_iv iv) by (unfold key_for in K; rewrite Ec in K; tauto). destruct CI as (C & I).
  pose proof (mdat_zlen (Some E) st l K R) as Mz. unfold mdat_of in Mz.
  assert (F32 : Forall (fun s => zlen (s_body s) < 2 ^ 32) l) by (exact (fits_small32 l R)).
  assert (Fb : Forall (fun b => zlen b < 2 ^ 32) (map s_body l)) by (apply Forall_map; exact F32).
  destruct (seals_all E sub (map s_body l) iv C I Fb) as (S1 & S2 & S3 & S4 & S5 & S6). set (locks := locks_of sub (be_val 0 iv) (map s_body l)) in *.
  assert (Eo : fst (samples_out st l) = map fst (encrypt_samples E sub iv (map s_body l))) by (unfold samples_out; rewrite Ec; reflexivity).
  assert (Ee : snd (samples_out st l) = map snd (encrypt_samples E sub iv (map s_body l))) by (unfold samples_out; rewrite Ec; reflexivity). rewrite <- Eo in S1, S6. rewrite <- Ee in S3.
  destruct (hidden_entries st l (fst (samples_out st l)) S6 T F32) as (H1 & H2 & H3 & H4 & H5).
  set (x := said_sealed st base l). assert (Ls : length locks = length l) by (rewrite <- (map_length plain_of locks), S5, map_length; reflexivity).
  assert (Mo : forall position, layout (Node MOOF (moof_kids scale (final scale st base l) base l)) = moof_of x position (moof_size scale st base l + 8)) by (intros position; apply sealed_moof; [congruence|exact B|exact H1|exact H3]).
  assert (Lm : zlen (moof_of x 0 0) = moof_size scale st base l).
  { rewrite (moof_zlen _ 0 0 0 (moof_size scale st base l + 8)), <- (Mo 0). change (moof_size scale (final scale st base l) base l = moof_size scale st base l). unfold final. apply moof_size_sized. }
  exists (fin (f ++ frag_bytes scale st base l) []), x, (frag_bytes scale st base l), locks. split; [reflexivity|]. split; [reflexivity|].
  assert (Bo : map x_body (o_samples x) = fst (samples_out st l)) by exact H2.
  assert (Md : mdat_of st l = concat (fst (samples_out st l))) by reflexivity.
  pose proof (zlen_nonneg (concat (fst (samples_out st l)))) as Mn. pose proof (zlen_nonneg (moof_of x 0 0)) as Mon. unfold small_frag in Sf. rewrite Md in Sf.
  assert (Sm : zlen (senc_body (snd (samples_out st l))) < 2 ^ 31).
  { assert (Hin : In (Leaf SENC (senc_body (snd (samples_out st l)))) (traf_kids scale st base l)) by (unfold traf_kids; rewrite Ec; apply in_app_iff; right; right; right; left; reflexivity). apply in_zlen in Hin. rewrite leaf_zlen in Hin.
    assert (Hin2 : In (Node TRAF (traf_kids scale st base l)) (moof_kids scale st base l)) by (right; left; reflexivity). apply in_zlen in Hin2. rewrite node_zlen in Hin2. unfold moof_size in Sf. rewrite node_zlen in Sf. lia. }
  assert (Es : senc_body (snd (samples_out st l)) = senc_content true locks).
  { unfold senc_body, senc_content. rewrite full_two, S3, <- !app_assoc. do 2 f_equal. change be32 with (be 4). f_equal. f_equal. unfold zlen. rewrite <- (map_length senc_entry (snd (samples_out st l))), S3, map_length. reflexivity. }
  split; [|split; [|split; [|split; [exact S4|split; [reflexivity|split; reflexivity]]]]].
  - eexists. split; [|rewrite other_leaves, Bo, <- Md, <- mdat_letters; exact (four _ _ _ _)]. rewrite (Mo (zlen f + zlen (other_boxes (o_before x)))). f_equal. rewrite (moof_zlen _ _ _ 0 0), Lm. reflexivity.
  - split; [|split; [apply Forall_nil|split]].
    + apply others_two; [|vm_compute; reflexivity]. destruct (sidx_split (final scale st base l) base (cts0_of scale (final scale st base l) l) (zsum (map (fun i => fst (fst i)) (items_of scale (final scale st base l) l)))) as (a & b & X1 & X2 & X3 & _). rewrite X1, !zlen_app', be32_zlen, X2, X3. lia.
    + unfold fields_ok. rewrite Lm, Bo. cbn [x said_sealed o_head o_tfdt o_base o_run h_desc h_dur h_size h_flags h_more word u_version u_first u_more].
      do 4 (split; [exact Logic.I|]). split; [lia|]. split; [right; split; [reflexivity|exact B]|]. split; [cbn; lia|]. split; [unfold x, said_sealed; cbn [o_run u_first]; destruct (Z.ltb_spec 0 (first_flags st)); cbn [word]; [lia|exact Logic.I]|]. split; [cbn; lia|].
      split; [unfold room in R; pose proof (zlen_nonneg (concat (map s_body l))); unfold zlen in *; change (o_samples x) with (hidden_samples st l (fst (samples_out st l))); rewrite H3; lia|]. split; [lia|]. split; [lia|].
      change (o_samples x) with (hidden_samples st l (fst (samples_out st l))). change (o_head x) with (mkH false None None None None 0). change (o_run x) with (mkU 1 true (if 0 <? first_flags st then Some (first_flags st) else None) true true false (0 <? first_flags st) 0).
      clear - H4 T F32. induction H4 as [|y s ys l (D1 & D2 & D3) H4 IH]; [constructor|]. constructor; [|exact (IH (Forall_inv_tail T) (Forall_inv_tail F32))]. pose proof (Forall_inv F32) as F. cbv beta in F. destruct (Forall_inv T) as [Td Tc].
      unfold sample_fits. cbn [u_dur u_size u_cts u_version]. rewrite D1, D2, D3. split; [exact Td|]. split; [discriminate|]. split; [exact F|]. split; [discriminate|].
      destruct (0 <? first_flags st); [|reflexivity]. change (1 =? 1) with true. cbv iota. unfold ticks. destruct (Z.eqb_spec (timescale st) 10000000) as [E0|E0]; cbn [negb]; lia.
    + exists true, [(SAIZ, saiz_body (Z.of_nat (length l))); (SAIO, saio_body (aux_offset scale (final scale st base l) base l))], []. split; [rewrite <- Es; reflexivity|]. split; [|split; [apply Forall_nil|]].
      * assert (Ll : 0 <= Z.of_nat (length l) < 2 ^ 31) by (unfold room, zlen in *; lia). apply Forall_cons; [|apply Forall_cons; [|apply Forall_nil]]; cbn [fst snd].
        -- split; [vm_compute; split; congruence|]. split; [unfold saiz_body, full; cbn [snd]; rewrite !zlen_app', !be_zlen, be32_zlen; lia|]. right. left. split; [reflexivity|]. exists None, 16, (Z.of_nat (length l)), []. split; [unfold saiz_body; cbn [snd]; rewrite full_none, !app_nil_r; cbn [opt app]; rewrite <- !app_assoc; reflexivity|]. cbn; lia.
        -- split; [vm_compute; split; congruence|]. split; [unfold saio_body, full; cbn [snd]; rewrite !zlen_app', !be_zlen, !be32_zlen; lia|]. right. right. split; [reflexivity|]. exists 0, None, 1, (be32 (u32 (aux_offset scale (final scale st base l) base l))). split; [unfold saio_body; cbn [snd]; rewrite full_none; cbn [opt app]; rewrite <- !app_assoc; reflexivity|]. rewrite be32_zlen. cbn. lia.
      * split; [exact S2|]. split; [rewrite <- Es; lia|].
        change (o_samples x) with (hidden_samples st l (fst (samples_out st l))). clear - S1 H2. revert S1. rewrite <- H2 at 1. generalize (hidden_samples st l (fst (samples_out st l))). intros ys S1. revert S1. generalize locks. induction ys as [|y ys IH]; intros lk S1; inversion S1; subst; constructor; [assumption|apply IH; assumption].
  - do 6 (split; [reflexivity|]). split; [exact Ls|]. rewrite S5. exact H5.
Qed.
End Scale.
