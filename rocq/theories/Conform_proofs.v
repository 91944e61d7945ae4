(** Proofs about Conform_model. *)
From Coq Require Import ZifyNat.
From Verif Require Import Util SampleTab_model SampleTab_proofs HlsCrypt_model Box_model Box_proofs Cenc_model Cenc_proofs Frag_model Frag_proofs Frag_proofs2 Frag_proofs3 Frag_proofs4 Defrag_model Foreign_model Foreign_proofs Conform_model.
Local Open Scope Z_scope.
Local Ltac Zify.zify_post_hook ::= Z.div_mod_to_equations.

Lemma be8_halves : forall x, be 8 x = be32 (x / 2 ^ 32) ++ be32 (u32 x).
Proof. intros x. unfold be32, u32. change (2 ^ 32) with (256 ^ Z.of_nat 4). rewrite be_mod. exact (be_app 4 4 x). Qed.
Lemma full_zero : full 0 0 = be 4 0. Proof. vm_compute. reflexivity. Qed.
Lemma head_zero : full 0 0 = be 1 0 ++ be 3 (bit false 0 + bit (there None) 1 + bit (there None) 3 + bit (there None) 4 + bit (there None) 5 + 65536 * 0). Proof. vm_compute. reflexivity. Qed.
Lemma run_flags : forall st, trun_flags st = bit true 0 + bit (there (if 0 <? first_flags st then Some (first_flags st) else None)) 2 + bit true 8 + bit true 9 + bit false 10 + bit (0 <? first_flags st) 11 + 65536 * 0.
Proof. intros. rewrite flags_v. destruct (0 <? first_flags st); vm_compute; reflexivity. Qed.
Opaque be be32.
Section Scale.
Variable scale : Z -> Z -> Z.
Lemma given_entry : forall st s, times_ok scale (timescale st) s -> zlen (s_body s) < 2 ^ 32 ->
  trun_item (trun_flags st) (item_of scale (timescale st) s) = entry_of (mkU 1 true (if 0 <? first_flags st then Some (first_flags st) else None) true true false (0 <? first_flags st) 0) (given scale (timescale st) (0 <? first_flags st) s).
Proof.
  intros st s T L. pose proof (ticks_off scale (timescale st) s T) as K. pose proof (zlen_nonneg (s_body s)). unfold item_of, entry_of, given. cbn [u_dur u_size u_flags u_cts x_dur x_body x_cts x_flags]. unfold trun_item. rewrite flags_v.
  assert (Ed : u32 (ticks scale (timescale st) (s_dur s)) = ticks scale (timescale st) (s_dur s)) by (destruct T as [T _]; apply u32_id; lia). rewrite Ed. rewrite (u32_id (zlen (s_body s))) by lia.
  destruct (0 <? first_flags st).
  - change (Z.testbit 2821 8) with true. change (Z.testbit 2821 9) with true. change (Z.testbit 2821 11) with true. cbv iota. rewrite app_nil_l. rewrite <- K. set (c := ticks scale (timescale st) (u64 (s_comp s - s_dec s))). assert (E : u32 c = sint (u32 c) mod 2 ^ 32) by (unfold sint, u32; destruct (c mod 2 ^ 32 <? 2 ^ 31); lia). rewrite <- E. reflexivity.
  - change (Z.testbit 769 8) with true. change (Z.testbit 769 9) with true. change (Z.testbit 769 11) with false. cbv iota. rewrite !app_nil_r, ?app_nil_l. reflexivity.
Qed.
Definition said (st : setting) (base : Z) (l : list sample) : foreign :=
  let s := final scale st base l in
  mkFo [(STYP, styp_body); (SIDX, sidx_body s base (cts0_of scale s l) (zsum (map (fun i => fst (fst i)) (items_of scale s l))))] (sequence st) (track st) (mkH false None None None None 0) 1 base []
    (mkU 1 true (if 0 <? first_flags st then Some (first_flags st) else None) true true false (0 <? first_flags st) 0) [] (map (given scale (timescale st) (0 <? first_flags st)) l).
Lemma said_says : forall st base l, says scale st base l (said st base l).
Proof. intros. repeat split. Qed.
Lemma said_bodies : forall st base l, map x_body (o_samples (said st base l)) = map s_body l.
Proof. intros. unfold said. cbn [o_samples]. rewrite map_map. reflexivity. Qed.
Lemma said_moof : forall st base l position, key_for None st -> room l -> 0 <= base < 2 ^ 63 -> Forall (times_ok scale (timescale st)) l ->
  layout (Node MOOF (moof_kids scale (final scale st base l) base l)) = moof_of (said st base l) position (moof_size scale st base l + 8).
Proof.
  intros st base l position K R B T. rewrite moof_layout. apply (f_equal layout), (f_equal (Node MOOF)). unfold key_for in K. destruct (crypt st) eqn:Ec; [destruct K|]. unfold moof_kids, moof_content. apply f_equal2; [apply (f_equal (Leaf MFHD)); unfold mfhd_body; rewrite full_zero; reflexivity|]. apply f_equal2; [|reflexivity]. apply (f_equal (Node TRAF)).
  unfold traf_kids, traf_content, kids_to_trun. change (crypt (final scale st base l)) with (crypt st). rewrite Ec. replace (negb (base =? 2 ^ 64 - 1)) with true by lia. rewrite app_nil_r. change (leaves (o_inside (said st base l))) with (@nil item). change (leaves (o_after (said st base l))) with (@nil item). cbn [app]. apply f_equal2; [|apply f_equal2; [|apply f_equal2; [|reflexivity]]].
  - apply f_equal. unfold tfhd_body, tfhd_content, said. cbn [o_head o_track h_base h_desc h_dur h_size h_flags h_more opt]. rewrite head_zero, !app_nil_r, <- !app_assoc. reflexivity.
  - apply f_equal. unfold tfdt_body, tfdt_content, said. cbn [o_tfdt o_base]. change (1 =? 1) with true. cbv iota. rewrite be8_halves. unfold full. rewrite <- !app_assoc. reflexivity.
  - apply f_equal. unfold trun_body, trun_content, said. cbn [o_run o_samples u_version u_offset u_first u_dur u_size u_flags u_cts u_more]. change (trun_flags (final scale st base l)) with (trun_flags st). change (first_flags (final scale st base l)) with (first_flags st). change (g2 (final scale st base l)) with (moof_size scale st base l + 8). change (items_of scale (final scale st base l) l) with (items_of scale st l).
    unfold full. set (u := mkU 1 true (if 0 <? first_flags st then Some (first_flags st) else None) true true false (0 <? first_flags st) 0). replace (trun_flags' u) with (trun_flags st) by (rewrite run_flags; reflexivity). rewrite <- !app_assoc. apply f_equal2; [reflexivity|]. apply f_equal2; [reflexivity|]. apply f_equal2; [change be32 with (be 4); unfold items_of, zlen; rewrite !map_length; reflexivity|]. apply f_equal2; [reflexivity|]. apply f_equal2.
    + rewrite flags_v. destruct (0 <? first_flags st); reflexivity.
    + apply (f_equal (@concat Z)). unfold items_of. rewrite !map_map. apply map_ext_in. intros s Hs. apply given_entry; [exact (proj1 (Forall_forall _ _) T s Hs)|]. pose proof (proj1 (Forall_forall _ _) (fits_small32 l R) s Hs) as F. exact F.
Qed.
Lemma others_two : forall a b, 8 + zlen b < 2 ^ 32 -> 8 + zlen a < 2 ^ 32 -> others_ok [(STYP, a); (SIDX, b)].
Proof.
  intros a b La Lb. assert (N : forall t, forallb (fun k => negb (t =? k)) known = true -> ~ In t known) by (intros t H K; rewrite forallb_forall in H; specialize (H t K); rewrite Z.eqb_refl in H; discriminate).
  apply Forall_cons; [|apply Forall_cons; [|apply Forall_nil]]; cbn [fst snd]; (split; [vm_compute; split; congruence|]; split; [apply N; vm_compute; reflexivity|assumption]).
Qed.
Lemma four : forall a b c d, all_layout [a; b; c; d] = all_layout [a; b] ++ layout c ++ layout d.
Proof. intros. unfold all_layout. cbn [map concat]. rewrite !app_nil_r, <- !app_assoc. reflexivity. Qed.
Lemma mdat_letters : forall b, layout (Leaf MDAT b) = a_box [109; 100; 97; 116] b.
Proof. intros. destruct letters as (_ & _ & _ & _ & _ & _ & <-). reflexivity. Qed.
Lemma written_conforms : forall st base l f, fragment_ok scale None (st, base, l) -> first_flags st < 2 ^ 32 -> exists w x added, end_fragment scale st base l (mkW f (zlen f) []) = Some w /\ w_file w = f ++ added
  /\ laid_out x (zlen f) added /\ foreign_ok x /\ says scale st base l x /\ map fst (o_before x) = [STYP; SIDX] /\ o_inside x = [] /\ o_after x = [].
Proof.
  intros st base l f (K & B & N & R & T) FF. pose proof (room_small scale None st base l K R) as Sf. change (mkW f (zlen f) []) with (fin f []). rewrite end_fragment_ok by assumption. exists (fin (f ++ frag_bytes scale st base l) []), (said st base l), (frag_bytes scale st base l).
  assert (Md : mdat_of st l = concat (map s_body l)) by (unfold mdat_of, samples_out, key_for in *; destruct (crypt st); [destruct K|reflexivity]).
  assert (Ls : zlen (moof_of (said st base l) 0 0) = moof_size scale st base l).
  { rewrite (moof_zlen _ 0 0 0 (moof_size scale st base l + 8)), <- (said_moof st base l 0 K R B T). change (moof_size scale (final scale st base l) base l = moof_size scale st base l). unfold final. apply moof_size_sized. }
  split; [reflexivity|]. split; [reflexivity|]. split; [|split; [|split; [apply said_says|split; [reflexivity|split; reflexivity]]]].
  - eexists. split; [|].
    2: { rewrite other_leaves, said_bodies, <- Md, <- mdat_letters. exact (four _ _ _ _). }
    rewrite (said_moof st base l (zlen f + zlen (other_boxes (o_before (said st base l)))) K R B T). f_equal. rewrite (moof_zlen _ _ _ 0 0), Ls. reflexivity.
  - unfold small_frag in Sf. rewrite Md in Sf. pose proof (zlen_nonneg (concat (map s_body l))). pose proof (zlen_nonneg (moof_of (said st base l) 0 0)).
    split; [|split; [apply Forall_nil|split; [apply Forall_nil|]]].
    + apply others_two; [|vm_compute; reflexivity]. destruct (sidx_split (final scale st base l) base (cts0_of scale (final scale st base l) l) (zsum (map (fun i => fst (fst i)) (items_of scale (final scale st base l) l)))) as (a & b & X1 & X2 & X3 & _). rewrite X1, !zlen_app', be32_zlen, X2, X3. lia.
    + unfold fields_ok. rewrite Ls, said_bodies. cbn [said o_head o_tfdt o_base o_run o_samples h_desc h_dur h_size h_flags h_more word u_version u_first u_more].
      do 4 (split; [exact Logic.I|]). split; [lia|]. split; [right; split; [reflexivity|exact B]|]. split; [lia|]. split; [destruct (Z.ltb_spec 0 (first_flags st)); cbn [word]; [lia|exact Logic.I]|]. split; [lia|].
      split; [unfold room in R; unfold zlen in *; rewrite map_length; lia|]. split; [lia|]. split; [lia|].
      apply Forall_forall. intros y Hy. apply in_map_iff in Hy. destruct Hy as (s & <- & Hs). pose proof (proj1 (Forall_forall _ _) T s Hs) as Ts. pose proof (proj1 (Forall_forall _ _) (fits_small32 l R) s Hs) as F. cbv beta in F.
      unfold sample_fits, given. cbn [x_dur x_body x_cts u_dur u_size u_cts u_version]. destruct Ts as [Td Tc]. split; [exact Td|]. split; [discriminate|]. split; [exact F|]. split; [discriminate|].
      destruct (0 <? first_flags st); [|reflexivity]. change (1 =? 1) with true. cbv iota. unfold ticks. destruct (Z.eqb_spec (timescale st) 10000000) as [E|E]; cbn [negb]; lia.
Qed.
End Scale.
